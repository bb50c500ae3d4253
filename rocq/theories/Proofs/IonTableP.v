(** The forward X-ray amplitudes of ions: the table and the sub-shells. *)
From Coq Require Import Reals ZArith String List Ascii Bool Lra Lia.
From Coquelicot Require Import Coquelicot.
From Verif Require Import Spec.SlaterSpec Spec.Text Spec.IonSpec Spec.FormSpec Model.Strings Model.Numbers Model.Ions Model.Slater Model.RadialTable Model.IonFactor Proofs.SlaterP Proofs.IonsP Proofs.ShellsP Proofs.FormTablesP Proofs.IonFactorP.
Import ListNotations.
Open Scope R_scope.

Definition near_one (l : list (Z * nat * Z)) : bool := let p := norm_z l in (1000 * Z.abs (fst p - one_z) + 1000 * snd p <=? one_z)%Z.
Definition off_names : list string := ["Ne"; "Mo"]%string.
Lemma all_terms : forallb (fun e => forallb term_ok (snd e)) radial_table = true.
Proof. vm_compute. reflexivity. Qed.
Lemma all_near : forallb (fun e => if existsb (String.eqb (fst (fst e))) off_names then true else near_one (snd e)) radial_table = true.
Proof. vm_compute. reflexivity. Qed.
Lemma find_orbital_in : forall t atom shell o, find_orbital t atom shell = Some o -> exists a s, In (a, s, o) t /\ text a = atom.
Proof.
  induction t as [|[[a s] u] t IH]; intros atom shell o H; [discriminate H|]. cbn [find_orbital] in H.
  assert (R : find_orbital t atom shell = Some o -> exists a0 s0, In (a0, s0, o) ((a, s, u) :: t) /\ text a0 = atom).
  { intros E. destruct (IH _ _ _ E) as (a' & s' & I & T). exists a', s'. split; [right; exact I|exact T]. }
  destruct (same_text (text a) atom) eqn:E1; [|apply R, H]. destruct (same_text (text s) shell) eqn:E2; [|apply R, H]. injection H as <-. exists a, s. split; [left; reflexivity|].
  unfold same_text in E1. destruct (list_eq_dec ascii_dec (text a) atom) as [E|]; [exact E|discriminate E1].
Qed.
Lemma found_terms : forall atom shell o, find_orbital radial_table atom shell = Some o -> forallb term_ok o = true.
Proof. intros atom shell o H. destruct (find_orbital_in _ _ _ _ H) as (a & s & I & _). pose proof all_terms as A. rewrite forallb_forall in A. exact (A _ I). Qed.
Lemma found_near : forall name shell o, ~ In name off_names -> find_orbital radial_table (text name) shell = Some o -> near_one o = true.
Proof.
  intros name shell o N H. destruct (find_orbital_in _ _ _ _ H) as (a & s & I & T). apply text_inj in T. subst a. pose proof all_near as A. rewrite forallb_forall in A. specialize (A _ I). cbn [fst snd] in A.
  destruct (existsb (String.eqb name) off_names) eqn:E; [|exact A]. exfalso. apply N. apply existsb_exists in E. destruct E as [x [X1 X2]]. apply String.eqb_eq in X2. subst x. exact X1.
Qed.

(** the loop over the sub-shells *)
Section WithTable.
Context (tab : list (string * string * list (Z * nat * Z)))
  (tab_terms : forall atom shell o, find_orbital tab atom shell = Some o -> forallb term_ok o = true)
  (tab_near : forall name shell o, ~ In name off_names -> find_orbital tab (text name) shell = Some o -> near_one o = true).
Definition orbital_of (atom : str) (n : Z) (l : ascii) : option (list (Z * nat * Z)) := find_orbital tab (capitalize atom) (lower (print_Z n ++ [l])).
Lemma orbital_eq : forall atom n l, find_orbital tab (capitalize atom) (lower (print_Z n ++ [l])) = orbital_of atom n l.
Proof. intros. unfold orbital_of. exact (eq_refl _). Qed.
Fixpoint total_z (atom : str) (L : list subshell) : option (Z * Z) :=
  match L with
  | [] => Some (0, 0)%Z
  | (n, l, e) :: r => match orbital_of atom n l, total_z atom r with
                      | Some o, Some s => let p := norm_z o in Some (add2 (e * fst p, e * snd p)%Z s)
                      | _, _ => None end
  end.
Lemma within_scale : forall x p e, (0 <= e)%Z -> within x p -> within (x * IZR e) (e * fst p, e * snd p)%Z.
Proof.
  intros x p e E H. unfold within in *. cbn [fst snd]. rewrite !mult_IZR. replace (IZR one_z * (x * IZR e) - IZR e * IZR (fst p)) with (IZR e * (IZR one_z * x - IZR (fst p))) by ring.
  apply IZR_le in E. rewrite Rabs_mult, (Rabs_pos_eq (IZR e)) by exact E. apply Rmult_le_compat_l; assumption.
Qed.
Lemma loop_rest : forall atom kappa l_max ws L, 0 < kappa -> Forall2 subshell_text ws L -> List.Forall (fun o => 0 <= snd o)%Z L -> forall j0 r0,
  match total_z atom L with
  | None => shells_loop tab 0 atom kappa l_max (Some (j0 :: r0)) ws = Raised UserWarning
  | Some p => exists j rest, shells_loop tab 0 atom kappa l_max (Some (j0 :: r0)) ws = Good (Some (j :: rest)) /\ within (j - j0) p
  end.
Proof.
  intros atom kappa l_max ws L K F. induction F as [|w [[n l] e] ws L W F IH]; intros P j0 r0.
  - cbn [total_z]. exists j0, r0. split; [reflexivity|]. rewrite Rminus_eq_0. apply within_zero.
  - inversion P as [|? ? P1 P2]; subst. cbn [total_z shells_loop]. rewrite (read_ok _ _ W). cbn [try]. rewrite orbital_eq. destruct (orbital_of atom n l) as [o|] eqn:O; [|reflexivity].
    destruct (jl_forward o kappa l_max (tab_terms _ _ _ O) K) as (x & rest & E & X). rewrite E. cbn [plus times map combine fst snd].
    specialize (IH P2 (j0 + x * IZR e) (map (fun p => fst p + snd p) (combine r0 (map (fun y => y * IZR e) rest)))). destruct (total_z atom L) as [s|].
    + destruct IH as (j & r & J & V). exists j, r. split; [exact J|]. replace (j - j0) with (x * IZR e + (j - (j0 + x * IZR e))) by ring. apply within_add; [apply within_scale; assumption|exact V].
    + exact IH.
Qed.
Lemma loop_first : forall atom kappa l_max ws L, 0 < kappa -> Forall2 subshell_text ws L -> List.Forall (fun o => 0 <= snd o)%Z L -> L <> [] ->
  match total_z atom L with
  | None => shells_loop tab 0 atom kappa l_max None ws = Raised UserWarning
  | Some p => exists j rest, shells_loop tab 0 atom kappa l_max None ws = Good (Some (j :: rest)) /\ within j p
  end.
Proof.
  intros atom kappa l_max ws L K F P N. destruct F as [|w [[n l] e] ws L W F]; [contradiction|]. inversion P as [|? ? P1 P2]; subst. cbn [total_z shells_loop]. rewrite (read_ok _ _ W). cbn [try].
  rewrite orbital_eq. destruct (orbital_of atom n l) as [o|] eqn:O; [|reflexivity].
  destruct (jl_forward o kappa l_max (tab_terms _ _ _ O) K) as (x & rest & E & X). rewrite E. cbn [plus times map].
  pose proof (loop_rest atom kappa l_max ws L K F P2 (x * IZR e) (map (fun y => y * IZR e) rest)) as R. destruct (total_z atom L) as [s|]; [|exact R].
  destruct R as (j & r & J & V). exists j, r. split; [exact J|]. replace j with (x * IZR e + (j - x * IZR e)) by ring. apply within_add; [apply within_scale; assumption|exact V].
Qed.
Lemma total_near : forall name L p, ~ In name off_names -> capitalize (text name) = text name -> List.Forall (fun o => 0 <= snd o)%Z L -> total_z (text name) L = Some p ->
  (1000 * Z.abs (fst p - one_z * electrons L) + 1000 * snd p <= one_z * electrons L)%Z.
Proof.
  intros name L p N C. revert p. induction L as [|[[n l] e] L IH]; intros p P H; [injection H as <-; cbn; lia|]. inversion P as [|? ? P1 P2]; subst. cbn [total_z] in H. rewrite <- orbital_eq, C in H.
  destruct (find_orbital tab (text name) (lower (print_Z n ++ [l]))) as [o|] eqn:O; [|discriminate H]. destruct (total_z (text name) L) as [s|]; [|discriminate H]. specialize (IH s P2 eq_refl).
  apply (tab_near name _ o N) in O. unfold near_one in O. apply Z.leb_le in O. injection H as <-. unfold add2. cbn [fst snd electrons] in *. revert O IH. generalize one_z (norm_z o). intros u [a b] O IH. cbn [fst snd] in *. nia.
Qed.
End WithTable.
Lemma capitals : forallb (fun n => same_text (capitalize (text n)) (text n)) periodic_table = true.
Proof. vm_compute. reflexivity. Qed.
Lemma element_capital : forall z name, element z name -> capitalize (text name) = text name.
Proof.
  intros z name [_ E]. apply nth_error_In in E. pose proof capitals as A. rewrite forallb_forall in A. specialize (A _ E). unfold same_text in A. destruct (list_eq_dec ascii_dec (capitalize (text name)) (text name)) as [X|]; [exact X|discriminate A].
Qed.
Lemma occupied_sign : forall L, List.Forall occupied L -> List.Forall (fun o => 0 <= snd o)%Z L.
Proof. intros L. apply List.Forall_impl. intros [[n l] e] [P _]. cbn. lia. Qed.
Lemma within_electrons : forall j p n, within j p -> (1000 * Z.abs (fst p - one_z * n) + 1000 * snd p <= one_z * n)%Z -> Rabs (j - IZR n) <= IZR n / 1000.
Proof.
  intros j [a b] n W H. unfold within in W. cbn [fst snd] in *. apply IZR_le in H. rewrite plus_IZR, !mult_IZR, abs_IZR, minus_IZR, mult_IZR in H. assert (U : 0 < IZR one_z) by (apply IZR_lt; reflexivity). revert U W H. generalize (IZR one_z) (IZR a) (IZR b) (IZR n).
  intros u a' b' n' U W H. apply (Rmult_le_reg_l u); [exact U|]. replace (u * Rabs (j - n')) with (Rabs (u * j - u * n')).
  - replace (u * j - u * n') with ((u * j - a') + (a' - u * n')) by ring. apply Rle_trans with (1 := Rabs_triang _ _). lra.
  - replace (u * j - u * n') with (u * (j - n')) by ring. rewrite Rabs_mult, (Rabs_pos_eq u) by lra. reflexivity.
Qed.
Lemma ion_read' : forall w1 t w2 name q, blank_text w1 -> blank_text w2 -> ion_of t name q -> get_atom_name_ion_charge_shell (w1 ++ t ++ w2) = bind (get_full_shell (text name) q) (fun s => Value (text name, q, s)).
Proof. intros w1 t w2 name q B1 B2 I. unfold get_atom_name_ion_charge_shell. rewrite (ion_read _ _ _ _ _ B1 B2 I). reflexivity. Qed.
Lemma ion_value : forall w1 t w2 name q kappa l_max sh L, blank_text w1 -> blank_text w2 -> ion_of t name q -> 0 < kappa -> get_full_shell (text name) q = Value sh -> spells sh L -> List.Forall occupied L -> L <> [] ->
  match total_z radial_table (text name) L with
  | None => exists e, calc_jl_for_ion 0 (w1 ++ t ++ w2) kappa l_max = Raised e
  | Some p => exists j rest, calc_jl_for_ion 0 (w1 ++ t ++ w2) kappa l_max = Good (Some (j :: rest)) /\ within j p
  end.
Proof.
  intros w1 t w2 name q kappa l_max sh L B1 B2 I K G S O N. unfold calc_jl_for_ion, calc_jl_for_shell_of_ion. rewrite (ion_read' _ _ _ _ _ B1 B2 I), G. cbn [bind try].
  pose proof (split_spells _ _ S) as F. assert (Len : exists a b r, sh = a :: b :: r).
  { destruct sh as [|a [|b r]]; [|  |do 3 eexists; reflexivity].
    - cbn in F. inversion F; subst. contradiction.
    - exfalso. cbn in F. destruct (is_ws a); [inversion F; subst; contradiction|]. inversion F as [|w o ws L' W F' E1 E2]; subst. cbn in W. inversion W. }
  destruct Len as (a & b & r & ->). rewrite (counted _ _ S). cbn [try]. rewrite split_strip. pose proof (loop_first radial_table found_terms (text name) kappa l_max _ L K F (occupied_sign _ O) N) as R.
  destruct (total_z radial_table (text name) L) as [p|]; [exact R|]. eexists. exact R.
Qed.
Lemma forward : forall z name w1 t w2 q kappa l_max, element z name -> (z <= 36)%Z -> z <> 10%Z -> blank_text w1 -> blank_text w2 -> ion_of t name q -> (q < z)%Z -> 0 < kappa ->
  (exists e, calc_jl_for_ion 0 (w1 ++ t ++ w2) kappa l_max = Raised e) \/
  exists j rest, calc_jl_for_ion 0 (w1 ++ t ++ w2) kappa l_max = Good (Some (j :: rest)) /\ Rabs (j - IZR (z - q)) <= IZR (z - q) / 1000.
Proof.
  intros z name w1 t w2 q kappa l_max E Z36 Z10 B1 B2 I Q K. destruct (elements z name E) as (r & R & H); [lia|]. destruct (H q) as [H1 H2].
  assert (D : (- r <= q <= z - core z \/ q < - r \/ z - core z < q)%Z) by lia. destruct D as [D|D].
  - destruct (H1 D) as (sh & L & G & S & El & O). assert (N : L <> []) by (intros ->; cbn in El; lia). pose proof (ion_value w1 t w2 name q kappa l_max sh L B1 B2 I K G S O N) as V.
    destruct (total_z radial_table (text name) L) as [p|] eqn:T; [|left; exact V]. right. destruct V as (j & rest & J & W). exists j, rest. split; [exact J|]. rewrite <- El. apply (within_electrons j p _ W).
    apply (total_near radial_table found_near name L p); [|exact (element_capital z name E)|exact (occupied_sign _ O)|exact T].
    intros X. destruct E as [E1 E2]. destruct X as [X|[X|[]]]; subst name.
    + assert (Y : element z "Ne") by (split; assumption). pose proof (index_element z _ Y) as W'. change (index_of (text "Ne")) with (Some 10%Z) in W'. congruence.
    + assert (Y : element z "Mo") by (split; assumption). pose proof (index_element z _ Y) as W'. change (index_of (text "Mo")) with (Some 42%Z) in W'. injection W' as W'. lia.
  - left. assert (H3 : get_full_shell (text name) q = Raises UserWarning) by exact (H2 D). unfold calc_jl_for_ion. rewrite (ion_read' _ _ _ _ _ B1 B2 I), H3. cbn [bind try]. eexists. reflexivity.
Qed.

(** neutral atoms: nothing is raised *)
Definition found_all (name : str) (L : list subshell) : bool :=
  forallb (fun o => let '(n, l, _) := o in match find_orbital radial_table (capitalize name) (lower (print_Z n ++ [l])) with Some _ => true | None => false end) L.
Lemma found_all_total : forall (tab : list (string * string * list (Z * nat * Z))) name L,
  forallb (fun o => let '(n, l, _) := o in match find_orbital tab (capitalize name) (lower (print_Z n ++ [l])) with Some _ => true | None => false end) L = true -> total_z tab name L <> None.
Proof.
  intros tab name. induction L as [|[[n l] e] L IH]; intros H; [discriminate|]. cbn [forallb] in H. apply andb_true_iff in H. destruct H as [H1 H2]. cbn [total_z]. rewrite <- orbital_eq.
  destruct (find_orbital tab (capitalize name) (lower (print_Z n ++ [l]))); [|discriminate H1]. specialize (IH H2). destruct (total_z tab name L); [discriminate|contradiction].
Qed.
Definition atom_ok (name : str) : bool :=
  match get_full_shell name 0 with
  | Value sh => match config sh with Some L => (forallb occupiedb L && (0 <? electrons L)%Z && found_all name L)%bool | None => false end
  | Raises _ => false end.
Definition no_valence : list string := ["K"; "Ca"; "Ga"; "Ge"; "As"; "Se"; "Kr"]%string.
Lemma atoms_ok : forallb (fun n => if in_dec string_dec n no_valence then true else atom_ok (text n)) (firstn 36 periodic_table) = true.
Proof. vm_compute. reflexivity. Qed.
Lemma electrons_nonempty : forall L, (0 <? electrons L)%Z = true -> L <> [].
Proof. intros [|o L] H; [discriminate H|discriminate]. Qed.
Lemma atom_found : forall z name w1 t w2 kappa l_max, element z name -> (z <= 36)%Z -> ~ In name no_valence -> blank_text w1 -> blank_text w2 -> ion_of t name 0 -> 0 < kappa ->
  exists j rest, calc_jl_for_ion 0 (w1 ++ t ++ w2) kappa l_max = Good (Some (j :: rest)).
Proof.
  intros z name w1 t w2 kappa l_max [E1 E2] Z36 NV B1 B2 I K. assert (M : In name (firstn 36 periodic_table)).
  { apply nth_error_In with (n := Z.to_nat (z - 1)). rewrite nth_firstn by lia. exact E2. }
  pose proof atoms_ok as A. rewrite forallb_forall in A. specialize (A _ M). cbn beta in A. destruct (in_dec string_dec name no_valence); [contradiction|]. unfold atom_ok in A. destruct (get_full_shell (text name) 0) as [sh|] eqn:G; [|discriminate A]. destruct (config sh) as [L|] eqn:C; [|discriminate A].
  apply andb_true_iff in A. destruct A as [A A3]. apply andb_true_iff in A. destruct A as [A1 A2].
  pose proof (ion_value w1 t w2 name 0 kappa l_max sh L B1 B2 I K G (config_ok _ _ C) (occupiedb_ok _ A1) (electrons_nonempty _ A2)) as V. pose proof (found_all_total radial_table (text name) L A3) as T.
  destruct (total_z radial_table (text name) L) as [p|]; [|contradiction]. destruct V as (j & rest & J & _). exists j, rest. exact J.
Qed.
Lemma forward_atom : forall z name w1 t w2 kappa l_max, element z name -> (z <= 36)%Z -> z <> 10%Z -> ~ In name no_valence -> blank_text w1 -> blank_text w2 -> ion_of t name 0 -> 0 < kappa ->
  exists j rest, calc_jl_for_ion 0 (w1 ++ t ++ w2) kappa l_max = Good (Some (j :: rest)) /\ Rabs (j - IZR z) <= IZR z / 1000.
Proof.
  intros z name w1 t w2 kappa l_max E Z36 Z10 NV B1 B2 I K. destruct (atom_found z name w1 t w2 kappa l_max E Z36 NV B1 B2 I K) as (j & rest & J). exists j, rest. split; [exact J|].
  destruct (forward z name w1 t w2 0 kappa l_max E Z36 Z10 B1 B2 I) as [[e R]|(j' & rest' & J' & W)]; [destruct E; assumption|exact K| |]; rewrite J in *; [discriminate R|]. injection J' as <- _. rewrite Z.sub_0_r in W. exact W.
Qed.
(** molybdenum, and the proton *)
Definition mo_shell : list subshell := [(1, "s"%char, 2); (2, "s"%char, 2); (2, "p"%char, 6); (3, "s"%char, 2); (3, "p"%char, 6); (3, "d"%char, 10); (4, "s"%char, 2); (4, "p"%char, 6); (4, "d"%char, 4); (5, "s"%char, 2)]%Z.
Lemma mo_config : exists sh, get_full_shell (text "Mo") 0 = Value sh /\ exists L, config sh = Some L /\ forallb occupiedb L = true /\ (0 <? electrons L)%Z = true /\
  match total_z radial_table (text "Mo") L with Some p => (one_z * 53 <? fst p - snd p)%Z | None => false end = true.
Proof. eexists. split; [vm_compute; reflexivity|]. eexists. split; [vm_compute; reflexivity|]. split; [vm_compute; reflexivity|]. split; [vm_compute; reflexivity|]. vm_compute. reflexivity. Qed.
Lemma molybdenum : forall w1 t w2 kappa l_max, blank_text w1 -> blank_text w2 -> ion_of t "Mo" 0 -> 0 < kappa ->
  exists j rest, calc_jl_for_ion 0 (w1 ++ t ++ w2) kappa l_max = Good (Some (j :: rest)) /\ 53 < j.
Proof.
  intros w1 t w2 kappa l_max B1 B2 I K. destruct mo_config as (sh & G & L & C & O & N & T).
  pose proof (ion_value w1 t w2 "Mo" 0 kappa l_max sh L B1 B2 I K G (config_ok _ _ C) (occupiedb_ok _ O) (electrons_nonempty _ N)) as V.
  destruct (total_z radial_table (text "Mo") L) as [[a b]|]; [|discriminate T]. destruct V as (j & rest & J & W). exists j, rest. split; [exact J|]. apply Z.ltb_lt in T. cbn [fst snd] in T.
  unfold within in W. cbn [fst snd] in W. apply IZR_lt in T. rewrite mult_IZR, minus_IZR in T. apply Rabs_le_between in W. assert (U : 0 < IZR one_z) by (apply IZR_lt; reflexivity). revert U W T. generalize (IZR one_z). intros u U W T. apply (Rmult_lt_reg_l u); [exact U|]. lra.
Qed.
Lemma proton : forall s kappa l_max, calc_jl_for_ion s (text "H1+") kappa l_max = Raised IndexError.
Proof.
  intros s kappa l_max. unfold calc_jl_for_ion. assert (E : get_atom_name_ion_charge_shell (text "H1+") = Value (text "H", 1%Z, [])) by (vm_compute; reflexivity). rewrite E. reflexivity.
Qed.
Lemma forward_met : element 26 "Fe" /\ ion_of (text "fe3+") "Fe" 3 /\ ion_of (text "MO") "Mo" 0 /\
  exists sh L, get_full_shell (text "Fe") 3 = Value sh /\ config sh = Some L /\ found_all (text "Fe") L = true.
Proof.
  split; [split; reflexivity|]. split.
  { assert (N : name_text (text "fe")) by (split; [discriminate|repeat constructor]). assert (D : number_text (text "3")) by (split; [discriminate|repeat constructor]).
    exact (Ion_charged (text "fe") (text "3") "+" 3 N D (or_introl (conj eq_refl eq_refl))). }
  split; [apply (Ion_neutral (text "MO")); split; [discriminate|repeat constructor]|]. eexists. eexists. split; [vm_compute; reflexivity|]. split; vm_compute; reflexivity.
Qed.
