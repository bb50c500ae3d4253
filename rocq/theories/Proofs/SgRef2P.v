(** Counter-examples: settings that are not groups, wrong groups. *)
From Coq Require Import Reals ZArith QArith Qabs Qreals List String Ascii Bool Lia Lra.
From Verif Require Import Spec.Lin3 Spec.Cell Spec.Symm Spec.SgSpec Model.Strings Model.Symmetry Model.SgTables Model.WyckoffData Model.SpaceGroup
  Proofs.SymmBaseP Proofs.SgCheckP Proofs.SgAllP Proofs.SgWyckP Proofs.SgConjP Proofs.WyckSolP Proofs.WyckAtomP Proofs.WyckAtom2P.
Import ListNotations.
Open Scope string_scope.
Open Scope list_scope.
Open Scope Z_scope.

Lemma opt_check : forall (o : option SpaceGroup) (P : SpaceGroup -> bool), match o with Some g => P g | None => false end = true -> exists g, o = Some g /\ P g = true.
Proof. intros [g|] P H; [exists g; split; [reflexivity|exact H]|discriminate]. Qed.
Lemma found : forall it code (P : SpaceGroup -> bool), each [(it, code)] (fun _ _ o => match o with Some g => P g | None => false end) = true ->
  exists g, space_group it code = Some g /\ P g = true.
Proof. intros it code P H. apply opt_check. apply (each_in _ _ H it code). left. reflexivity. Qed.
Lemma none_check : forall o : option SpaceGroup, isnone o = true -> o = None.
Proof. intros [g|] H; [discriminate|reflexivity]. Qed.
Lemma not_found : forall it code, each [(it, code)] (fun _ _ o => isnone o) = true -> space_group it code = None.
Proof. intros it code H. apply none_check. apply (each_in _ _ H it code). left. reflexivity. Qed.

Definition not_closed (ops : list Op) : bool :=
  match norms ops with Some m => exb (fun a => exb (fun b => negb (mem (mul a b) m)) m) m | None => false end.
Lemma not_closed_ok : forall ops, not_closed ops = true -> ~ symmetry_group ops.
Proof.
  intros ops H [_ [_ [C _]]]. unfold not_closed in H. destruct (norms ops) as [m|] eqn:N; [|discriminate].
  rewrite exb_existsb in H. apply existsb_exists in H as [a [A H]]. rewrite exb_existsb in H. apply existsb_exists in H as [b [B H]]. apply negb_true_iff in H.
  destruct (norms_ni _ _ N a A) as [e [He Ea]]. destruct (norms_ni _ _ N b B) as [f [Hf Eb]]. destruct (C e f He Hf) as [g [Hg K]].
  destruct (norms_in _ _ N g Hg) as [n [Hn En]]. apply norm_ok in Ea as [_ [Ra [Ea _]]]. apply norm_ok in Eb as [_ [Rb [Eb _]]]. apply norm_ok in En as [_ [Rn [En _]]].
  assert (X : eqv n (mul a b)).
  { intros x. eapply sp_trans; [apply sp_sym, En|]. eapply sp_trans; [apply K|]. eapply sp_trans; [apply act_sp, Eb|]. eapply sp_trans; [apply Ea|]. apply sp_sym, mul_act; [apply Ra|apply Rb]. }
  apply red_distinct in X; [|exact Rn|apply mul_red]. subst n. rewrite (in_mem (mul a b) m (mul_red a b) (norms_red _ _ N) Hn) in H. discriminate.
Qed.
Definition missing_generator (gens ops : list Op) : bool :=
  match norms gens, norms ops with Some g, Some m => exb (fun a => negb (mem a m)) g | _, _ => false end.
Lemma missing_generator_ok : forall gens ops, missing_generator gens ops = true -> ~ generated_by gens ops.
Proof.
  intros gens ops H [G _]. unfold missing_generator in H. destruct (norms gens) as [ng|] eqn:NG; [|discriminate]. destruct (norms ops) as [no|] eqn:NO; [|discriminate].
  rewrite exb_existsb in H. apply existsb_exists in H as [a [A H]]. apply negb_true_iff in H. destruct (norms_ni _ _ NG a A) as [e [He Ea]].
  destruct (G [e]) as [f [Hf K]]; [intros x [<-|[]]; exact He|]. destruct (norms_in _ _ NO f Hf) as [n [Hn En]].
  apply norm_ok in Ea as [_ [Ra [Ea _]]]. apply norm_ok in En as [_ [Rn [En _]]].
  assert (X : eqv n a) by (intros x; eapply sp_trans; [apply sp_sym, En|]; eapply sp_trans; [apply K|]; apply Ea).
  apply red_distinct in X; [|exact Rn|exact Ra]. subst n. rewrite (in_mem a no Ra (norms_red _ _ NO) Hn) in H. discriminate.
Qed.
Definition ops_check (P : list Op -> bool) (g : SpaceGroup) : bool := match get_symm_elems (sg_full g) with Some ops => P ops | None => false end.
Lemma ops_check_ok : forall P g, ops_check P g = true -> exists ops, get_symm_elems (sg_full g) = Some ops /\ P ops = true.
Proof. intros P g H. unfold ops_check in H. destruct (get_symm_elems (sg_full g)) as [ops|]; [|discriminate]. exists ops. split; [reflexivity|exact H]. Qed.
Lemma not_a_group_48 : exists g ops, space_group 48 (Some "1abc") = Some g /\ get_symm_elems (sg_full g) = Some ops /\ ~ symmetry_group ops.
Proof.
  destruct (found 48 (Some "1abc") (ops_check not_closed)) as [g [G H]]; [vm_compute; reflexivity|]. apply ops_check_ok in H as [ops [O N]].
  exists g, ops. split; [exact G|]. split; [exact O|]. now apply not_closed_ok.
Qed.
Definition hall_wrong (g : SpaceGroup) : bool :=
  match sg_hall g with Some h => if String.eqb h "P 31" then match hall_generators h with Some gens => ops_check (missing_generator gens) g | None => false end else false | None => false end.
Lemma hall_wrong_ok : forall g, hall_wrong g = true -> exists gens ops, sg_hall g = Some "P 31" /\ hall_generators "P 31" = Some gens /\ get_symm_elems (sg_full g) = Some ops /\ ~ generated_by gens ops.
Proof.
  intros g H. unfold hall_wrong in H. destruct (sg_hall g) as [h|]; [|discriminate]. destruct (String.eqb h "P 31") eqn:X; [|discriminate]. apply String.eqb_eq in X. subst h.
  destruct (hall_generators "P 31") as [gens|] eqn:E; [|discriminate]. apply ops_check_ok in H as [ops [O N]]. exists gens, ops. split; [reflexivity|]. split; [reflexivity|]. split; [exact O|]. now apply missing_generator_ok.
Qed.
Lemma wrong_144 : exists g gens ops, new_space_group (by_number 144) = Some g /\ sg_hall g = Some "P 31" /\ hall_generators "P 31" = Some gens /\
  get_symm_elems (sg_full g) = Some ops /\ ~ generated_by gens ops.
Proof.
  rewrite (new_by_number 144) by lia. destruct (found 144 (chosen 144) hall_wrong) as [g [G H]]; [vm_compute; reflexivity|].
  destruct (hall_wrong_ok g H) as [gens [ops K]]. exists g, gens, ops. split; [exact G|exact K].
Qed.
Lemma raises_228 : new_space_group (by_number 228) = None.
Proof. rewrite (new_by_number 228) by lia. apply not_found. vm_compute. reflexivity. Qed.

(** Rotation and translation parts of a carried operation. *)
Definition zero_v : ix -> R := fun _ => 0%R.
Definition unit_v (j : ix) (q : R) : ix -> R := fun k => match k, j with X1, X1 | X2, X2 | X3, X3 => q | _, _ => 0%R end.
Lemma carried_parts : forall f e e', (forall x, same_point (act e' (act f x)) (act f (act e x))) ->
  forall i, exists n : Z, (sum3 (fun j => IZR (mget (e_r e') i j) * frac (e_b f) (e_d f) j) + frac (e_b e') (e_d e') i = sum3 (fun j => IZR (mget (e_r f) i j) * frac (e_b e) (e_d e) j) + frac (e_b f) (e_d f) i + IZR n)%R.
Proof.
  intros f e e' H i. destruct (H zero_v i) as [n N]. exists n. unfold act, frac, sum3, zero_v in *. rewrite !Rmult_0_r, !Rplus_0_r, !Rplus_0_l in N. lra.
Qed.
Lemma act_unit : forall e j q i, (act e (unit_v j q) i = IZR (mget (e_r e) i j) * q + frac (e_b e) (e_d e) i)%R.
Proof. intros e j q i. unfold act, frac, sum3, unit_v. destruct j; ring. Qed.
Lemma act2_unit : forall e f j q i, (act e (act f (unit_v j q)) i = IZR (mget (mul3 (e_r e) (e_r f)) i j) * q + act e (act f zero_v) i)%R.
Proof.
  intros e f j q i. unfold act at 1 3, sum3. rewrite !act_unit. unfold act, sum3, zero_v, frac.
  assert (L : (IZR (mget (mul3 (e_r e) (e_r f)) i j) = IZR (mget (e_r e) i X1) * IZR (mget (e_r f) X1 j) + IZR (mget (e_r e) i X2) * IZR (mget (e_r f) X2 j) + IZR (mget (e_r e) i X3) * IZR (mget (e_r f) X3 j))%R)
    by (unfold mul3, m3; rewrite <- !mult_IZR, <- !plus_IZR; f_equal; destruct i, j; reflexivity).
  rewrite L. ring.
Qed.
Lemma m3_ext : forall a b : M3 Z, (forall i j, mget a i j = mget b i j) -> a = b.
Proof. intros a b E. destruct a, b. f_equal; [apply (E X1 X1)|apply (E X1 X2)|apply (E X1 X3)|apply (E X2 X1)|apply (E X2 X2)|apply (E X2 X3)|apply (E X3 X1)|apply (E X3 X2)|apply (E X3 X3)]. Qed.
Lemma half_not_int : forall n : Z, (/ 2 <> IZR n)%R.
Proof. intros n H. assert (X : (IZR (2 * n) = IZR 1)%R) by (rewrite mult_IZR; lra). apply eq_IZR in X. lia. Qed.
Lemma carried_rotation : forall f e e', (forall x, same_point (act e' (act f x)) (act f (act e x))) -> mul3 (e_r e') (e_r f) = mul3 (e_r f) (e_r e).
Proof.
  intros f e e' H. apply m3_ext. intros i j. destruct (Z.eq_dec (mget (mul3 (e_r e') (e_r f)) i j) (mget (mul3 (e_r f) (e_r e)) i j)) as [E|N]; [exact E|exfalso].
  set (a := mget (mul3 (e_r e') (e_r f)) i j) in *. set (b := mget (mul3 (e_r f) (e_r e)) i j) in *. assert (D : (IZR (a - b) <> 0)%R) by (apply not_0_IZR; lia).
  destruct (H zero_v i) as [n0 N0]. destruct (H (unit_v j (/ (2 * IZR (a - b)))) i) as [n1 N1]. rewrite !act2_unit in N1. fold a b in N1.
  apply (half_not_int (n1 - n0)). rewrite minus_IZR. assert (X : (IZR (a - b) * / (2 * IZR (a - b)) = / 2)%R) by (field; exact D). rewrite minus_IZR in X at 1. lra.
Qed.
(** ** A setting that is not the standard one in other axes *)
Definition b48 (e : Op) (i : ix) : Z := vget (e_b e) i * (48 / e_d e).
Definition d48 (e : Op) : bool := if 0 <? e_d e then 48 mod e_d e =? 0 else false.
Lemma b48_ok : forall e i, d48 e = true -> (IZR (b48 e i) = 48 * frac (e_b e) (e_d e) i)%R.
Proof.
  intros e i H. unfold d48 in H. destruct (Z.ltb_spec 0 (e_d e)) as [P|]; [|discriminate]. apply Z.eqb_eq in H. unfold b48, frac. rewrite mult_IZR.
  assert (X : 48 = e_d e * (48 / e_d e)) by (rewrite (Z.div_mod 48 (e_d e)) at 1 by lia; lia).
  assert (Y : (48 = IZR (e_d e) * IZR (48 / e_d e))%R) by (rewrite <- mult_IZR, <- X; reflexivity). rewrite Y. field. apply not_0_IZR. lia.
Qed.
(** row i of the rotation is minus the unit row *)
Definition neg_row (e : Op) (i : ix) : bool :=
  forallb (fun j => mget (e_r e) i j =? match i, j with X1, X1 | X2, X2 | X3, X3 => -1 | _, _ => 0 end) [X1; X2; X3].
(** 48 (b'_i - (A b)_i) *)
Definition shift48 (A : M3 Z) (e e' : Op) (i : ix) : Z := b48 e' i - (mget A i X1 * b48 e X1 + mget A i X2 * b48 e X2 + mget A i X3 * b48 e X3).
Definition clash (A : M3 Z) (ops ops' : list Op) : bool :=
  if forallb d48 ops then if forallb d48 ops' then
    exb (fun i => exb (fun a' => if neg_row a' i then exb (fun b' => if neg_row b' i then
      forallb (fun a => if m_eqb (mul3 (e_r a') A) (mul3 A (e_r a)) then
        forallb (fun b => if m_eqb (mul3 (e_r b') A) (mul3 A (e_r b)) then negb ((shift48 A a a' i - shift48 A b b' i) mod 48 =? 0) else true) ops else true) ops
      else false) ops' else false) ops') [X1; X2; X3]
  else false else false.
Lemma shift_ok : forall f e e' i, (forall x, same_point (act e' (act f x)) (act f (act e x))) -> d48 e = true -> d48 e' = true -> neg_row e' i = true ->
  exists n : Z, (IZR (shift48 (e_r f) e e' i) = 48 * (2 * frac (e_b f) (e_d f) i + IZR n))%R.
Proof.
  intros f e e' i H D D' N. destruct (carried_parts f e e' H i) as [n P]. exists n. unfold shift48. rewrite minus_IZR, !plus_IZR, !mult_IZR, !b48_ok by assumption.
  assert (R : (sum3 (fun j => IZR (mget (e_r e') i j) * frac (e_b f) (e_d f) j) = - frac (e_b f) (e_d f) i)%R).
  { unfold neg_row in N. cbn [forallb] in N. rewrite !andb_true_iff, !Z.eqb_eq in N. destruct N as [N1 [N2 [N3 _]]]. unfold sum3. rewrite N1, N2, N3. destruct i; ring. }
  rewrite R in P. unfold sum3 in P. lra.
Qed.
Lemma clash_ok : forall f ops ops', clash (e_r f) ops ops' = true -> ~ carries f ops ops'.
Proof.
  intros f ops ops' H [_ [_ [_ C]]]. unfold clash in H. destruct (forallb d48 ops) eqn:D; [|discriminate]. destruct (forallb d48 ops') eqn:D'; [|discriminate]. rewrite forallb_forall in D, D'.
  rewrite exb_existsb in H. apply existsb_exists in H as [i [_ H]]. rewrite exb_existsb in H. apply existsb_exists in H as [a' [A' H]].
  destruct (neg_row a' i) eqn:NA; [|discriminate]. rewrite exb_existsb in H. apply existsb_exists in H as [b' [B' H]]. destruct (neg_row b' i) eqn:NB; [|discriminate].
  destruct (C a' A') as [a [A KA]]. destruct (C b' B') as [b [B KB]]. rewrite forallb_forall in H. specialize (H a A).
  assert (RA := carried_rotation f a a' KA). assert (RB := carried_rotation f b b' KB). apply m_eqb_eq in RA, RB. rewrite RA in H. rewrite forallb_forall in H. specialize (H b B). rewrite RB in H.
  destruct (shift_ok f a a' i KA (D a A) (D' a' A') NA) as [n N]. destruct (shift_ok f b b' i KB (D b B) (D' b' B') NB) as [m M].
  assert (X : shift48 (e_r f) a a' i - shift48 (e_r f) b b' i = 48 * (n - m)) by (apply eq_IZR; rewrite minus_IZR, mult_IZR, minus_IZR; lra).
  rewrite X, Z.mul_comm, Z.mod_mul in H by lia. discriminate.
Qed.
Lemma found2 : forall it code (P : SpaceGroup -> SpaceGroup -> bool), each2 ref_code [(it, code)] (fun _ _ r g => match r, g with Some r, Some g => P r g | _, _ => false end) = true ->
  exists r g, space_group it (ref_code it) = Some r /\ space_group it code = Some g /\ P r g = true.
Proof.
  intros it code P H. generalize (each2_in _ _ _ H it code (or_introl eq_refl)). cbv beta. clear H. generalize (space_group it (ref_code it)) (space_group it code). intros [r|] [g|] H; try discriminate.
  exists r, g. auto.
Qed.
Lemma not_conjugate_50 : exists r g ops_r ops A, space_group 50 (ref_code 50) = Some r /\ space_group 50 (Some "1cab") = Some g /\
  get_symm_elems (sg_full r) = Some ops_r /\ get_symm_elems (sg_full g) = Some ops /\ axes_of_code (Some "1cab") = Some A /\
  forall f, e_r f = A -> ~ carries f ops_r ops.
Proof.
  destruct (found2 50 (Some "1cab") (fun r g => match axes_of_code (Some "1cab") with Some A => ops_check (fun o => ops_check (fun o' => clash A o o') g) r | None => false end)) as [r [g [ER [EG H]]]]; [vm_compute; reflexivity|].
  destruct (axes_of_code (Some "1cab")) as [A|]; [|discriminate]. apply ops_check_ok in H as [o [O H]]. apply ops_check_ok in H as [o' [O' H]].
  exists r, g, o, o', A. repeat (split; [assumption || reflexivity|]). intros f <-. now apply clash_ok.
Qed.

(** ** Atoms *)
Definition q_act (e : Op) (v : vec) (i : ix) : Q :=
  (inject_Z (mget (e_r e) i X1) * nth 0 v 0 + inject_Z (mget (e_r e) i X2) * nth 1 v 0 + inject_Z (mget (e_r e) i X3) * nth 2 v 0 + inject_Z (vget (e_b e) i) / inject_Z (e_d e))%Q.
Lemma Q2R_inject : forall z, Q2R (inject_Z z) = IZR z. Proof. intros z. unfold Q2R, inject_Z. cbn. field. Qed.
Lemma q_act_ok : forall e v i, 0 < e_d e -> Q2R (q_act e v i) = act e (coords v) i.
Proof.
  intros e v i D. unfold q_act, act, sum3, coords. cbn [nat_of_ix]. rewrite !Q2R_plus, !Q2R_mult. unfold Qdiv. rewrite Q2R_mult, Q2R_inv, !Q2R_inject; [reflexivity|].
  unfold Qeq, inject_Z. cbn. lia.
Qed.
Definition far (d : Q) : bool := let f := frac_mod_1 d in if Qle_bool f (1 # 100000000) then false else if Qle_bool (1 - (1 # 100000000)) f then false else true.
Lemma far_ok : forall d, far d = true -> forall n : Z, ~ (Rabs (Q2R d - IZR n) <= / 100000000)%R.
Proof.
  intros d H n A. unfold far in H. destruct (Qle_bool (frac_mod_1 d) (1 # 100000000)) eqn:E1; [discriminate|]. destruct (Qle_bool (1 - (1 # 100000000)) (frac_mod_1 d)) eqn:E2; [discriminate|].
  destruct (eqm_Q2R _ _ (frac_mod_eqm d)) as [m M].
  assert (L1 : (1 # 100000000 < frac_mod_1 d)%Q) by (apply Qnot_le_lt; intros K; apply Qle_bool_iff in K; congruence).
  assert (L2 : (frac_mod_1 d < 1 - (1 # 100000000))%Q) by (apply Qnot_le_lt; intros K; apply Qle_bool_iff in K; congruence).
  apply Qlt_Rlt in L1, L2. assert (E : Q2R (1 # 100000000) = (/ 100000000)%R) by (unfold Q2R; cbn; field). assert (F : Q2R (1 - (1 # 100000000)) = (1 - / 100000000)%R) by (unfold Q2R; cbn; field).
  rewrite E in L1. rewrite F in L2. rewrite M in L1, L2. apply Rabs_def2 in A || (unfold Rabs in A). 
  assert (B : (- / 100000000 <= Q2R d - IZR n <= / 100000000)%R) by (revert A; unfold Rabs; destruct (Rcase_abs _); lra).
  assert (P : (0 < IZR (n + m) < 1)%R) by (rewrite plus_IZR; lra). destruct P as [P1 P2]. apply lt_IZR in P1, P2. lia.
Qed.
Definition inequivalent (ops : list Op) (p q : vec) : bool :=
  forallb (fun e => if 0 <? e_d e then exb (fun i => far (q_act e q i - nth (nat_of_ix i) p 0)%Q) [X1; X2; X3] else false) ops.
Lemma inequivalent_ok : forall ops p q, inequivalent ops p q = true -> ~ equivalent_within (/ 100000000) ops (coords p) (coords q).
Proof.
  intros ops p q H [e [He C]]. unfold inequivalent in H. rewrite forallb_forall in H. specialize (H e He). destruct (Z.ltb_spec 0 (e_d e)) as [D|]; [|discriminate].
  rewrite exb_existsb in H. apply existsb_exists in H as [i [_ H]]. destruct (C i) as [n N]. apply (far_ok _ H n). unfold Qminus. rewrite Q2R_plus, Q2R_opp, q_act_ok by exact D. exact N.
Qed.
