(** Other settings, change of axes and origin; the crystal dictionary. *)
From Coq Require Import Reals ZArith QArith Qreals List String Bool Lia.
From Verif Require Import Spec.Lin3 Spec.Symm Spec.SgSpec Model.Strings Model.Symmetry Model.SgTables Model.WyckoffData Model.SpaceGroup Proofs.SymmBaseP Proofs.SgCheckP Proofs.SgAllP.
Import ListNotations.
Open Scope string_scope.
Open Scope list_scope.
Open Scope Z_scope.


(** ** Settings of one number *)
Definition ref_code (it : Z) : option string := if it =? 228 then Some "1" else chosen it.
(** Origin shifts (in eighths) of the settings with origin 1 with respect to origin 2. *)
Definition origin_shift (it : Z) (code : option string) : V3 Z :=
  let z := mkV 0 0 0 in
  match code with
  | Some c =>
      if it =? 50 then if is_one_of c ["1abc"; "1ba-c"] then mkV 2 2 0 else z
      else if it =? 59 then if is_one_of c ["1abc"; "1ba-c"] then mkV 2 2 0 else z
      else if it =? 68 then if String.eqb c "1abc" then mkV 0 2 2 else if String.eqb c "1ba-c" then mkV 2 0 2 else if String.eqb c "1bca" then mkV 2 2 0 else z
      else if it =? 70 then if is_one_of c ["1abc"; "1cab"; "1bca"] then mkV 1 1 1 else if String.eqb c "1ba-c" then mkV 3 3 1 else if String.eqb c "1-cba" then mkV 1 3 3 else z
      else if negb (String.eqb c "1") then z
      else if one_of it [85; 129; 130] then mkV 2 6 0
      else if one_of it [86; 126; 201; 222; 224] then mkV 2 2 2
      else if it =? 88 then mkV 0 2 1
      else if it =? 125 then mkV 2 2 0
      else if one_of it [133; 134; 137; 138] then mkV 2 6 2
      else if one_of it [141; 142] then mkV 0 6 1
      else if one_of it [203; 227] then mkV 1 1 1 else z
  | None => z end.
Definition change (it : Z) (code : option string) (A : M3 Z) : Op := mkE (origin_shift it code) 8 A.
Definition conj_ok (it : Z) (code : option string) (r g : option (list Op)) : bool :=
  match axes_of_code code, r, g with
  | Some A, Some lr, Some lg =>
      match norm (change it code A), norms lr, norms lg with Some f, Some nr, Some ng => carries_check f nr ng | _, _, _ => false end
  | _, _, _ => false end.
Lemma conj_all : each2o ref_code settings (fun it code r g =>
  match g with None => missing_setting it code | Some _ => if misplaced_centre it code then true else conj_ok it code r g end) = true.
Proof. vm_compute. reflexivity. Qed.
Lemma conjugate : forall it code g, 1 <= it <= 230 -> offered (get_it_coordinate_system_codes_by_it_number it) code ->
  space_group it code = Some g -> misplaced_centre it code = false ->
  exists r f ops_r ops, space_group it (ref_code it) = Some r /\ get_symm_elems (sg_full r) = Some ops_r /\ get_symm_elems (sg_full g) = Some ops /\
    axes_of_code code = Some (e_r f) /\ 0 < e_d f /\ carries f ops_r ops.
Proof.
  intros it code g I O B M. assert (S : missing_setting it code = false).
  { destruct (missing_setting it code) eqn:E; [|reflexivity]. apply (builds it code I O) in E. rewrite E in B. clear - B. discriminate B. }
  generalize (each2o_in _ _ _ conj_all it code (settings_in it code I O)). cbv beta. rewrite B, M, S. cbn [ops_of].
  destruct (get_symm_elems (sg_full g)) as [lg|] eqn:EG; [|discriminate].
  unfold conj_ok. destruct (axes_of_code code) as [A|] eqn:EA; [|discriminate].
  destruct (space_group it (ref_code it)) as [r|] eqn:ER; [|discriminate]. cbn [ops_of]. destruct (get_symm_elems (sg_full r)) as [lr|] eqn:EL; [|discriminate].
  destruct (norm (change it code A)) as [f|] eqn:NF; [|discriminate].
  destruct (norms lr) as [nr|] eqn:NR; [|discriminate]. destruct (norms lg) as [ng|] eqn:NG; [|discriminate]. intros C.
  exists r, (change it code A), lr, lg. repeat (split; [assumption || reflexivity|]). eapply carries_check_ok; eassumption.
Qed.

(** ** The symmetry part of the crystal dictionary *)
Definition subset (l l' : list Op) : bool := forallb (fun e => mem e l') l.
Definition dict_full (d : SymmDict) : list Op :=
  calc_full_symm_elems_by_reduced (sd_reduced d) (sd_centrosymmetry d) (match sd_cp d with Some c => c | None => (mkV 0 0 0, 1) end) (sd_translations d).
Definition dict_ok (g : SpaceGroup) : bool :=
  match symm_dictionary g with
  | Some d => match norms (sd_full d), norms (dict_full d) with
              | Some a, Some b => if Nat.eqb (List.length (sd_full d)) (List.length (dict_full d)) then if subset a b then subset b a else false else false
              | _, _ => false end
  | None => false end.
Lemma dict_all : each settings (fun it code g => match g with None => true | Some g => if in_48_origin_1 it code then true else dict_ok g end) = true.
Proof. vm_compute. reflexivity. Qed.
Lemma subset_ok : forall l m l' m', norms l = Some m -> norms l' = Some m' -> subset m m' = true -> forall e, In e l -> exists e', In e' l' /\ same_op e e'.
Proof.
  intros l m l' m' N N' S e He. destruct (norms_in _ _ N e He) as [n [Hn E]]. unfold subset in S. rewrite forallb_forall in S. specialize (S n Hn).
  apply norm_ok in E as [_ [RN [E _]]]. apply mem_in in S; [|assumption|exact (norms_red _ _ N')]. destruct (norms_ni _ _ N' n S) as [e' [He' E']].
  exists e'. split; [assumption|]. apply norm_ok in E' as [_ [_ [E' _]]]. intros x. eapply sp_trans; [apply E|apply sp_sym, E'].
Qed.
Lemma dictionary : forall it code g, 1 <= it <= 230 -> offered (get_it_coordinate_system_codes_by_it_number it) code -> space_group it code = Some g ->
  ~ (it = 48 /\ misplaced_centre it code = true) ->
  exists d, symm_dictionary g = Some d /\ get_symm_elems (sg_full g) = Some (sd_full d) /\
    same_operations (sd_full d) (calc_full_symm_elems_by_reduced (sd_reduced d) (sd_centrosymmetry d) (match sd_cp d with Some c => c | None => (mkV 0 0 0, 1) end) (sd_translations d)).
Proof.
  intros it code g I O B N. generalize (each_ok _ dict_all it code I O). cbv beta. rewrite B.
  assert (F : in_48_origin_1 it code = false).
  { unfold in_48_origin_1. destruct (misplaced_centre it code); [|reflexivity]. unfold one_of. cbn [existsb]. destruct (Z.eqb_spec it 48); [exfalso; apply N; auto|reflexivity]. }
  rewrite F. unfold dict_ok.
  destruct (symm_dictionary g) as [d|] eqn:D; [|discriminate]. destruct (norms (sd_full d)) as [a|] eqn:NA; [|discriminate].
  destruct (norms (dict_full d)) as [b|] eqn:NB; [|discriminate]. destruct (Nat.eqb_spec (List.length (sd_full d)) (List.length (dict_full d))) as [L|]; [|discriminate].
  destruct (subset a b) eqn:S1; [|discriminate]. intros S2. exists d. split; [reflexivity|]. split.
  - unfold symm_dictionary in D. destruct (get_symm_elems (sg_full g)) as [full|]; [|discriminate]. cbn [obind] in D.
    destruct (get_symm_elems (sg_reduced g)); [|discriminate]. cbn [obind] in D.
    destruct (if sg_centrosymmetry g then _ else _); [|discriminate]. cbn [obind] in D. destruct (opt_list _); [|discriminate]. cbn [obind] in D. inversion D. reflexivity.
  - fold (dict_full d). split; [exact L|]. split; [eapply subset_ok; eassumption|]. intros e' He'.
    destruct (subset_ok _ _ _ _ NB NA S2 e' He') as [e [He E]]. exists e. split; [assumption|]. intros x. apply sp_sym, E.
Qed.
