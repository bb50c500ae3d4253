(** Vibration constraints and cell constraints (C25, C26, C64). *)
From Coq Require Import Reals ZArith List String Ascii Lra Lia Bool.
From Verif Require Import Spec.Lin3 Spec.Symm Spec.Cell Spec.Lattice Model.MatrixOps Model.Vibration.
Import ListNotations.
Open Scope R_scope.

Definition r1 {A B C D} (x : A * B * C * D) : A := fst (fst (fst x)).
Definition r2 {A B C D} (x : A * B * C * D) : B := snd (fst (fst x)).
Definition r3 {A B C D} (x : A * B * C * D) : C := snd (fst x).
Definition r4 {A B C D} (x : A * B * C * D) : D := snd x.
Definition case_ok (numb : Z) : Prop := (0 <= numb <= 18)%Z.
Lemma case_split : forall n, case_ok n -> In n [0;1;2;3;4;5;6;7;8;9;10;11;12;13;14;15;16;17;18]%Z.
Proof. unfold case_ok. intros n H. simpl. lia. Qed.
Ltac cases19 H := apply case_split in H; simpl in H;
  repeat (destruct H as [<-|H]); [..|contradiction].
Lemma vib_invariant : forall numb p s r, case_ok numb -> tensor_invariant (case_generators numb) (r1 (vibration_constraints numb p s r)).
Proof.
  intros numb [p1 p2 p3 p4 p5 p6] [s1 s2 s3 s4 s5 s6] [f1 f2 f3 f4 f5 f6] H.
  cases19 H; intros m Hm i j; simpl in Hm; repeat (destruct Hm as [<-|Hm]); try contradiction;
  destruct i, j; unfold conj, sum3, rot_real; cbn; field.
Qed.
Lemma vib_kept : forall numb p s r, case_ok numb -> tensor_invariant (case_generators numb) p -> r1 (vibration_constraints numb p s r) = p.
Proof.
  intros numb [p1 p2 p3 p4 p5 p6] [s1 s2 s3 s4 s5 s6] [f1 f2 f3 f4 f5 f6] H T.
  cases19 H; unfold tensor_invariant in T; cbn [case_generators] in T;
  repeat match type of T with forall r, In r (?m :: ?l) -> _ =>
    let T1 := fresh "T" in assert (T1 := T m (or_introl eq_refl)); 
    let T2 := fresh "T" in assert (T2 : forall r, In r l -> forall i j, conj (rot_real (rot_op r)) (qget (mkQ p1 p2 p3 p4 p5 p6)) i j = qget (mkQ p1 p2 p3 p4 p5 p6) i j) by (intros r Hr; exact (T r (or_intror Hr)));
    pose proof (T1 X1 X1); pose proof (T1 X2 X2); pose proof (T1 X3 X3); pose proof (T1 X1 X2); pose proof (T1 X1 X3); pose proof (T1 X2 X3);
    clear T T1; rename T2 into T end; clear T;
  repeat match goal with H : conj _ _ _ _ = _ |- _ => unfold conj, sum3, rot_real in H; cbn in H end;
  cbn; f_equal; lra.
Qed.
Definition qall (P : ix -> ix -> Prop) : Prop := forall i j, P i j.
Lemma vib_free : forall numb p s r i j, let v := vibration_constraints numb p s r in
  (qget (r4 v) i j = false -> qget (r1 v) i j = qget p i j /\ qget (r2 v) i j = qget s i j /\ qget (r3 v) i j = qget r i j) /\
  (qget (r4 v) i j = true -> qget (r3 v) i j = false).
Proof.
  intros numb [p1 p2 p3 p4 p5 p6] [s1 s2 s3 s4 s5 s6] [f1 f2 f3 f4 f5 f6] i j. unfold vibration_constraints.
  repeat match goal with |- context [(numb =? ?k)%Z] => destruct (numb =? k)%Z end;
  destruct i, j; cbn; split; intros E; try discriminate E; auto.
Qed.
Lemma vib_determined : forall numb p p' s r,
  (forall i j, qget (r4 (vibration_constraints numb p s r)) i j = false -> qget p i j = qget p' i j) ->
  r1 (vibration_constraints numb p s r) = r1 (vibration_constraints numb p' s r).
Proof.
  intros numb [p1 p2 p3 p4 p5 p6] [p1' p2' p3' p4' p5' p6'] [s1 s2 s3 s4 s5 s6] [f1 f2 f3 f4 f5 f6] H.
  pose proof (H X1 X1) as H1. pose proof (H X2 X2) as H2. pose proof (H X3 X3) as H3.
  pose proof (H X1 X2) as H4. pose proof (H X1 X3) as H5. pose proof (H X2 X3) as H6. clear H.
  unfold vibration_constraints in *.
  repeat match goal with |- context [(numb =? ?k)%Z] => destruct (numb =? k)%Z end;
  cbn in *; 
  repeat match goal with H : false = false -> _ |- _ => specialize (H eq_refl) end; subst; reflexivity.
Qed.

(** * Cells *)
Lemma deg90 : 90 * PI / 180 = PI / 2. Proof. field. Qed.
Lemma deg120 : 120 * PI / 180 = 2 * PI / 3. Proof. field. Qed.
Lemma cos_2PI3' : cos (2 * PI / 3) = - 1 / 2.
Proof. replace (2 * PI / 3) with (2 * (PI / 3)) by field. rewrite cos_2PI3. lra. Qed.

(** settings handled by the code *)
Definition handled (type_cell code : string) (f : family) : Prop :=
  match f with Monoclinic_a | Monoclinic_c => False | Hexagonal => code = "h"%string | _ => True end.
Definition family_apply (f : family) (u : U6 R) : U6 R :=
  let '(mkU a b c al be ga) := u in
  match f with
  | Monoclinic_b => mkU a b c 90 be 90
  | Orthorhombic => mkU a b c 90 90 90
  | Tetragonal => mkU a a c 90 90 90
  | Hexagonal => mkU a a c 90 90 120
  | Rhombohedral => mkU a a a al al al
  | Cubic => mkU a a a 90 90 90
  | _ => u end.
Lemma cell_result : forall t c f p s r, lattice_type t c f -> handled t c f -> r1 (apply_constraint_on_cell p s r t c) = family_apply f p.
Proof.
  intros t c f [a b c0 al be ga] [s1 s2 s3 s4 s5 s6] [f1 f2 f3 f4 f5 f6] L H.
  destruct L; cbn [handled] in H; try contradiction; subst; try match goal with |- context [String _ ?z] => is_var z; destruct z end; reflexivity.
Qed.
Lemma cell_obeyed : forall t c f p s r, lattice_type t c f -> handled t c f -> cell_obeys f (radians (r1 (apply_constraint_on_cell p s r t c))).
Proof.
  intros t c f p s r L H. rewrite (cell_result t c f p s r L H). destruct p as [a b c0 al be ga].
  destruct f; cbn [handled] in H; try contradiction; subst; intros m Hm i j; cbn [lattice_generators In] in Hm;
  repeat (destruct Hm as [<-|Hm]); try contradiction; cbn [family_apply radians u_a u_b u_c u_al u_be u_ga]; rewrite ?deg90, ?deg120;
  destruct i, j; unfold sum3, metric, axis_len, axis_cos; cbn -[Rmult Rplus Rdiv IZR cos PI]; rewrite ?deg90, ?deg120, ?cos_PI2, ?cos_2PI3'; try field.
Qed.
Lemma sq_eq : forall a b, 0 < a -> 0 < b -> a * a = b * b -> a = b.
Proof. intros. nra. Qed.
Lemma cos_inj' : forall x y, 0 < x < PI -> 0 < y < PI -> cos x = cos y -> x = y.
Proof. intros x y Hx Hy E. rewrite <- (acos_cos x), <- (acos_cos y) by lra. rewrite E. reflexivity. Qed.
Lemma cos0 : forall x, 0 < x < PI -> cos x = 0 -> x = PI / 2.
Proof. intros x H E. pose proof PI_RGT_0. apply cos_inj'; [lra|lra|]. rewrite cos_PI2. exact E. Qed.
Lemma cosm12 : forall x, 0 < x < PI -> cos x = - 1 / 2 -> x = 2 * PI / 3.
Proof. intros x H E. pose proof PI_RGT_0. apply cos_inj'; [lra|lra|]. rewrite cos_2PI3'. exact E. Qed.
Lemma mul0 : forall a b x, 0 < a -> 0 < b -> a * b * x = - (a * b * x) -> x = 0.
Proof. intros a b x Ha Hb E. assert (P : 0 < a * b) by nra. assert (Q : (a * b) * x = 0) by lra. apply Rmult_integral in Q. destruct Q; [lra|assumption]. Qed.
(** what each family means for the six parameters *)
Definition family_values (f : family) (u : U6 R) : Prop :=
  let '(mkU a b c al be ga) := u in
  match f with
  | Triclinic => True
  | Monoclinic_b => al = PI / 2 /\ ga = PI / 2
  | Monoclinic_c => al = PI / 2 /\ be = PI / 2
  | Monoclinic_a => be = PI / 2 /\ ga = PI / 2
  | Orthorhombic => al = PI / 2 /\ be = PI / 2 /\ ga = PI / 2
  | Tetragonal => a = b /\ al = PI / 2 /\ be = PI / 2 /\ ga = PI / 2
  | Hexagonal => a = b /\ al = PI / 2 /\ be = PI / 2 /\ ga = 2 * PI / 3
  | Rhombohedral => a = b /\ b = c /\ al = be /\ be = ga
  | Cubic => a = b /\ b = c /\ al = PI / 2 /\ be = PI / 2 /\ ga = PI / 2 end.
Ltac entry T m i j := let E := fresh "E" in
  assert (E := T m ltac:(cbn; tauto) i j); unfold sum3, metric, axis_len, axis_cos in E; cbn in E.
Lemma obeys_values : forall f u, proper_rad u -> cell_obeys f u -> family_values f u.
Proof.
  intros f [a b c al be ga] (Ha & Hb & Hc & Hal & Hbe & Hga) T. cbn [u_a u_b u_c u_al u_be u_ga] in *. unfold cell_obeys in T.
  destruct f; cbn [family_values].
  - exact I.
  - entry T two_b X1 X2. entry T two_b X2 X3. split; apply cos0; try assumption; [apply (mul0 b c)|apply (mul0 a b)]; try assumption; lra.
  - entry T two_c X1 X3. entry T two_c X2 X3. split; apply cos0; try assumption; [apply (mul0 b c)|apply (mul0 a c)]; try assumption; lra.
  - entry T two_a X1 X3. entry T two_a X1 X2. split; apply cos0; try assumption; [apply (mul0 a c)|apply (mul0 a b)]; try assumption; lra.
  - entry T two_a X1 X3. entry T two_a X1 X2. entry T two_b X2 X3. 
    repeat split; apply cos0; try assumption; [apply (mul0 b c)|apply (mul0 a c)|apply (mul0 a b)]; try assumption; lra.
  - entry T two_a X1 X3. entry T two_a X1 X2. entry T four_c X1 X1. entry T four_c X2 X3. 
    assert (Q : a = b) by (apply sq_eq; lra). subst b.
    assert (Cb : cos be = 0) by (apply (mul0 a c); lra).
    repeat split; apply cos0; try assumption; [|apply (mul0 a a); lra].
    rewrite Cb in E2. assert (P : 0 < a * c) by nra. assert (Z : (a * c) * cos al = 0) by lra. apply Rmult_integral in Z. destruct Z; [lra|assumption].
  - entry T two_110 X1 X1. assert (Q : a = b) by (apply sq_eq; lra). subst b.
    entry T two_110 X1 X3. entry T hex_six_c X1 X3. entry T hex_six_c X2 X3. entry T hex_six_c X1 X1.
    assert (P : 0 < a * c) by nra. assert (P2 : 0 < a * a) by nra.
    assert (C1 : cos al = - cos be) by (apply (Rmult_eq_reg_l (a * c)); lra).
    rewrite C1 in *. 
    assert (C2 : cos be = 0) by (apply (Rmult_eq_reg_l (a * c)); lra).
    rewrite C2 in *.
    repeat split; [apply cos0; [assumption|lra]|apply cos0; [assumption|lra]|]. apply cosm12; [assumption|]. apply (Rmult_eq_reg_l (a * a)); lra.
  - entry T three_111 X1 X1. entry T three_111 X2 X2. 
    assert (Q : a = b) by (apply sq_eq; lra). subst b. assert (Q : a = c) by (apply sq_eq; lra). subst c.
    entry T three_111 X1 X2. entry T three_111 X2 X3. assert (P2 : 0 < a * a) by nra.
    repeat split; apply cos_inj'; try assumption; apply (Rmult_eq_reg_l (a * a)); lra.
  - entry T three_111 X1 X1. entry T three_111 X2 X2. 
    assert (Q : a = b) by (apply sq_eq; lra). subst b. assert (Q : a = c) by (apply sq_eq; lra). subst c.
    entry T three_111 X1 X2. entry T three_111 X2 X3. entry T four_c X1 X2. assert (P2 : 0 < a * a) by nra.
    assert (Cg : cos ga = 0) by (apply (mul0 a a); lra). rewrite Cg in *.
    repeat split; apply cos0; try assumption; apply (Rmult_eq_reg_l (a * a)); lra.
Qed.
Lemma cell_kept : forall t c f p s r, lattice_type t c f -> handled t c f -> proper_deg p -> cell_obeys f (radians p) ->
  r1 (apply_constraint_on_cell p s r t c) = p.
Proof.
  intros t c f [a b c0 al be ga] [s1 s2 s3 s4 s5 s6] [f1 f2 f3 f4 f5 f6] L H (Ha & Hb & Hc & Hal & Hbe & Hga) T.
  cbn [u_a u_b u_c u_al u_be u_ga] in *. pose proof PI_RGT_0 as HP.
  assert (V : family_values f (radians (mkU a b c0 al be ga))).
  { apply obeys_values; [|exact T]. unfold proper_rad, radians. cbn. repeat split; try assumption; nra. }
  assert (D : forall x y, x * PI / 180 = y * PI / 180 -> x = y) by (intros x y E; apply (Rmult_eq_reg_r (PI / 180)); lra).
  assert (D9 : forall x, x * PI / 180 = PI / 2 -> x = 90) by (intros x E; apply D; lra).
  assert (D12 : forall x, x * PI / 180 = 2 * PI / 3 -> x = 120) by (intros x E; apply D; lra).
  rewrite (cell_result t c f _ _ _ L H). destruct f; cbn [handled] in H; try contradiction; cbn in V |- *;
  repeat match goal with H : _ /\ _ |- _ => destruct H end; subst;
  repeat match goal with H : _ * PI / 180 = PI / 2 |- _ => apply D9 in H | H : _ * PI / 180 = 2 * PI / 3 |- _ => apply D12 in H | H : _ * PI / 180 = _ * PI / 180 |- _ => apply D in H end;
  subst; reflexivity.
Qed.
Lemma cell_free : forall t c p s r k, let v := apply_constraint_on_cell p s r t c in
  (uget (r4 v) k = false -> uget (r1 v) k = uget p k /\ uget (r2 v) k = uget s k /\ uget (r3 v) k = uget r k) /\
  (uget (r4 v) k = true -> uget (r3 v) k = false).
Proof.
  intros t c [a b c0 al be ga] [s1 s2 s3 s4 s5 s6] [f1 f2 f3 f4 f5 f6] k. unfold apply_constraint_on_cell.
  repeat match goal with |- context [if ?b then _ else _] => destruct b end; destruct k; cbn; split; intros E; try discriminate E; auto.
Qed.
Lemma cell_determined : forall t c p p' s r,
  (forall k, uget (r4 (apply_constraint_on_cell p s r t c)) k = false -> uget p k = uget p' k) ->
  r1 (apply_constraint_on_cell p s r t c) = r1 (apply_constraint_on_cell p' s r t c).
Proof.
  intros t c [a b c0 al be ga] [a' b' c' al' be' ga'] [s1 s2 s3 s4 s5 s6] [f1 f2 f3 f4 f5 f6] H.
  pose proof (H Ua) as H1. pose proof (H Ub) as H2. pose proof (H Uc) as H3.
  pose proof (H Ual) as H4. pose proof (H Ube) as H5. pose proof (H Uga) as H6. clear H.
  unfold apply_constraint_on_cell in *.
  repeat match goal with |- context [if ?b then _ else _] => destruct b end; cbn in *;
  repeat match goal with H : false = false -> _ |- _ => specialize (H eq_refl) end; subst; reflexivity.
Qed.
(** the matrix used in the refinement does the same in radians *)
Lemma sc_uc_same : forall t c p s r, apply_sc_uc (calc_sc_v_unit_cell_parameters t c) (radians p) = radians (r1 (apply_constraint_on_cell p s r t c)).
Proof.
  intros t c [a b c0 al be ga] [s1 s2 s3 s4 s5 s6] [f1 f2 f3 f4 f5 f6].
  unfold apply_sc_uc, calc_sc_v_unit_cell_parameters, apply_constraint_on_cell, radians.
  repeat match goal with |- context [if ?b then _ else _] => destruct b end;
  cbn; unfold u_row_dot; cbn; f_equal; field.
Qed.
(** * failures *)
Lemma mono_c_refuted : exists t c p s r, lattice_type t c Monoclinic_c /\ proper_deg p /\ cell_obeys Monoclinic_c (radians p) /\
  r1 (apply_constraint_on_cell p s r t c) <> p.
Proof.
  exists "mP"%string, "c1"%string, (mkU 3 4 5 90 90 100), (mkU 0 0 0 0 0 0), (mkU false false false false false false).
  split; [apply L_mc; reflexivity|]. split; [unfold proper_deg; cbn; lra|]. split.
  - intros m [<-|[]] i j. destruct i, j; unfold sum3, metric, axis_len, axis_cos; cbn; rewrite ?deg90, ?cos_PI2; ring.
  - cbn. intros E. injection E as E1. lra.
Qed.
Lemma mono_c_broken : exists t c p s r, lattice_type t c Monoclinic_c /\ proper_deg p /\
  ~ cell_obeys Monoclinic_c (radians (r1 (apply_constraint_on_cell p s r t c))).
Proof.
  exists "mP"%string, "c1"%string, (mkU 3 4 5 90 60 90), (mkU 0 0 0 0 0 0), (mkU false false false false false false).
  split; [apply L_mc; reflexivity|]. split; [unfold proper_deg; cbn; lra|].
  intros T. entry T two_c X1 X3.
  replace (60 * PI / 180) with (PI / 3) in E by field. rewrite cos_PI3 in E. lra.
Qed.
Lemma hP_refuted : exists t c p s r, lattice_type t c Hexagonal /\ proper_deg p /\ cell_obeys Hexagonal (radians p) /\
  r1 (apply_constraint_on_cell p s r t c) <> p /\ ~ cell_obeys Hexagonal (radians (r1 (apply_constraint_on_cell p s r t c))).
Proof.
  exists "hP"%string, "r"%string, (mkU 3 3 5 90 90 120), (mkU 0 0 0 0 0 0), (mkU false false false false false false).
  split; [apply L_hP|]. split; [unfold proper_deg; cbn; lra|]. split; [|split].
  - intros m Hm i j; cbn in Hm; repeat (destruct Hm as [<-|Hm]); try contradiction; destruct i, j; unfold sum3, metric, axis_len, axis_cos; cbn; rewrite ?deg90, ?deg120, ?cos_PI2, ?cos_2PI3'; field.
  - intros E. assert (E1 : u_c (r1 (apply_constraint_on_cell (mkU 3 3 5 90 90 120) (mkU 0 0 0 0 0 0) (mkU false false false false false false) "hP" "r")) = 3) by reflexivity.
    rewrite E in E1. cbn in E1. lra.
  - change (r1 _) with (mkU 3 3 3 90 90 90). intros T. entry T hex_six_c X1 X1. rewrite deg90, cos_PI2 in E. lra.
Qed.

(** * C64: the case number from the site operations *)
(** closure of a list of matrices under the product (enough rounds for crystallographic point groups) *)
Definition m3_eqb (a b : M3 Z) : bool := (forallb (fun p => Z.eqb (mget a (fst p) (snd p)) (mget b (fst p) (snd p)))
  [(X1,X1);(X1,X2);(X1,X3);(X2,X1);(X2,X2);(X2,X3);(X3,X1);(X3,X2);(X3,X3)])%bool.
Definition m3_mul (a b : M3 Z) : M3 Z :=
  let g i j := (mget a i X1 * mget b X1 j + mget a i X2 * mget b X2 j + mget a i X3 * mget b X3 j)%Z in
  mkM (g X1 X1) (g X1 X2) (g X1 X3) (g X2 X1) (g X2 X2) (g X2 X3) (g X3 X1) (g X3 X2) (g X3 X3).
Definition add_new (l : list (M3 Z)) (m : M3 Z) : list (M3 Z) := if existsb (m3_eqb m) l then l else l ++ [m].
Definition round (gens l : list (M3 Z)) : list (M3 Z) := fold_left add_new (flat_map (fun g => map (m3_mul g) l) gens) l.
Definition generated (gens : list (M3 Z)) : list (M3 Z) := Nat.iter 6 (round gens) [mkM 1 0 0 0 1 0 0 0 1]%Z.
Lemma number_cases : forall n, In n [0;1;2;3;4;5;6;8;9;10;11;12;13;14;15;16;17;18]%Z ->
  calc_constr_number (generated (case_generators n)) = n.
Proof. intros n H. simpl in H. repeat (destruct H as [<-|H]); try contradiction; vm_compute; reflexivity. Qed.
Lemma generated_sizes : map (fun n => List.length (generated (case_generators n))) [1;4;5;8;14;16;17;18]%Z = [2;4;4;4;4;3;12;3]%nat.
Proof. vm_compute. reflexivity. Qed.
Lemma number7 : calc_constr_number (generated (case_generators 7)) = 0%Z.
Proof. vm_compute. reflexivity. Qed.
Lemma number_refuted : exists site : list (M3 Z), site = [mkM 1 0 0 0 1 0 0 0 1; two_110]%Z /\
  exists p s r, ~ tensor_invariant site (r1 (vibration_constraints (calc_constr_number site) p s r)).
Proof.
  eexists. split; [reflexivity|].
  assert (E : calc_constr_number [mkM 1 0 0 0 1 0 0 0 1; two_110]%Z = 0%Z) by (vm_compute; reflexivity). rewrite E.
  exists (mkQ 1 2 3 0 0 0), (mkQ 0 0 0 0 0 0), (mkQ true true true true true true). intros T.
  pose proof (T two_110 (or_intror (or_introl eq_refl)) X1 X1) as F. unfold conj, sum3, rot_real in F. cbn in F. lra.
Qed.
