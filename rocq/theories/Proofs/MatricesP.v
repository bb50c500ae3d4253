(** Rotation matrices, Euler angles, inverse, trilinear interpolation (function_1_matrices.py). *)
From Coq Require Import Reals ZArith List Lia Lra Psatz.
From Verif Require Import Spec.Lin3 Spec.Rotation Model.Profile Model.Matrices Proofs.ProfileDerivP.
Import ListNotations.
Open Scope R_scope.

(** ** rotations *)
Definition cols_ok (m : ix -> ix -> R) : Prop := forall i j, sum3 (fun k => m k i * m k j) = delta i j.
Lemma cols_rotation : forall m, cols_ok m -> det3 m = 1 -> is_rotation m.
Proof.
  intros m C D. split; [|exact D]. intros v w. pose proof (C X1 X1) as E11. pose proof (C X1 X2) as E12. pose proof (C X1 X3) as E13.
  pose proof (C X2 X2) as E22. pose proof (C X2 X3) as E23. pose proof (C X3 X3) as E33. unfold dot, apply_to, sum3, delta in *.
  transitivity ((m X1 X1 * m X1 X1 + m X2 X1 * m X2 X1 + m X3 X1 * m X3 X1) * (v X1 * w X1)
    + (m X1 X2 * m X1 X2 + m X2 X2 * m X2 X2 + m X3 X2 * m X3 X2) * (v X2 * w X2)
    + (m X1 X3 * m X1 X3 + m X2 X3 * m X2 X3 + m X3 X3 * m X3 X3) * (v X3 * w X3)
    + (m X1 X1 * m X1 X2 + m X2 X1 * m X2 X2 + m X3 X1 * m X3 X2) * (v X1 * w X2 + v X2 * w X1)
    + (m X1 X1 * m X1 X3 + m X2 X1 * m X2 X3 + m X3 X1 * m X3 X3) * (v X1 * w X3 + v X3 * w X1)
    + (m X1 X2 * m X1 X3 + m X2 X2 * m X2 X3 + m X3 X2 * m X3 X3) * (v X2 * w X3 + v X3 * w X2)); [ring|].
  rewrite E11, E12, E13, E22, E23, E33. ring.
Qed.
Lemma rotation_cols : forall m, is_rotation m -> cols_ok m /\ det3 m = 1.
Proof.
  intros m [R D]. split; [|exact D]. intros i j. specialize (R (delta i) (delta j)). unfold dot, apply_to, sum3, delta in *.
  destruct i, j; (match type of R with ?a = ?b => transitivity a; [ring|rewrite R; ring] end).
Qed.
Definition cof (m : ix -> ix -> R) (i j : ix) : R :=
  match i, j with
  | X1, X1 => m X2 X2 * m X3 X3 - m X2 X3 * m X3 X2 | X1, X2 => m X2 X3 * m X3 X1 - m X2 X1 * m X3 X3 | X1, X3 => m X2 X1 * m X3 X2 - m X2 X2 * m X3 X1
  | X2, X1 => m X1 X3 * m X3 X2 - m X1 X2 * m X3 X3 | X2, X2 => m X1 X1 * m X3 X3 - m X1 X3 * m X3 X1 | X2, X3 => m X1 X2 * m X3 X1 - m X1 X1 * m X3 X2
  | X3, X1 => m X1 X2 * m X2 X3 - m X1 X3 * m X2 X2 | X3, X2 => m X1 X3 * m X2 X1 - m X1 X1 * m X2 X3 | X3, X3 => m X1 X1 * m X2 X2 - m X1 X2 * m X2 X1
  end.
Lemma rotation_cof : forall m, is_rotation m -> forall i j, m i j = cof m i j.
Proof.
  intros m R i j. apply rotation_cols in R as [C D].
  transitivity (sum3 (fun l => sum3 (fun k => m k j * m k l) * cof m i l)).
  - transitivity (m i j * det3 m); [rewrite D; ring|]. unfold sum3, det3. destruct i; unfold cof; ring.
  - transitivity (sum3 (fun l => delta j l * cof m i l)); [unfold sum3 at 1; rewrite (C j X1), (C j X2), (C j X3); reflexivity|].
    unfold sum3, delta. destruct j; ring.
Qed.
Lemma rotation_rows : forall m, is_rotation m -> forall i j, sum3 (fun k => m i k * m j k) = delta i j.
Proof.
  intros m R i j. pose proof (rotation_cof m R) as K. transitivity (sum3 (fun k => m i k * cof m j k)); [unfold sum3; rewrite <- !K; reflexivity|].
  apply rotation_cols in R as [_ D]. transitivity (det3 m * delta i j); [|rewrite D; ring]. unfold sum3, det3, delta. destruct i, j; unfold cof; ring.
Qed.
Ltac trig t := let H := fresh in pose proof (sin2_cos2 t) as H; unfold Rsqr in H; let E := fresh in assert (E : sin t * sin t = 1 - cos t * cos t) by lra; clear H.
Lemma euler_is_product : forall al be ga v i,
  apply_to (mget (calc_rotation_matrix_ij_by_euler_angles al be ga)) v i = turn X3 ga (turn X2 be (turn X1 al v)) i.
Proof. intros. unfold apply_to, sum3, calc_rotation_matrix_ij_by_euler_angles, turn. destruct i; cbv beta iota; cbn [mget m_11 m_12 m_13 m_21 m_22 m_23 m_31 m_32 m_33]; ring. Qed.
Lemma turn_dot : forall n t v w, dot (turn n t v) (turn n t w) = dot v w.
Proof. intros n t v w. unfold dot, sum3, turn. pose proof (sin2_cos2 t) as H. unfold Rsqr in H. generalize dependent (sin t). intros s H. generalize dependent (cos t). intros c H. destruct n; cbv beta iota;
  [transitivity (v X1 * w X1 + (s * s + c * c) * (v X2 * w X2 + v X3 * w X3))|transitivity (v X2 * w X2 + (s * s + c * c) * (v X1 * w X1 + v X3 * w X3))|transitivity (v X3 * w X3 + (s * s + c * c) * (v X1 * w X1 + v X2 * w X2))]; try ring; rewrite H; ring. Qed.
Lemma euler_rotation : forall al be ga, is_rotation (mget (calc_rotation_matrix_ij_by_euler_angles al be ga)).
Proof.
  intros. split.
  - intros v w. unfold dot at 1. unfold sum3. rewrite !euler_is_product. 
    change (dot (turn X3 ga (turn X2 be (turn X1 al v))) (turn X3 ga (turn X2 be (turn X1 al w))) = dot v w). now rewrite !turn_dot.
  - unfold det3, calc_rotation_matrix_ij_by_euler_angles. cbn [mget m_11 m_12 m_13 m_21 m_22 m_23 m_31 m_32 m_33].
    pose proof (sin2_cos2 al) as A. pose proof (sin2_cos2 be) as B. pose proof (sin2_cos2 ga) as G. unfold Rsqr in *.
    transitivity ((sin al * sin al + cos al * cos al) * (sin be * sin be + cos be * cos be) * (sin ga * sin ga + cos ga * cos ga)); [ring|]. rewrite A, B, G. ring.
Qed.
Lemma around_axis_turn : forall t, is_turn X1 (- t) (mget (calc_rotation_matrix_ij_around_axis t X1)) /\
  is_turn X2 t (mget (calc_rotation_matrix_ij_around_axis t X2)) /\ is_turn X3 (- t) (mget (calc_rotation_matrix_ij_around_axis t X3)).
Proof.
  intros t. repeat split; intros v i; unfold apply_to, sum3, calc_rotation_matrix_ij_around_axis, turn; rewrite ?sin_neg, ?cos_neg; destruct i; cbn [mget m_11 m_12 m_13 m_21 m_22 m_23 m_31 m_32 m_33]; ring.
Qed.
Lemma around_axis_rotation : forall t n, is_rotation (mget (calc_rotation_matrix_ij_around_axis t n)).
Proof.
  intros t n. apply cols_rotation.
  - intros i j. pose proof (sin2_cos2 t) as H; unfold Rsqr in H. unfold sum3, calc_rotation_matrix_ij_around_axis, delta. destruct n, i, j; cbn [mget m_11 m_12 m_13 m_21 m_22 m_23 m_31 m_32 m_33]; lra.
  - pose proof (sin2_cos2 t) as H; unfold Rsqr in H. unfold det3, calc_rotation_matrix_ij_around_axis. destruct n; cbn [mget m_11 m_12 m_13 m_21 m_22 m_23 m_31 m_32 m_33]; lra.
Qed.
Lemma y_axis_opposite : ~ exists s, forall n t, is_turn n (s * t) (mget (calc_rotation_matrix_ij_around_axis t n)).
Proof.
  intros [s H]. pose proof (H X1 (PI / 2) (axis X2) X3) as A. pose proof (H X2 (PI / 2) (axis X3) X1) as B.
  unfold apply_to, sum3, calc_rotation_matrix_ij_around_axis, turn, axis, delta in A, B. cbn [mget m_11 m_12 m_13 m_21 m_22 m_23 m_31 m_32 m_33] in A, B. rewrite sin_PI2, ?cos_PI2 in A, B. lra.
Qed.

(** ** Euler angles *)
Definition angles_of (r : euler_result) : list (R * R * R) := match r with Two a b => [a; b] | One a => [a] end.
Lemma unit_arctan2 : forall x y, x * x + y * y = 1 -> sin (arctan2 y x) = y /\ cos (arctan2 y x) = x.
Proof. intros x y H. destruct (polar x y) as [S C]. rewrite H, sqrt_1, Rmult_1_r in S, C. auto. Qed.
Lemma euler_case : forall (m : M3 R) ps th ph, is_rotation (mget m) -> cos th <> 0 -> cos th * cos th = 1 - m_31 m * m_31 m -> sin th = - m_31 m ->
  ps = arctan2 (m_32 m / cos th) (m_33 m / cos th) -> ph = arctan2 (m_21 m / cos th) (m_11 m / cos th) ->
  calc_rotation_matrix_ij_by_euler_angles ps th ph = m.
Proof.
  intros m ps th ph R C0 C2 S -> ->. set (c := cos th) in *.
  pose proof (rotation_rows _ R X3 X3) as R33. pose proof (proj1 (rotation_cols _ R) X1 X1) as C11. pose proof (rotation_cof _ R) as K.
  pose proof (K X1 X2) as K12. pose proof (K X1 X3) as K13. pose proof (K X2 X2) as K22. pose proof (K X2 X3) as K23. clear K.
  destruct m as [m11 m12 m13 m21 m22 m23 m31 m32 m33]. unfold sum3, delta, cof in *. cbn [mget m_11 m_12 m_13 m_21 m_22 m_23 m_31 m_32 m_33] in *.
  assert (P : m33 / c * (m33 / c) + m32 / c * (m32 / c) = 1). { apply (Rmult_eq_reg_r (c * c)); [|nra]. field_simplify; [|exact C0]. nra. }
  assert (Q : m11 / c * (m11 / c) + m21 / c * (m21 / c) = 1). { apply (Rmult_eq_reg_r (c * c)); [|nra]. field_simplify; [|exact C0]. nra. }
  destruct (unit_arctan2 _ _ P) as [SP CP]. destruct (unit_arctan2 _ _ Q) as [SH CH].
  unfold calc_rotation_matrix_ij_by_euler_angles. rewrite SP, CP, SH, CH, S. fold c. 
  f_equal; try (field; exact C0).
  - apply (Rmult_eq_reg_r (c * c)); [|nra]. transitivity (- m31 * m32 * m11 - m33 * m21); [field; exact C0|]. rewrite C2. assert (H := f_equal (Rmult m31) K23). lra.
  - apply (Rmult_eq_reg_r (c * c)); [|nra]. transitivity (- m33 * m31 * m11 + m32 * m21); [field; exact C0|]. rewrite C2. assert (H := f_equal (Rmult m31) K22). lra.
  - apply (Rmult_eq_reg_r (c * c)); [|nra]. transitivity (- m31 * m32 * m21 + m33 * m11); [field; exact C0|]. rewrite C2. assert (H := f_equal (Rmult m31) K13). lra.
  - apply (Rmult_eq_reg_r (c * c)); [|nra]. transitivity (- m33 * m31 * m21 - m32 * m11); [field; exact C0|]. rewrite C2. assert (H := f_equal (Rmult m31) K12). lra.
Qed.
Lemma rot_31 : forall m : M3 R, is_rotation (mget m) -> -1 <= m_31 m <= 1.
Proof.
  intros m R. pose proof (rotation_rows _ R X3 X3) as E. unfold sum3, delta in E. cbn [mget m_11 m_12 m_13 m_21 m_22 m_23 m_31 m_32 m_33] in E. destruct m as [m11 m12 m13 m21 m22 m23 m31 m32 m33]. cbn in *. nra.
Qed.
Lemma euler_round_trip : forall m : M3 R, is_rotation (mget m) ->
  let l := angles_of (calc_euler_angles_by_rotation_matrix_ij m) in
  l <> [] /\ forall ps th ph, In (ps, th, ph) l -> calc_rotation_matrix_ij_by_euler_angles ps th ph = m.
Proof.
  intros m R. unfold calc_euler_angles_by_rotation_matrix_ij. pose proof (rot_31 m R) as B. destruct (Req_EM_T (Rabs (m_31 m)) 1) as [E|E].
  - assert (Z : m_11 m = 0 /\ m_21 m = 0 /\ m_32 m = 0 /\ m_33 m = 0).
    { assert (S : m_31 m * m_31 m = 1) by (unfold Rabs in E; destruct (Rcase_abs (m_31 m)); nra).
      pose proof (rotation_rows _ R X3 X3) as R33. pose proof (proj1 (rotation_cols _ R) X1 X1) as C11. unfold sum3, delta in *. destruct m as [m11 m12 m13 m21 m22 m23 m31 m32 m33]. cbn in *.
      repeat split; nra. }
    destruct Z as (Z1 & Z2 & Z3 & Z4). pose proof (rotation_cof _ R) as K. pose proof (K X2 X2) as K22. pose proof (K X2 X3) as K23.
    pose proof (rotation_rows _ R X1 X1) as R11.
    destruct m as [m11 m12 m13 m21 m22 m23 m31 m32 m33]. unfold sum3, delta, cof in *. cbn [mget m_11 m_12 m_13 m_21 m_22 m_23 m_31 m_32 m_33] in *. subst m11 m21 m32 m33.
    destruct (Req_EM_T m31 (-1)) as [->|N].
    + cbn [angles_of]. split; [discriminate|]. intros ps th ph [A|[]]. injection A as <- <- <-.
      destruct (unit_arctan2 m13 m12 ltac:(lra)) as [S C]. rewrite Rplus_0_l. unfold calc_rotation_matrix_ij_by_euler_angles.
      rewrite sin_PI2, cos_PI2, sin_0, cos_0, S, C. f_equal; lra.
    + assert (m31 = 1) by (unfold Rabs in E; destruct (Rcase_abs m31); lra). subst m31.
      cbn [angles_of]. split; [discriminate|]. intros ps th ph [A|[]]. injection A as <- <- <-.
      destruct (unit_arctan2 (-1 * m13) (-1 * m12) ltac:(lra)) as [S C]. replace (-1 * 0 + arctan2 (-1 * m12) (-1 * m13)) with (arctan2 (-1 * m12) (-1 * m13)) by ring.
      replace (-1 * PI / 2) with (- (PI / 2)) by field. unfold calc_rotation_matrix_ij_by_euler_angles.
      rewrite sin_neg, cos_neg, sin_PI2, cos_PI2, sin_0, cos_0, S, C. f_equal; lra.
  - assert (B' : -1 < m_31 m < 1) by (unfold Rabs in E; destruct (Rcase_abs (m_31 m)); lra).
    assert (S1 : sin (-1 * asin (m_31 m)) = - m_31 m). { replace (-1 * asin (m_31 m)) with (- asin (m_31 m)) by ring. rewrite sin_neg, sin_asin by lra. reflexivity. }
    assert (C1 : 0 < cos (-1 * asin (m_31 m))). { replace (-1 * asin (m_31 m)) with (- asin (m_31 m)) by ring. rewrite cos_neg. apply cos_gt_0; pose proof (asin_bound_lt (m_31 m) ltac:(lra)); lra. }
    assert (Q1 : cos (-1 * asin (m_31 m)) * cos (-1 * asin (m_31 m)) = 1 - m_31 m * m_31 m).
    { pose proof (sin2_cos2 (-1 * asin (m_31 m))) as H. unfold Rsqr in H. rewrite S1 in H. lra. }
    cbv zeta. cbn [angles_of]. split; [discriminate|]. intros ps th ph [A|[A|[]]]; injection A as <- <- <-.
    + apply (euler_case m _ _ _ R); try reflexivity; try assumption. lra.
    + apply (euler_case m _ _ _ R); try reflexivity; rewrite ?cos_minus, ?sin_minus, ?cos_PI, ?sin_PI; nra.
Qed.
