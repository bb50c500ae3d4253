(** Two-vector rotations, angles, products, inverse, trilinear interpolation (function_1_matrices.py). *)
From Coq Require Import Reals ZArith List Lia Lra Psatz.
From Verif Require Import Spec.Lin3 Spec.Rotation Model.Profile Model.Matrices Proofs.ProfileDerivP Proofs.MatricesP.
Import ListNotations.
Open Scope R_scope.
Ltac mcbn := cbn [mget vget m_11 m_12 m_13 m_21 m_22 m_23 m_31 m_32 m_33 v_1 v_2 v_3].

Lemma frame_rotation : forall a c : V3 R, scalar_product a a = 1 -> scalar_product c c = 1 -> scalar_product a c = 0 ->
  let b := calc_vector_product c a in
  is_rotation (mget (mkM (v_1 a) (v_1 b) (v_1 c) (v_2 a) (v_2 b) (v_2 c) (v_3 a) (v_3 b) (v_3 c))).
Proof.
  intros [a1 a2 a3] [c1 c2 c3] A C O b. unfold b, calc_vector_product, scalar_product in *. cbn [v_1 v_2 v_3] in *. clear b.
  assert (BB : (c2 * a3 - c3 * a2) * (c2 * a3 - c3 * a2) + (c3 * a1 - c1 * a3) * (c3 * a1 - c1 * a3) + (c1 * a2 - c2 * a1) * (c1 * a2 - c2 * a1) = 1).
  { transitivity ((a1 * a1 + a2 * a2 + a3 * a3) * (c1 * c1 + c2 * c2 + c3 * c3) - (a1 * c1 + a2 * c2 + a3 * c3) * (a1 * c1 + a2 * c2 + a3 * c3)); [ring|]. rewrite A, C, O. ring. }
  apply cols_rotation.
  - intros i j. unfold sum3, delta. destruct i, j; mcbn; try lra.
  - unfold det3. mcbn. rewrite <- BB. ring.
Qed.
Lemma np_norm_sq : forall v, np_norm v * np_norm v = scalar_product v v.
Proof. intros v. unfold np_norm, scalar_product. rewrite sqrt_sqrt; [unfold Rsqr; ring|]. pose proof (Rle_0_sqr (v_1 v)); pose proof (Rle_0_sqr (v_2 v)); pose proof (Rle_0_sqr (v_3 v)). lra. Qed.
Lemma np_norm_dot : forall v, np_norm v = norm (vget v).
Proof. intros [a b c]. unfold np_norm, norm, dot, sum3. mcbn. reflexivity. Qed.
Lemma divide_norm : forall v, np_norm v <> 0 -> scalar_product (divide v (np_norm v)) (divide v (np_norm v)) = 1.
Proof. intros v N. pose proof (np_norm_sq v) as S. unfold scalar_product, divide in *. mcbn. apply (Rmult_eq_reg_r (np_norm v * np_norm v)); [|nra]. rewrite Rmult_1_l. rewrite S at 2. field. exact N. Qed.
Lemma np_norm_pos : forall v, 0 < scalar_product v v -> 0 < np_norm v.
Proof. intros v H. unfold np_norm. apply sqrt_lt_R0. unfold scalar_product, Rsqr in *. lra. Qed.
Lemma two_vectors : forall v1 v2 ax_1 ax_2, (dot (vget v1) (vget v2)) ^ 2 < dot (vget v1) (vget v1) * dot (vget v2) (vget v2) ->
  let m := mget (calc_rotation_matrix_by_two_vectors v1 v2 ax_1 ax_2) in
  is_rotation m /\ (forall i, vget v1 i = norm (vget v1) * apply_to m (axis X1) i) /\
  exists a b, 0 < b /\ forall i, vget v2 i = a * apply_to m (axis X1) i + b * apply_to m (axis X2) i.
Proof.
  intros v1 v2 ax1 ax2 H. cbv zeta. unfold calc_rotation_matrix_by_two_vectors.
  assert (L : dot (vget v1) (vget v2) = scalar_product v1 v2 /\ dot (vget v1) (vget v1) = scalar_product v1 v1 /\ dot (vget v2) (vget v2) = scalar_product v2 v2) by (repeat split; reflexivity).
  destruct L as (-> & -> & ->) in H. 
  assert (P1 : 0 < scalar_product v1 v1). { assert (0 <= scalar_product v1 v1) by (unfold scalar_product; nra). assert (0 <= scalar_product v2 v2) by (unfold scalar_product; nra). nra. }
  assert (P2 : 0 < scalar_product v2 v2). { assert (0 <= scalar_product v2 v2) by (unfold scalar_product; nra). nra. }
  pose proof (np_norm_pos _ P1) as N1. pose proof (np_norm_pos _ P2) as N2. pose proof (np_norm_sq v1) as S1. pose proof (np_norm_sq v2) as S2.
  set (n1 := np_norm v1) in *. set (n2 := np_norm v2) in *.
  pose proof (divide_norm v1 ltac:(fold n1; lra)) as U1. fold n1 in U1. pose proof (divide_norm v2 ltac:(fold n2; lra)) as U2. fold n2 in U2.
  set (e := divide v1 n1) in *. set (f := divide v2 n2) in *. set (w := calc_vector_product e f).
  assert (EF : scalar_product e f * (n1 * n2) = scalar_product v1 v2). { unfold e, f, scalar_product, divide. mcbn. field. split; lra. }
  assert (WW : scalar_product w w = 1 - scalar_product e f * scalar_product e f).
  { transitivity (scalar_product e e * scalar_product f f - scalar_product e f * scalar_product e f); [|rewrite U1, U2; ring]. unfold w, scalar_product, calc_vector_product. mcbn. ring. }
  assert (PW : 0 < scalar_product w w). { rewrite WW. assert ((scalar_product e f * (n1 * n2)) ^ 2 < (n1 * n2) * (n1 * n2)) by (rewrite EF; nra). 
    assert (0 < n1 * n2) by nra. set (q := n1 * n2) in *. set (x := scalar_product e f) in *. assert (x * x * (q * q) < q * q) by nra. assert (0 < q * q) by nra. nra. }
  pose proof (np_norm_pos _ PW) as NW. pose proof (divide_norm w ltac:(lra)) as UW. set (nw := np_norm w) in *. set (g := divide w nw) in *.
  assert (EG : scalar_product e g = 0). { unfold g, w, scalar_product, divide, calc_vector_product. mcbn. field. lra. }
  split; [|split].
  - exact (frame_rotation e g U1 UW EG).
  - intros i. rewrite <- np_norm_dot. fold n1. unfold apply_to, sum3, axis, delta. unfold e, divide. destruct i; mcbn; field; lra.
  - exists (n2 * scalar_product e f), (n2 * nw). split; [nra|]. intros i.
    assert (VF : forall i, vget v2 i = n2 * vget f i) by (intros [| |]; unfold f, divide; mcbn; field; lra). rewrite VF.
    assert (FE : forall i, vget f i = scalar_product e f * vget e i + nw * vget (calc_vector_product g e) i).
    { intros k. transitivity (scalar_product e f * vget e k + (scalar_product e e * vget f k - scalar_product e f * vget e k)); [rewrite U1; ring|]. f_equal.
      unfold g, divide, w, calc_vector_product, scalar_product. destruct k; mcbn; field; lra. }
    rewrite FE. unfold apply_to, sum3, axis, delta. destruct i; mcbn; ring.
Qed.
Lemma two_vectors_axes : ~ forall v1 v2 ax_1 ax_2, ax_1 <> ax_2 -> (dot (vget v1) (vget v2)) ^ 2 < dot (vget v1) (vget v1) * dot (vget v2) (vget v2) ->
  forall i, vget v1 i = norm (vget v1) * apply_to (mget (calc_rotation_matrix_by_two_vectors v1 v2 ax_1 ax_2)) (axis ax_1) i.
Proof.
  intros H. specialize (H (mkV 1 0 0) (mkV 0 1 0) X3 X1 ltac:(discriminate)).
  assert (K : dot (vget (mkV 1 0 0)) (vget (mkV 0 1 0)) ^ 2 < dot (vget (mkV 1 0 0)) (vget (mkV 1 0 0)) * dot (vget (mkV 0 1 0)) (vget (mkV 0 1 0))) by (unfold dot, sum3; cbn; lra).
  specialize (H K X1). destruct (two_vectors (mkV 1 0 0) (mkV 0 1 0) X3 X1 K) as (R & A & _). pose proof (A X1) as A1. cbn [vget v_1] in *.
  set (m := mget (calc_rotation_matrix_by_two_vectors (mkV 1 0 0) (mkV 0 1 0) X3 X1)) in *.
  assert (N : norm (vget (mkV 1 0 0)) = 1). { unfold norm, dot, sum3. cbn. replace (1 * 1 + 0 * 0 + 0 * 0) with 1 by ring. apply sqrt_1. } rewrite N in *.
  unfold apply_to, sum3, axis, delta in H, A1. pose proof (rotation_rows m R X1 X1) as E. unfold sum3, delta in E.
  assert (m X1 X1 = 1) by lra. assert (m X1 X3 = 1) by lra. rewrite H0, H1 in E. nra.
Qed.
Lemma vector_angle : forall v1 v2, (1 / 10 ^ 12 < norm (vget v1) \/ 1 / 10 ^ 12 < norm (vget v2)) -> norm (vget v1) <> 0 -> norm (vget v2) <> 0 ->
  exists t, calc_vector_angle v1 v2 = Some t /\ 0 <= t <= PI /\ norm (vget v1) * norm (vget v2) * cos t = dot (vget v1) (vget v2).
Proof.
  intros v1 v2 F N1 N2. unfold calc_vector_angle. rewrite !np_norm_dot. set (n1 := norm (vget v1)) in *. set (n2 := norm (vget v2)) in *.
  assert (E : (if Rlt_dec (1 / 10 ^ 12) n1 then true else if Rlt_dec (1 / 10 ^ 12) n2 then true else false) = true).
  { destruct (Rlt_dec (1 / 10 ^ 12) n1); [reflexivity|]. destruct (Rlt_dec (1 / 10 ^ 12) n2); [reflexivity|]. destruct F; contradiction. }
  rewrite E. destruct (Req_EM_T (n1 * n2) 0) as [Z|Z]; [exfalso; apply Rmult_integral in Z; tauto|].
  eexists. split; [reflexivity|]. split; [apply acos_bound|].
  assert (P1 : 0 <= n1) by apply sqrt_pos. assert (P2 : 0 <= n2) by apply sqrt_pos. assert (P : 0 < n1 * n2) by nra.
  assert (Q1 : n1 * n1 = scalar_product v1 v1) by (unfold n1; rewrite <- np_norm_dot; apply np_norm_sq).
  assert (Q2 : n2 * n2 = scalar_product v2 v2) by (unfold n2; rewrite <- np_norm_dot; apply np_norm_sq).
  assert (CS : scalar_product v1 v2 * scalar_product v1 v2 <= (n1 * n2) * (n1 * n2)).
  { replace (n1 * n2 * (n1 * n2)) with (n1 * n1 * (n2 * n2)) by ring. rewrite Q1, Q2. unfold scalar_product. destruct v1 as [a b c], v2 as [x y z]. cbn [v_1 v_2 v_3].
    pose proof (Rle_0_sqr (a * y - b * x)). pose proof (Rle_0_sqr (a * z - c * x)). pose proof (Rle_0_sqr (b * z - c * y)). unfold Rsqr in *. lra. }
  change (v_1 v1 * v_1 v2 + v_2 v1 * v_2 v2 + v_3 v1 * v_3 v2) with (scalar_product v1 v2).
  rewrite cos_acos; [change (dot (vget v1) (vget v2)) with (scalar_product v1 v2); field; split; assumption|].
  set (s := scalar_product v1 v2) in *. set (q := n1 * n2) in *. assert (- q <= s <= q) by (split; nra).
  split; [apply (Rmult_le_reg_r q)|apply (Rmult_le_reg_r q)]; try exact P; unfold Rdiv; rewrite Rmult_assoc, Rinv_l by lra; lra.
Qed.
Lemma vector_angle_zero : calc_vector_angle (mkV 0 0 0) (mkV 1 0 0) = None.
Proof.
  unfold calc_vector_angle, np_norm. mcbn. replace (Rsqr 1 + Rsqr 0 + Rsqr 0) with 1 by (unfold Rsqr; ring). replace (Rsqr 0 + Rsqr 0 + Rsqr 0) with 0 by (unfold Rsqr; ring).
  rewrite sqrt_0, sqrt_1. destruct (Rlt_dec (1 / 10 ^ 12) 0) as [K|K]; [exfalso; assert (0 < 10 ^ 12) by lra; apply Rlt_not_le in K; apply K; apply Rlt_le; apply Rdiv_lt_0_compat; lra|].
  destruct (Rlt_dec (1 / 10 ^ 12) 1) as [J|J]; [|exfalso; apply J; apply (Rmult_lt_reg_r (10 ^ 12)); [lra|]; unfold Rdiv; rewrite Rmult_assoc, Rinv_l by lra; lra].
  destruct (Req_EM_T (0 * 1) 0); [reflexivity|lra].
Qed.
(** ** products, determinant, inverse *)
Lemma product_2_mul : forall a b, is_mul (mget a) (mget b) (mget (product_2 a b)).
Proof. intros [] [] i j. unfold product_2, sum3. destruct i, j; mcbn; reflexivity. Qed.
(** the image under a product of several matrices: the last one acts first *)
Lemma product_applies : forall argv a b v i, apply_to (mget (calc_product_matrices a b argv)) v i = fold_right (fun m w => apply_to (mget m) w) v (a :: b :: argv) i.
Proof.
  induction argv as [|c r IH]; intros a b v i.
  - cbn [calc_product_matrices fold_right]. unfold apply_to. unfold sum3 at 1. rewrite !(product_2_mul a b). unfold sum3. ring.
  - cbn [calc_product_matrices]. rewrite IH. cbn [fold_right]. unfold apply_to at 1. unfold sum3 at 1. rewrite !(product_2_mul a b). unfold apply_to at 4 5. unfold sum3 at 4. unfold apply_to, sum3. ring.
Qed.
Lemma rcrt_value : forall r c i j, mget (calc_mRmCmRT r c) i j = sum3 (fun k => sum3 (fun l => mget r i k * mget c k l * mget r j l)).
Proof. intros [] [] i j. unfold calc_mRmCmRT, calc_product_matrices, product_2, sum3. destruct i, j; mcbn; ring. Qed.
Lemma determinant_value : forall m, calc_determinant_matrix_ij m = det3 (mget m).
Proof. intros []. unfold calc_determinant_matrix_ij, det3. mcbn. ring. Qed.
Lemma inverse_value : forall m, 1 / 10 ^ 12 <= det3 (mget m) -> is_inverse (mget m) (mget (calc_inverse_matrix_ij m)).
Proof.
  intros m H. unfold calc_inverse_matrix_ij. rewrite determinant_value. assert (P : 0 < 1 / 10 ^ 12) by (apply Rdiv_lt_0_compat; lra). destruct (Rlt_dec (det3 (mget m)) (1 / 10 ^ 12)) as [K|_]; [lra|]. 
  assert (N : det3 (mget m) <> 0) by lra. clear H P. destruct m as [a b c d e f g h k]. unfold det3 in *. mcbn. cbn [mget m_11 m_12 m_13 m_21 m_22 m_23 m_31 m_32 m_33] in N.
  split; intros i j; unfold sum3, delta; destruct i, j; mcbn; field; exact N.
Qed.
Lemma inverse_negative : forall m, det3 (mget m) < 1 / 10 ^ 12 -> forall i j, mget (calc_inverse_matrix_ij m) i j = 0.
Proof.
  intros m H i j. unfold calc_inverse_matrix_ij. rewrite determinant_value. destruct (Rlt_dec (det3 (mget m)) (1 / 10 ^ 12)) as [_|K]; [|contradiction]. destruct m. destruct i, j; mcbn; ring.
Qed.
Lemma inverse_refuted : ~ forall m, det3 (mget m) <> 0 -> is_inverse (mget m) (mget (calc_inverse_matrix_ij m)).
Proof.
  intros H. specialize (H (mkM (-1) 0 0 0 1 0 0 0 1)). assert (D : det3 (mget (mkM (-1) 0 0 0 1 0 0 0 1)) = -1) by (unfold det3; mcbn; ring).
  destruct (H ltac:(rewrite D; lra)) as [A _]. specialize (A X1 X1). assert (P : 0 < 1 / 10 ^ 12) by (apply Rdiv_lt_0_compat; lra).
  unfold sum3 in A. rewrite !inverse_negative in A by (rewrite D; lra). unfold delta in A. lra.
Qed.
(** ** trilinear interpolation *)
Lemma int_part_at : forall (i : Z) s, 0 <= s < 1 -> Int_part (IZR i + s) = i.
Proof.
  intros i s H. destruct (base_Int_part (IZR i + s)) as [A B]. apply Z.le_antisymm; apply Z.lt_succ_r; apply lt_IZR; rewrite succ_IZR; lra.
Qed.
Lemma line_value : forall (f : Z -> R) (i : Z) s, 0 <= s <= 1 -> let x := IZR i + s in let x0 := Int_part x in
  f x0 * (1 - (x - IZR x0) / IZR (x0 + 1 - x0)) + f (x0 + 1)%Z * ((x - IZR x0) / IZR (x0 + 1 - x0)) = f i * (1 - s) + f (i + 1)%Z * s.
Proof.
  intros f i s H x x0. replace (x0 + 1 - x0)%Z with 1%Z by ring. unfold x0, x. destruct (Rlt_dec s 1) as [L|L].
  - rewrite int_part_at by lra. replace (IZR i + s - IZR i) with s by ring. field.
  - assert (s = 1) by lra. subst s. replace (IZR i + 1) with (IZR (i + 1) + 0) by (rewrite plus_IZR; ring). rewrite int_part_at by lra. field.
Qed.
Definition corner (n_x n_y n_z : Z) (den : Z -> Z -> Z -> R) (i j k : Z) : R := den (i mod n_x)%Z (j mod n_y)%Z (k mod n_z)%Z.
Lemma interpolation_value : forall den n_x n_y n_z i j k s t u, 0 <= s <= 1 -> 0 <= t <= 1 -> 0 <= u <= 1 ->
  let V := corner n_x n_y n_z den in
  tri_linear_interpolation (IZR i + s) (IZR j + t) (IZR k + u) n_x n_y n_z den
  = (1 - s) * (1 - t) * (1 - u) * V i j k + s * (1 - t) * (1 - u) * V (i + 1)%Z j k + (1 - s) * t * (1 - u) * V i (j + 1)%Z k
    + (1 - s) * (1 - t) * u * V i j (k + 1)%Z + s * t * (1 - u) * V (i + 1)%Z (j + 1)%Z k + s * (1 - t) * u * V (i + 1)%Z j (k + 1)%Z
    + (1 - s) * t * u * V i (j + 1)%Z (k + 1)%Z + s * t * u * V (i + 1)%Z (j + 1)%Z (k + 1)%Z.
Proof.
  intros den nx ny nz i j k s t u Hs Ht Hu V. unfold tri_linear_interpolation.
  pose proof (fun b c => line_value (fun a => V a b c) i s Hs) as X. cbv zeta beta in X. 
  repeat match goal with |- context [den (?a mod nx)%Z (?b mod ny)%Z (?c mod nz)%Z] => change (den (a mod nx)%Z (b mod ny)%Z (c mod nz)%Z) with (V a b c) end.
  cbv zeta. rewrite !X.
  pose proof (fun c => line_value (fun b => V i b c * (1 - s) + V (i + 1)%Z b c * s) j t Ht) as Y. cbv zeta beta in Y. rewrite !Y.
  pose proof (line_value (fun c => (V i j c * (1 - s) + V (i + 1)%Z j c * s) * (1 - t) + (V i (j + 1)%Z c * (1 - s) + V (i + 1)%Z (j + 1)%Z c * s) * t) k u Hu) as Z. cbv zeta beta in Z. rewrite Z. ring.
Qed.
Lemma grid_value : forall den n_x n_y n_z i j k, (0 <= i < n_x)%Z -> (0 <= j < n_y)%Z -> (0 <= k < n_z)%Z ->
  tri_linear_interpolation (IZR i) (IZR j) (IZR k) n_x n_y n_z den = den i j k.
Proof.
  intros. replace (IZR i) with (IZR i + 0) by ring. replace (IZR j) with (IZR j + 0) by ring. replace (IZR k) with (IZR k + 0) by ring.
  rewrite interpolation_value by lra. unfold corner. rewrite !(Z.mod_small i), !(Z.mod_small j), !(Z.mod_small k) by lia. ring.
Qed.
Lemma split_point : forall x, exists (i : Z) s, x = IZR i + s /\ 0 <= s < 1.
Proof. intros x. exists (Int_part x), (x - IZR (Int_part x)). destruct (base_Int_part x). split; lra. Qed.
Lemma interpolation_periodic : forall den n_x n_y n_z p q r x y z, (0 < n_x)%Z -> (0 < n_y)%Z -> (0 < n_z)%Z ->
  tri_linear_interpolation (x + IZR (p * n_x)) (y + IZR (q * n_y)) (z + IZR (r * n_z)) n_x n_y n_z den = tri_linear_interpolation x y z n_x n_y n_z den.
Proof.
  intros den nx ny nz p q r x y z Hx Hy Hz. destruct (split_point x) as [i [s [-> S]]]. destruct (split_point y) as [j [t [-> T]]]. destruct (split_point z) as [k [u [-> U]]].
  replace (IZR i + s + IZR (p * nx)) with (IZR (i + p * nx) + s) by (rewrite plus_IZR; ring). replace (IZR j + t + IZR (q * ny)) with (IZR (j + q * ny) + t) by (rewrite plus_IZR; ring).
  replace (IZR k + u + IZR (r * nz)) with (IZR (k + r * nz) + u) by (rewrite plus_IZR; ring). rewrite !interpolation_value by lra. unfold corner.
  replace (i + p * nx + 1)%Z with (i + 1 + p * nx)%Z by ring. replace (j + q * ny + 1)%Z with (j + 1 + q * ny)%Z by ring. replace (k + r * nz + 1)%Z with (k + 1 + r * nz)%Z by ring.
  rewrite !Z.mod_add by lia. reflexivity.
Qed.
Lemma convex2 : forall a b s lo hi, 0 <= s <= 1 -> lo <= a <= hi -> lo <= b <= hi -> lo <= a * (1 - s) + b * s <= hi.
Proof. intros. split; nra. Qed.
Lemma interpolation_bounds : forall den n_x n_y n_z x y z lo hi, (0 < n_x)%Z -> (0 < n_y)%Z -> (0 < n_z)%Z ->
  (forall i j k, (0 <= i < n_x)%Z -> (0 <= j < n_y)%Z -> (0 <= k < n_z)%Z -> lo <= den i j k <= hi) ->
  lo <= tri_linear_interpolation x y z n_x n_y n_z den <= hi.
Proof.
  intros den nx ny nz x y z lo hi Hx Hy Hz H. destruct (split_point x) as [i [s [-> S]]]. destruct (split_point y) as [j [t [-> T]]]. destruct (split_point z) as [k [u [-> U]]].
  rewrite interpolation_value by lra. set (V := corner nx ny nz den).
  assert (B : forall a b c, lo <= V a b c <= hi) by (intros; unfold V, corner; apply H; apply Z.mod_pos_bound; assumption). 
  match goal with |- _ <= ?e <= _ => replace e with
    (((V i j k * (1 - s) + V (i + 1)%Z j k * s) * (1 - t) + (V i (j + 1)%Z k * (1 - s) + V (i + 1)%Z (j + 1)%Z k * s) * t) * (1 - u)
     + ((V i j (k + 1)%Z * (1 - s) + V (i + 1)%Z j (k + 1)%Z * s) * (1 - t) + (V i (j + 1)%Z (k + 1)%Z * (1 - s) + V (i + 1)%Z (j + 1)%Z (k + 1)%Z * s) * t) * u) by ring end.
  repeat apply convex2; try apply B; lra.
Qed.
Lemma interpolation_affine : forall den n_x n_y n_z i j k a b c d s t u, (0 <= i)%Z -> (i + 1 < n_x)%Z -> (0 <= j)%Z -> (j + 1 < n_y)%Z -> (0 <= k)%Z -> (k + 1 < n_z)%Z ->
  (forall p q r, (i <= p <= i + 1)%Z -> (j <= q <= j + 1)%Z -> (k <= r <= k + 1)%Z -> den p q r = a * IZR p + b * IZR q + c * IZR r + d) ->
  0 <= s <= 1 -> 0 <= t <= 1 -> 0 <= u <= 1 ->
  tri_linear_interpolation (IZR i + s) (IZR j + t) (IZR k + u) n_x n_y n_z den = a * (IZR i + s) + b * (IZR j + t) + c * (IZR k + u) + d.
Proof.
  intros den nx ny nz i j k a b c d s t u Hi Hi' Hj Hj' Hk Hk' H Hs Ht Hu. rewrite interpolation_value by assumption. unfold corner.
  rewrite !(Z.mod_small i), !(Z.mod_small (i + 1)), !(Z.mod_small j), !(Z.mod_small (j + 1)), !(Z.mod_small k), !(Z.mod_small (k + 1)) by lia.
  rewrite !H by lia. rewrite !plus_IZR. ring.
Qed.
Lemma vector_angle_not_total : ~ forall v1 v2, exists t, calc_vector_angle v1 v2 = Some t.
Proof. intro H. destruct (H (mkV 0 0 0) (mkV 1 0 0)) as [t T]. rewrite vector_angle_zero in T. discriminate. Qed.
Lemma product_vector_value : forall m v i, vget (calc_product_matrix_vector m v) i = apply_to (mget m) (vget v) i.
Proof. intros m v i. destruct i; unfold calc_product_matrix_vector, apply_to, sum3; cbn; ring. Qed.
Lemma rotations_met : is_rotation (mget (mkM 0 0 1 1 0 0 0 1 0)) /\ is_rotation (mget (mkM 0 1 0 0 0 (-1) (-1) 0 0)) /\
  (dot (vget (mkV 1 2 2)) (vget (mkV 0 3 4))) ^ 2 < dot (vget (mkV 1 2 2)) (vget (mkV 1 2 2)) * dot (vget (mkV 0 3 4)) (vget (mkV 0 3 4)).
Proof.
  split; [|split].
  - apply cols_rotation. intros i j; destruct i, j; unfold sum3, delta; cbn; ring. unfold det3; cbn; ring.
  - apply cols_rotation. intros i j; destruct i, j; unfold sum3, delta; cbn; ring. unfold det3; cbn; ring.
  - unfold dot, sum3; cbn; lra.
Qed.
Lemma inverse_met : 1 / 10 ^ 12 <= det3 (mget (mkM 2 1 0 0 3 1 1 0 1)).
Proof. unfold det3; cbn; lra. Qed.
Lemma interpolation_met : (0 < 2)%Z /\ (forall i j k, (0 <= i < 2)%Z -> (0 <= j < 2)%Z -> (0 <= k < 2)%Z -> 0 <= IZR (i + j + k) <= 3) /\
  tri_linear_interpolation (1 / 2) (5 / 4) 7 2 2 2 (fun i j k => IZR (i + j + k)) = 9 / 4.
Proof.
  split; [reflexivity|]. split; [intros; split; apply IZR_le; lia|].
  replace (1 / 2) with (IZR 0 + 1 / 2) by lra. replace (5 / 4) with (IZR 1 + 1 / 4) by lra. replace 7 with (IZR 7 + 0) by lra.
  rewrite interpolation_value by lra. unfold corner. cbn [Z.add Z.modulo Z.div_eucl Z.pos_div_eucl Pos.add Pos.succ Pos.add_carry Z.leb Z.ltb Z.compare Pos.compare Pos.compare_cont Z.sub Z.opp Z.pos_sub Z.mul Pos.mul Z.double Z.succ_double snd].
  vm_compute (0 mod 2)%Z. lra.
Qed.
