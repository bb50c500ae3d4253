(** C93-C95: function_1_matrices.py: rotation matrices, Euler angles, products, inverses, interpolation. *)
From Coq Require Import Reals ZArith List Lra.
From Verif Require Import Spec.Lin3 Spec.Rotation Model.Matrices Proofs.MatricesP Proofs.Matrices2P.
Import ListNotations.
Open Scope R_scope.

(** * C93 *)
(** The matrix of three Euler angles turns by alpha about x, then by beta about y, then by gamma about z. *)
Theorem C93_euler_matrix : forall alpha beta gamma,
  let m := mget (calc_rotation_matrix_ij_by_euler_angles alpha beta gamma) in
  is_rotation m /\ forall v i, apply_to m v i = turn X3 gamma (turn X2 beta (turn X1 alpha v)) i.
Proof. exact ((fun a b g => Logic.conj (euler_rotation a b g) (euler_is_product a b g))). Qed.
Print Assumptions C93_euler_matrix.
(** Every triple of angles reported for a rotation matrix gives that matrix back (also when beta is a right angle). *)
Theorem C93_euler_angles : forall m : M3 R, is_rotation (mget m) ->
  let l := match calc_euler_angles_by_rotation_matrix_ij m with Two a b => [a; b] | One a => [a] end in
  l <> [] /\ forall alpha beta gamma, In (alpha, beta, gamma) l -> calc_rotation_matrix_ij_by_euler_angles alpha beta gamma = m.
Proof. exact euler_round_trip. Qed.
Print Assumptions C93_euler_angles.
Theorem C93_around_axis : forall angle n, is_rotation (mget (calc_rotation_matrix_ij_around_axis angle n)).
Proof. exact around_axis_rotation. Qed.
Print Assumptions C93_around_axis.
(** The sense of the rotation is not the same for the three axes: right-handed about y, left-handed about x and z. *)
Theorem C93_sense : forall angle, is_turn X1 (- angle) (mget (calc_rotation_matrix_ij_around_axis angle X1)) /\
  is_turn X2 angle (mget (calc_rotation_matrix_ij_around_axis angle X2)) /\ is_turn X3 (- angle) (mget (calc_rotation_matrix_ij_around_axis angle X3)).
Proof. exact around_axis_turn. Qed.
Print Assumptions C93_sense.
Theorem C93_one_sense_refuted : ~ exists s, forall n angle, is_turn n (s * angle) (mget (calc_rotation_matrix_ij_around_axis angle n)).
Proof. exact y_axis_opposite. Qed.
Print Assumptions C93_one_sense_refuted.
(** Two vectors that are not collinear (strict Cauchy-Schwarz): the rotation brings x along the first and y to the side of the second. *)
Theorem C93_two_vectors : forall v1 v2 ax_1 ax_2, (dot (vget v1) (vget v2)) ^ 2 < dot (vget v1) (vget v1) * dot (vget v2) (vget v2) ->
  let m := mget (calc_rotation_matrix_by_two_vectors v1 v2 ax_1 ax_2) in
  is_rotation m /\ (forall i, vget v1 i = norm (vget v1) * apply_to m (axis X1) i) /\
  exists a b, 0 < b /\ forall i, vget v2 i = a * apply_to m (axis X1) i + b * apply_to m (axis X2) i.
Proof. exact two_vectors. Qed.
Print Assumptions C93_two_vectors.
(** The axes named by the caller are ignored. *)
Theorem C93_named_axes_refuted : ~ forall v1 v2 ax_1 ax_2, ax_1 <> ax_2 ->
  (dot (vget v1) (vget v2)) ^ 2 < dot (vget v1) (vget v1) * dot (vget v2) (vget v2) ->
  forall i, vget v1 i = norm (vget v1) * apply_to (mget (calc_rotation_matrix_by_two_vectors v1 v2 ax_1 ax_2)) (axis ax_1) i.
Proof. exact two_vectors_axes. Qed.
Print Assumptions C93_named_axes_refuted.
(** The angle between two vectors. *)
Theorem C93_vector_angle : forall v1 v2, (1 / 10 ^ 12 < norm (vget v1) \/ 1 / 10 ^ 12 < norm (vget v2)) -> norm (vget v1) <> 0 -> norm (vget v2) <> 0 ->
  exists t, calc_vector_angle v1 v2 = Some t /\ 0 <= t <= PI /\ norm (vget v1) * norm (vget v2) * cos t = dot (vget v1) (vget v2).
Proof. exact vector_angle. Qed.
Print Assumptions C93_vector_angle.
(** The guard against a zero vector is a disjunction, so a zero vector beside a non-zero one gives not-a-number. *)
Theorem C93_zero_vector_refuted : ~ forall v1 v2, exists t, calc_vector_angle v1 v2 = Some t.
Proof. exact vector_angle_not_total. Qed.
Print Assumptions C93_zero_vector_refuted.
Example C93_met : is_rotation (mget (mkM 0 0 1 1 0 0 0 1 0)) /\ is_rotation (mget (mkM 0 1 0 0 0 (-1) (-1) 0 0)) /\
  (dot (vget (mkV 1 2 2)) (vget (mkV 0 3 4))) ^ 2 < dot (vget (mkV 1 2 2)) (vget (mkV 1 2 2)) * dot (vget (mkV 0 3 4)) (vget (mkV 0 3 4)).
Proof. exact rotations_met. Qed.
Print Assumptions C93_zero_vector_refuted.

(** * C94 *)
(** The product of any number of matrices acts as its factors, the last one first. *)
Theorem C94_product : forall argv a b v i,
  apply_to (mget (calc_product_matrices a b argv)) v i = fold_right (fun m w => apply_to (mget m) w) v (a :: b :: argv) i.
Proof. exact product_applies. Qed.
Print Assumptions C94_product.
Theorem C94_rcrt : forall r c i j, mget (calc_mRmCmRT r c) i j = sum3 (fun k => sum3 (fun l => mget r i k * mget c k l * mget r j l)).
Proof. exact rcrt_value. Qed.
Print Assumptions C94_rcrt.
Theorem C94_product_vector : forall m v i, vget (calc_product_matrix_vector m v) i = apply_to (mget m) (vget v) i.
Proof. exact product_vector_value. Qed.
Print Assumptions C94_product_vector.
Theorem C94_determinant : forall m, calc_determinant_matrix_ij m = det3 (mget m).
Proof. exact determinant_value. Qed.
Print Assumptions C94_determinant.
(** The inverse, when the determinant is at least 1e-12. *)
Theorem C94_inverse : forall m, 1 / 10 ^ 12 <= det3 (mget m) -> is_inverse (mget m) (mget (calc_inverse_matrix_ij m)).
Proof. exact inverse_value. Qed.
Print Assumptions C94_inverse.
(** Any matrix that changes the handedness is given the zero matrix as its inverse. *)
Theorem C94_inverse_negative : forall m, det3 (mget m) < 1 / 10 ^ 12 -> forall i j, mget (calc_inverse_matrix_ij m) i j = 0.
Proof. exact inverse_negative. Qed.
Print Assumptions C94_inverse_negative.
Theorem C94_inverse_refuted : ~ forall m, det3 (mget m) <> 0 -> is_inverse (mget m) (mget (calc_inverse_matrix_ij m)).
Proof. exact inverse_refuted. Qed.
Print Assumptions C94_inverse_refuted.
Example C94_met : 1 / 10 ^ 12 <= det3 (mget (mkM 2 1 0 0 3 1 1 0 1)).
Proof. exact inverse_met. Qed.
Print Assumptions C94_inverse_refuted.

(** * C95 *)
(** On the closed cell of eight grid points, the weights are the products of the distances to the opposite faces; the
    grid repeats.  Neighbouring cells agree on their common faces, so the interpolation is continuous. *)
Theorem C95_value : forall den n_x n_y n_z i j k s t u, 0 <= s <= 1 -> 0 <= t <= 1 -> 0 <= u <= 1 ->
  let V := fun a b c => den (a mod n_x)%Z (b mod n_y)%Z (c mod n_z)%Z in
  tri_linear_interpolation (IZR i + s) (IZR j + t) (IZR k + u) n_x n_y n_z den
  = (1 - s) * (1 - t) * (1 - u) * V i j k + s * (1 - t) * (1 - u) * V (i + 1)%Z j k + (1 - s) * t * (1 - u) * V i (j + 1)%Z k
    + (1 - s) * (1 - t) * u * V i j (k + 1)%Z + s * t * (1 - u) * V (i + 1)%Z (j + 1)%Z k + s * (1 - t) * u * V (i + 1)%Z j (k + 1)%Z
    + (1 - s) * t * u * V i (j + 1)%Z (k + 1)%Z + s * t * u * V (i + 1)%Z (j + 1)%Z (k + 1)%Z.
Proof. exact interpolation_value. Qed.
Print Assumptions C95_value.
Theorem C95_grid_points : forall den n_x n_y n_z i j k, (0 <= i < n_x)%Z -> (0 <= j < n_y)%Z -> (0 <= k < n_z)%Z ->
  tri_linear_interpolation (IZR i) (IZR j) (IZR k) n_x n_y n_z den = den i j k.
Proof. exact grid_value. Qed.
Print Assumptions C95_grid_points.
Theorem C95_periodic : forall den n_x n_y n_z p q r x y z, (0 < n_x)%Z -> (0 < n_y)%Z -> (0 < n_z)%Z ->
  tri_linear_interpolation (x + IZR (p * n_x)) (y + IZR (q * n_y)) (z + IZR (r * n_z)) n_x n_y n_z den = tri_linear_interpolation x y z n_x n_y n_z den.
Proof. exact interpolation_periodic. Qed.
Print Assumptions C95_periodic.
Theorem C95_bounds : forall den n_x n_y n_z x y z lo hi, (0 < n_x)%Z -> (0 < n_y)%Z -> (0 < n_z)%Z ->
  (forall i j k, (0 <= i < n_x)%Z -> (0 <= j < n_y)%Z -> (0 <= k < n_z)%Z -> lo <= den i j k <= hi) ->
  lo <= tri_linear_interpolation x y z n_x n_y n_z den <= hi.
Proof. exact interpolation_bounds. Qed.
Print Assumptions C95_bounds.
Theorem C95_affine : forall den n_x n_y n_z i j k a b c d s t u,
  (0 <= i)%Z -> (i + 1 < n_x)%Z -> (0 <= j)%Z -> (j + 1 < n_y)%Z -> (0 <= k)%Z -> (k + 1 < n_z)%Z ->
  (forall p q r, (i <= p <= i + 1)%Z -> (j <= q <= j + 1)%Z -> (k <= r <= k + 1)%Z -> den p q r = a * IZR p + b * IZR q + c * IZR r + d) ->
  0 <= s <= 1 -> 0 <= t <= 1 -> 0 <= u <= 1 ->
  tri_linear_interpolation (IZR i + s) (IZR j + t) (IZR k + u) n_x n_y n_z den = a * (IZR i + s) + b * (IZR j + t) + c * (IZR k + u) + d.
Proof. exact interpolation_affine. Qed.
Print Assumptions C95_affine.
Example C95_met : (0 < 2)%Z /\ (forall i j k, (0 <= i < 2)%Z -> (0 <= j < 2)%Z -> (0 <= k < 2)%Z -> 0 <= IZR (i + j + k) <= 3) /\
  tri_linear_interpolation (1 / 2) (5 / 4) 7 2 2 2 (fun i j k => IZR (i + j + k)) = 9 / 4.
Proof. exact interpolation_met. Qed.
Print Assumptions C95_affine.
