(** Model of cryspy/A_functions_base/function_1_matrices.py l.199-590 (scalar kernels: one matrix, one point; real arithmetic
    instead of floats).  The string functions of the same file are copies of function_1_strings.py, see Model/Strings.v. *)
From Coq Require Import Reals ZArith List.
From Verif Require Import Spec.Lin3 Model.Profile.
Import ListNotations.
Open Scope R_scope.

(** l.416-440 calc_product_matrices with no further argument *)
Definition product_2 (a b : M3 R) : M3 R :=
  let '(mkM m_1_11 m_1_12 m_1_13 m_1_21 m_1_22 m_1_23 m_1_31 m_1_32 m_1_33) := a in
  let '(mkM m_2_11 m_2_12 m_2_13 m_2_21 m_2_22 m_2_23 m_2_31 m_2_32 m_2_33) := b in
  mkM (m_1_11*m_2_11 + m_1_12*m_2_21 + m_1_13*m_2_31)
      (m_1_11*m_2_12 + m_1_12*m_2_22 + m_1_13*m_2_32)
      (m_1_11*m_2_13 + m_1_12*m_2_23 + m_1_13*m_2_33)
      (m_1_21*m_2_11 + m_1_22*m_2_21 + m_1_23*m_2_31)
      (m_1_21*m_2_12 + m_1_22*m_2_22 + m_1_23*m_2_32)
      (m_1_21*m_2_13 + m_1_22*m_2_23 + m_1_23*m_2_33)
      (m_1_31*m_2_11 + m_1_32*m_2_21 + m_1_33*m_2_31)
      (m_1_31*m_2_12 + m_1_32*m_2_22 + m_1_33*m_2_32)
      (m_1_31*m_2_13 + m_1_32*m_2_23 + m_1_33*m_2_33).
(** l.435-440: with further arguments, the product of the first two replaces them *)
Fixpoint calc_product_matrices (m1 m2 : M3 R) (argv : list (M3 R)) : M3 R :=
  match argv with [] => product_2 m1 m2 | m3 :: r => calc_product_matrices (product_2 m1 m2) m3 r end.
(** l.443-450 *)
Definition calc_product_matrix_vector (m : M3 R) (v : V3 R) : V3 R :=
  mkV (m_11 m * v_1 v + m_12 m * v_2 v + m_13 m * v_3 v)
      (m_21 m * v_1 v + m_22 m * v_2 v + m_23 m * v_3 v)
      (m_31 m * v_1 v + m_32 m * v_2 v + m_33 m * v_3 v).
(** l.199-214 calc_mRmCmRT *)
Definition calc_mRmCmRT (r c : M3 R) : M3 R :=
  let '(mkM r11 r12 r13 r21 r22 r23 r31 r32 r33) := r in
  calc_product_matrices r c [mkM r11 r21 r31 r12 r22 r32 r13 r23 r33].
(** l.217-242 *)
Definition calc_rotation_matrix_ij_by_euler_angles (alpha beta gamma : R) : M3 R :=
  let psi := alpha in let theta := beta in let phi := gamma in
  mkM (cos theta * cos phi) (sin psi * sin theta * cos phi - cos psi * sin phi) (cos psi * sin theta * cos phi + sin psi * sin phi)
      (cos theta * sin phi) (sin psi * sin theta * sin phi + cos psi * cos phi) (cos psi * sin theta * sin phi - sin psi * cos phi)
      (- sin theta) (sin psi * cos theta) (cos psi * cos theta).
(** l.245-276.  A list of two triples, or one triple in the gimbal-lock case. *)
Inductive euler_result := Two (a b : R * R * R) | One (a : R * R * R).
Definition calc_euler_angles_by_rotation_matrix_ij (m : M3 R) : euler_result :=
  if Req_EM_T (Rabs (m_31 m)) 1 then
    let phi := 0 in
    if Req_EM_T (m_31 m) (-1) then One (phi + arctan2 (m_12 m) (m_13 m), PI / 2, phi)
    else One (-1 * phi + arctan2 (-1 * m_12 m) (-1 * m_13 m), -1 * PI / 2, phi)
  else
    let theta1 := -1 * asin (m_31 m) in
    let theta2 := PI - theta1 in
    let psi1 := arctan2 (m_32 m / cos theta1) (m_33 m / cos theta1) in
    let psi2 := arctan2 (m_32 m / cos theta2) (m_33 m / cos theta2) in
    let phi1 := arctan2 (m_21 m / cos theta1) (m_11 m / cos theta1) in
    let phi2 := arctan2 (m_21 m / cos theta2) (m_11 m / cos theta2) in
    Two (psi1, theta1, phi1) (psi2, theta2, phi2).
(** l.279-297 *)
Definition calc_determinant_matrix_ij (m : M3 R) : R :=
  m_11 m * m_22 m * m_33 m - m_11 m * m_23 m * m_32 m - m_12 m * m_21 m * m_33 m + m_12 m * m_23 m * m_31 m
  + m_13 m * m_21 m * m_32 m - m_13 m * m_22 m * m_31 m.
(** l.300-344: eps = 1.0e-12, inv_det = where(det < eps, 0, 1/det) *)
Definition calc_inverse_matrix_ij (m : M3 R) : M3 R :=
  let det := calc_determinant_matrix_ij m in
  let inv_det := if Rlt_dec det (1 / 10 ^ 12) then 0 else 1 / det in
  let '(mkM m_11 m_12 m_13 m_21 m_22 m_23 m_31 m_32 m_33) := m in
  mkM ((m_22*m_33-m_23*m_32) * inv_det) (- (m_12*m_33-m_13*m_32) * inv_det) ((m_12*m_23-m_13*m_22) * inv_det)
      (- (m_21*m_33-m_23*m_31) * inv_det) ((m_11*m_33-m_13*m_31) * inv_det) (- (m_11*m_23-m_13*m_21) * inv_det)
      ((m_21*m_32-m_22*m_31) * inv_det) (- (m_11*m_32-m_12*m_31) * inv_det) ((m_11*m_22-m_12*m_21) * inv_det).
(** l.347-413; the axis is "y", "z" or (anything else) "x" *)
Definition calc_rotation_matrix_ij_around_axis (angle : R) (axis : ix) : M3 R :=
  match axis with
  | X2 => mkM (cos angle) 0 (sin angle) 0 1 0 (- sin angle) 0 (cos angle)
  | X3 => mkM (cos angle) (sin angle) 0 (- sin angle) (cos angle) 0 0 0 1
  | X1 => mkM 1 0 0 0 (cos angle) (sin angle) 0 (- sin angle) (cos angle)
  end.
(** l.470-477 *)
Definition calc_vector_product (a b : V3 R) : V3 R :=
  mkV (v_2 a * v_3 b - v_3 a * v_2 b) (v_3 a * v_1 b - v_1 a * v_3 b) (v_1 a * v_2 b - v_2 a * v_1 b).
(** l.480-484 *)
Definition scalar_product (a b : V3 R) : R := v_1 a * v_1 b + v_2 a * v_2 b + v_3 a * v_3 b.
Definition np_norm (v : V3 R) : R := sqrt (Rsqr (v_1 v) + Rsqr (v_2 v) + Rsqr (v_3 v)).
Definition divide (v : V3 R) (x : R) : V3 R := mkV (v_1 v / x) (v_2 v / x) (v_3 v / x).
(** l.453-467; None: the quotient is 0/0 (not a number) *)
Definition calc_vector_angle (a b : V3 R) : option R :=
  let prod := v_1 a * v_1 b + v_2 a * v_2 b + v_3 a * v_3 b in
  let n1 := np_norm a in let n2 := np_norm b in
  let eps := 1 / 10 ^ 12 in
  let flag := if Rlt_dec eps n1 then true else if Rlt_dec eps n2 then true else false in
  if flag then (if Req_EM_T (n1 * n2) 0 then None else Some (acos (prod / (n1 * n2)))) else Some (acos (99999 / 100000)).
(** l.487-503; ax_1 and ax_2 are not looked at *)
Definition calc_rotation_matrix_by_two_vectors (v1 v2 : V3 R) (ax_1 ax_2 : ix) : M3 R :=
  let e_x := divide v1 (np_norm v1) in
  let e_12 := divide v2 (np_norm v2) in
  let v_z := calc_vector_product e_x e_12 in
  let e_z := divide v_z (np_norm v_z) in
  let e_y := calc_vector_product e_z e_x in
  mkM (v_1 e_x) (v_1 e_y) (v_1 e_z) (v_2 e_x) (v_2 e_y) (v_2 e_z) (v_3 e_x) (v_3 e_y) (v_3 e_z).
(** l.506-562 tri_linear_interpolation at one point; den i j k is den_3d[i, j, k] for indices in the shape n_x, n_y, n_z. *)
Definition tri_linear_interpolation (x y z : R) (n_x n_y n_z : Z) (den : Z -> Z -> Z -> R) : R :=
  let x0 := Int_part x in let x1 := (x0 + 1)%Z in
  let y0 := Int_part y in let y1 := (y0 + 1)%Z in
  let z0 := Int_part z in let z1 := (z0 + 1)%Z in
  let xd := (x - IZR x0) / IZR (x1 - x0) in
  let yd := (y - IZR y0) / IZR (y1 - y0) in
  let zd := (z - IZR z0) / IZR (z1 - z0) in
  let V a b c := den (a mod n_x)%Z (b mod n_y)%Z (c mod n_z)%Z in
  let c00 := V x0 y0 z0 * (1 - xd) + V x1 y0 z0 * xd in
  let c01 := V x0 y0 z1 * (1 - xd) + V x1 y0 z1 * xd in
  let c10 := V x0 y1 z0 * (1 - xd) + V x1 y1 z0 * xd in
  let c11 := V x0 y1 z1 * (1 - xd) + V x1 y1 z1 * xd in
  let c0 := c00 * (1 - yd) + c10 * yd in
  let c1 := c01 * (1 - yd) + c11 * yd in
  c0 * (1 - zd) + c1 * zd.
(** l.565-590 *)
Definition ortogonalize_matrix (m m_norm : M3 R) : M3 R := calc_mRmCmRT m_norm m.
