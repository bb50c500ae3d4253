(** Model of the class Cell, cryspy/C_item_loop_classes/cl_1_cell.py l.157-259, 285-376, 461-551, 586-592: the attributes computed by
    form_object and the functions of the object (one reflection, one position; real arithmetic).  The angles of the object are
    in degrees.  The constraints by the type of the cell (l.105-155) are modelled in Model/Constraints.v. *)
From Coq Require Import Reals ZArith List.
From Verif Require Import Spec.Lin3 Spec.Cell Model.Matrices Model.HklList.
Import ListNotations.
Open Scope R_scope.

(** l.162 *)
Definition rad : R := PI / 180.
(** numpy.linalg.inv of a 3x3 matrix: the adjugate over the determinant *)
Definition np_inv (m : M3 R) : M3 R :=
  let det := calc_determinant_matrix_ij m in
  let '(mkM m_11 m_12 m_13 m_21 m_22 m_23 m_31 m_32 m_33) := m in
  mkM ((m_22*m_33-m_23*m_32) / det) (- (m_12*m_33-m_13*m_32) / det) ((m_12*m_23-m_13*m_22) / det)
      (- (m_21*m_33-m_23*m_31) / det) ((m_11*m_33-m_13*m_31) / det) (- (m_11*m_23-m_13*m_21) / det)
      ((m_21*m_32-m_22*m_31) / det) (- (m_11*m_32-m_12*m_31) / det) ((m_11*m_22-m_12*m_21) / det).
(** what form_object stores (only the attributes used below) *)
Record cell_object := mkCell {
  co_volume : R; co_m_g : M3 R; co_m_m_norm : M3 R; co_reciprocal : U6 R; co_m_g_reciprocal : M3 R; co_m_b_norm : M3 R; co_m_b : M3 R; co_m_m : M3 R }.
(** l.157-259 form_object *)
Definition form_cell (cell : U6 R) : cell_object :=
  let c_a := cos (u_al cell * rad) in let c_b := cos (u_be cell * rad) in let c_g := cos (u_ga cell * rad) in
  let s_a := sin (u_al cell * rad) in let s_b := sin (u_be cell * rad) in let s_g := sin (u_ga cell * rad) in
  let c_a_sq := Rsqr c_a in let c_b_sq := Rsqr c_b in let c_g_sq := Rsqr c_g in
  let a := u_a cell in let b := u_b cell in let c := u_c cell in
  let v_sqrt := sqrt (1 - c_a_sq - c_b_sq - c_g_sq + 2 * c_a * c_b * c_g) in
  let vol := a * b * c * v_sqrt in
  let m_g := mkM (a*a) (a*b*c_g) (a*c*c_b) (a*b*c_g) (b*b) (b*c*c_a) (a*c*c_b) (b*c*c_a) (c*c) in
  let m_m_norm := mkM (v_sqrt/s_a) 0 0 ((c_g-c_a*c_b)/s_a) s_a 0 c_b c_a 1 in
  let irad := 180 / PI in
  let ialpha := acos ((c_b*c_g-c_a)/(s_b*s_g)) * irad in
  let ibeta := acos ((c_g*c_a-c_b)/(s_g*s_a)) * irad in
  let igamma := acos ((c_a*c_b-c_g)/(s_a*s_b)) * irad in
  let ia := b*c*s_a/vol in let ib := c*a*s_b/vol in let ic := a*b*s_g/vol in
  let c_ia := cos (ialpha*rad) in let c_ib := cos (ibeta*rad) in let c_ig := cos (igamma*rad) in
  let s_ia := sin (ialpha*rad) in let s_ib := sin (ibeta*rad) in let s_ig := sin (igamma*rad) in
  let m_g_reciprocal := mkM (ia*ia) (ia*ib*c_ig) (ia*ic*c_ib) (ia*ib*c_ig) (ib*ib) (ib*ic*c_ia) (ia*ic*c_ib) (ib*ic*c_ia) (ic*ic) in
  let m_b_norm := mkM 1 c_ig c_ib 0 s_ig (- s_ib*c_a) 0 0 (v_sqrt/s_g) in
  let m_b := mkM ia (ib*c_ig) (ic*c_ib) 0 (ib*s_ig) (- ic*s_ib*c_a) 0 0 (1/c) in
  let m_m := mkM (1/ia) 0 0 (-1*a*s_b*c_ig) (b*s_a) 0 (a*c_b) (b*c_a) c in
  mkCell vol m_g m_m_norm (mkU ia ib ic ialpha ibeta igamma) m_g_reciprocal m_b_norm m_b m_m.
(** l.285-319 calc_k_loc *)
Definition cell_k_loc (cell : U6 R) (hkl : V3 R) : V3 R :=
  let k := calc_product_matrix_vector (co_m_b (form_cell cell)) hkl in
  let k_norm := sqrt (Rsqr (v_1 k) + Rsqr (v_2 k) + Rsqr (v_3 k)) in
  let k_norm := if Req_EM_T k_norm 0 then 1 else k_norm in
  divide k k_norm.
(** l.320-376 calc_matrix_t of one reflection; None: the interpreter is stopped by quit() *)
Definition cell_matrix_t (cell : U6 R) (hkl : V3 R) : option (M3 R) :=
  let k := cell_k_loc cell hkl in
  let k_x := v_1 k in let k_y := v_2 k in let k_z := v_3 k in
  let be := acos k_z in
  let sb := sin be in
  let clip x := if Rlt_dec 1 x then 1 else if Rlt_dec x (-1) then -1 else x in
  let al := if Req_EM_T sb 0 then 0 else
    let sa1 := clip (k_x * 1 / sb) in let ca2 := clip (-1 * k_y * 1 / sb) in
    let al1 := asin sa1 in let al2 := acos ca2 in
    if Rlt_dec (Rabs (al2 - al1)) (1 / 100000) then al1
    else if Rlt_dec 0 sa1 then al2 else 2 * PI - al2 in
  let ga := 0 in
  let ca := cos al in let cb := cos be in let cg := cos ga in
  let sa := sin al in let sb := sin be in let sg := sin ga in
  if Rlt_dec (1 / 10000) (Rsqr (sa*sb-k_x) + Rsqr (-ca*sb-k_y) + Rsqr (cb-k_z)) then None
  else Some (mkM (ca*cg-sa*cb*sg) (-ca*sg-sa*cb*cg) (sa*sb) (sa*cg+ca*cb*sg) (-sa*sg+ca*cb*cg) (-ca*sb) (sb*sg) (sb*cg) cb).
(** l.461-470, 472-482 *)
Definition calc_position_by_coordinate (cell : U6 R) (x : V3 R) : V3 R := calc_product_matrix_vector (co_m_m (form_cell cell)) x.
Definition calc_coordinate_by_position (cell : U6 R) (p : V3 R) : V3 R := calc_product_matrix_vector (np_inv (co_m_m (form_cell cell))) p.
(** l.484-496, 521-534: the same expression on direct and reciprocal parameters *)
Definition length_expr (a b c c_a c_b c_g x y z : R) : R :=
  x^2 * a^2 + y^2 * b^2 + z^2 * c^2 + 2*x*y*a*b*c_g + 2*x*z*a*c*c_b + 2*y*z*b*c*c_a.
Definition calc_length_sq (cell : U6 R) (x : V3 R) : R :=
  length_expr (u_a cell) (u_b cell) (u_c cell) (cos (u_al cell * rad)) (cos (u_be cell * rad)) (cos (u_ga cell * rad)) (v_1 x) (v_2 x) (v_3 x).
Definition calc_reciprocal_length_sq (cell : U6 R) (h : V3 R) : R :=
  let r := co_reciprocal (form_cell cell) in
  length_expr (u_a r) (u_b r) (u_c r) (cos (u_al r * rad)) (cos (u_be r * rad)) (cos (u_ga r * rad)) (v_1 h) (v_2 h) (v_3 h).
(** numpy.mod(x, 1.) *)
Definition mod_1 (x : R) : R := x - IZR (Int_part x).
(** l.498-519 closest_distance_between_fractions of two positions *)
Definition closest_diff (x y : R) : R :=
  let diff := Rabs (mod_1 x - mod_1 y) in if Rlt_dec diff (1/2) then diff else 1 - diff.
Definition closest_distance_between_fractions (cell : U6 R) (f1 f2 : V3 R) : R :=
  let d := mkV (closest_diff (v_1 f1) (v_1 f2)) (closest_diff (v_2 f1) (v_2 f2)) (closest_diff (v_3 f1) (v_3 f2)) in
  let p := calc_position_by_coordinate cell d in
  sqrt (Rsqr (v_1 p) + Rsqr (v_2 p) + Rsqr (v_3 p)).
(** l.536-551 *)
Definition cell_ortogonalize_matrix (cell : U6 R) (m : M3 R) : M3 R := ortogonalize_matrix m (co_m_m_norm (form_cell cell)).
(** l.586-592 get_unit_cell_parameters *)
Definition get_unit_cell_parameters (cell : U6 R) : U6 R :=
  mkU (u_a cell) (u_b cell) (u_c cell) (u_al cell * PI / 180) (u_be cell * PI / 180) (u_ga cell * PI / 180).
(** function_2_crystallography_base.py l.23-100 (cosines given) *)
Definition calc_volume_uc_by_abc_cosines (a b c cos_alpha cos_beta cos_gamma : R) : R :=
  let c_a_sq := Rsqr cos_alpha in let c_b_sq := Rsqr cos_beta in let c_g_sq := Rsqr cos_gamma in
  let v_sqrt := sqrt (1-c_a_sq-c_b_sq-c_g_sq+2*cos_alpha*cos_beta*cos_gamma) in
  a*b*c*v_sqrt.
Definition calc_inverse_d_by_hkl_abc_cosines (h k l a b c cos_alpha cos_beta cos_gamma : R) : R :=
  let c_a_sq := Rsqr cos_alpha in let c_b_sq := Rsqr cos_beta in let c_g_sq := Rsqr cos_gamma in
  let s_a_sq := 1-c_a_sq in let s_b_sq := 1-c_b_sq in let s_g_sq := 1-c_g_sq in
  let A := 1-c_a_sq-c_b_sq-c_g_sq+2*cos_alpha*cos_beta*cos_gamma in
  let B1 := s_a_sq*Rsqr (h*1/a) + s_b_sq*Rsqr (k*1/b) + s_g_sq*Rsqr (l*1/c) in
  let B2 := 2*(k*l*(cos_alpha-cos_beta*cos_gamma))/(b*c) + 2*(h*l*(cos_beta-cos_alpha*cos_gamma))/(a*c) + 2*(h*k*(cos_gamma-cos_alpha*cos_beta))/(a*b) in
  let B := B1-B2 in
  sqrt (B*1/A).
(** cl_1_cell.py l.262-283 *)
Definition cell_sthovl (cell : U6 R) (hkl : V3 R) : R :=
  5/10 * calc_inverse_d_by_hkl_abc_cosines (v_1 hkl) (v_2 hkl) (v_3 hkl) (u_a cell) (u_b cell) (u_c cell)
    (cos (u_al cell * rad)) (cos (u_be cell * rad)) (cos (u_ga cell * rad)).
(** cl_1_cell.py l.433-459 calc_hkl_in_range (all multiplicities are 1) *)
Definition calc_hkl_in_range (cell : U6 R) (sthovl_min sthovl_max : R) : list (V3 Z) :=
  let h_max := py_int (2 * u_a cell * sthovl_max) in
  let k_max := py_int (2 * u_b cell * sthovl_max) in
  let l_max := py_int (2 * u_c cell * sthovl_max) in
  let s := fun h : V3 Z => cell_sthovl cell (mkV (IZR (v_1 h)) (IZR (v_2 h)) (IZR (v_3 h))) in
  sort_by s (filter (fun h => (rle sthovl_min (s h) && rle (s h) sthovl_max)%bool) (hkl_box h_max k_max l_max)).
