(** Model of cryspy/C_item_loop_classes/cl_2_diffrn_orient_matrix.py l.66-67, 96-361 (real arithmetic, one reflection). *)
From Coq Require Import Reals ZArith List String.
From Verif Require Import Spec.Lin3 Spec.Cell Model.MatrixOps Model.Matrices Model.Profile Model.CellObj Model.Items Model.Containers.
Import ListNotations.
Open Scope R_scope.

(** l.66-67 D_CONSTRAINTS *)
Definition accepted_types : list string := ["CCSL"; "6T2@LLB"; "5C1@LLB"; "BusingLevy"; "-YXZ"; "X-YZ"; "XYZ"]%string.
(** l.158-186 *)
Definition calc_ub_ccsl (s_notation : string) (ub : M3 R) : M3 R :=
  let '(mkM a1 a2 a3 b1 b2 b3 c1 c2 c3) := ub in
  let is := fun l => existsb (String.eqb s_notation) l in
  if is ["XYZ"; "6T2@LLB"]%string then mkM a1 a2 a3 b1 b2 b3 c1 c2 c3
  else if is ["-YXZ"; "5C1@LLB"]%string then mkM (-b1) (-b2) (-b3) a1 a2 a3 c1 c2 c3
  else if is ["Y-XZ"; "BusingLevy"]%string then mkM b1 b2 b3 (-a1) (-a2) (-a3) c1 c2 c3
  else ub.
(** l.96-141: the parameters given to the cell (angles in degrees) *)
Definition orient_cell (s_notation : string) (ub : M3 R) : U6 R :=
  let '(mkM x1 x2 x3 y1 y2 y3 z1 z2 z3) := calc_ub_ccsl s_notation ub in
  let b_1 := sqrt (x1*x1 + y1*y1 + z1*z1) in
  let b_2 := sqrt (x2*x2 + y2*y2 + z2*z2) in
  let b_3 := sqrt (x3*x3 + y3*y3 + z3*z3) in
  let c_i_g := (x1*x2 + y1*y2 + z1*z2)/(b_1*b_2) in
  let c_i_b := (x1*x3 + y1*y3 + z1*z3)/(b_1*b_3) in
  let c_i_a := (x2*x3 + y2*y3 + z2*z3)/(b_2*b_3) in
  let i_a := acos c_i_a in let i_b := acos c_i_b in let i_g := acos c_i_g in
  let s_i_a := sin i_a in let s_i_b := sin i_b in let s_i_g := sin i_g in
  let i_vol := b_1*b_2*b_3*sqrt (1-c_i_a^2-c_i_b^2-c_i_g^2+2*c_i_a*c_i_b*c_i_g) in
  let c_a := (c_i_b*c_i_g-c_i_a)/(s_i_b*s_i_g) in
  let c_b := (c_i_a*c_i_g-c_i_b)/(s_i_a*s_i_g) in
  let c_g := (c_i_a*c_i_b-c_i_g)/(s_i_a*s_i_b) in
  let a_1 := b_2*b_3*s_i_a/i_vol in
  let a_2 := b_1*b_3*s_i_b/i_vol in
  let a_3 := b_1*b_2*s_i_g/i_vol in
  mkU a_1 a_2 a_3 (acos c_a * 180 / PI) (acos c_b * 180 / PI) (acos c_g * 180 / PI).
(** l.142-156: U = UB B^-1 *)
Definition orient_u (s_notation : string) (ub : M3 R) : M3 R :=
  product_2 (calc_ub_ccsl s_notation ub) (np_inv (co_m_b (form_cell (orient_cell s_notation ub)))).
(** l.188-219 calc_matrix_from_ccsl calls self.get_notation(), which no class defines; l.221-250 calc_ub calls it *)
Definition calc_matrix_from_ccsl (s_notation : string) (m : M3 R) : py_result (M3 R) := AttributeError.
Definition calc_ub (u : M3 R) (s_notation : string) (abc_angles : U6 R) : py_result (M3 R) :=
  match calc_matrix_from_ccsl s_notation u with
  | Ok u_ccsl => calc_matrix_from_ccsl s_notation (product_2 u_ccsl (co_m_b (form_cell abc_angles)))
  | AttributeError => AttributeError | NameError => NameError | KeyError => KeyError
  end.
(** l.271-298 calc_e_up *)
Definition calc_e_up (u : M3 R) (phi omega chi : R) : V3 R :=
  let phi_ij := mkM (cos phi) (sin phi) (0*phi) (- sin phi) (cos phi) (0*phi) (0*phi) (0*phi) (0*phi+1) in
  let omega_ij := mkM (cos omega) (sin omega) (0*omega) (- sin omega) (cos omega) (0*omega) (0*omega) (0*omega) (0*omega+1) in
  let chi_ij := mkM (cos chi) (0*chi) (sin chi) (0*chi) (0*chi+1) (0*chi) (- sin chi) (0*chi) (cos chi) in
  let '(mkM u_11 u_12 u_13 u_21 u_22 u_23 u_31 u_32 u_33) := calc_product_matrices omega_ij chi_ij [phi_ij; u] in
  calc_product_matrix_vector (mkM u_11 u_21 u_31 u_12 u_22 u_32 u_13 u_23 u_33) (mkV 0 0 1).
(** l.300-349 calc_angle; the two strings are compared after strip().lower() *)
Definition calc_angle (ub : M3 R) (hkl : V3 R) (wavelength : R) (diffracted_beam diffractometer_axes : string) : option (R * R * R) :=
  let q_ub := calc_product_matrix_vector ub hkl in
  let q := sqrt (Rsqr (v_1 q_ub) + Rsqr (v_2 q_ub) + Rsqr (v_3 q_ub)) in
  let gamma_0 := 0 in let nu_0 := 0 in
  let q_final_0 := - q^2 * wavelength / 2 in let q_final_2 := v_3 q_ub in
  let q_y2 := q^2 - q_final_0^2 - q_final_2^2 in
  if Rlt_dec q_y2 0 then None else
  let q_final_1 := sqrt q_y2 in
  let k_f_0 := q_final_0 + 1/wavelength in let k_f_1 := q_final_1 in let k_f_2 := q_final_2 in
  let nu := asin (k_f_2*wavelength)/PI*180 - nu_0 in
  let gamma := arctan2 k_f_1 k_f_0 / PI*180 - gamma_0 in
  let phi := (arctan2 q_final_1 q_final_0 - arctan2 (v_2 q_ub) (v_1 q_ub))/PI*180 in
  let phi := if Rlt_dec 0 phi then phi else phi + 360 in
  let gamma := if Rlt_dec 0 gamma then gamma else gamma + 360 in
  let is_left := String.eqb (lower (strip diffracted_beam)) "left" in
  let is_anti := String.eqb (lower (strip diffractometer_axes)) "anticlockwise" in
  if (is_left && is_anti)%bool then Some (gamma, nu, phi)
  else if (negb is_left && negb is_anti)%bool then Some (gamma, nu, phi)
  else if (is_left && negb is_anti)%bool then Some (- gamma, nu, - phi)
  else Some (- gamma, nu, - phi).
(** l.351-361 calc_q2 *)
Definition calc_q2 (u : M3 R) (hkl : V3 R) (cell : U6 R) : R :=
  let k := cell_k_loc cell hkl in
  1 - (v_1 k * m_31 u + v_2 k * m_32 u + v_3 k * m_33 u)^2.
