(** Model of cryspy/A_functions_base/unit_cell.py (scalar kernels; one unit cell, one reflection).
    Floats are reals; numpy.arccos/arcsin are the standard library's acos/asin (equal on [-1,1]).
    The arithmetic is a literal transcription of the assignments of the source lines cited. *)
From Coq Require Import Reals List.
From Verif Require Import Spec.Lin3 Spec.Cell Model.MatrixOps.
Import ListNotations.
Open Scope R_scope.

(** The six parameters are unpacked in every function as
    a, b, c, alpha, beta, gamma = unit_cell_parameters[0..5] and c_a = cos alpha, s_a = sin alpha, ... *)

(** unit_cell.py l.59-74 calc_phi_sq_by_unit_cell_parameters (value). *)
Definition calc_phi_sq (uc : U6 R) : R :=
  let c_a := cos (u_al uc) in let c_b := cos (u_be uc) in let c_g := cos (u_ga uc) in
  let phi_sq := 1 - Rsqr c_a - Rsqr c_b - Rsqr c_g + 2 * c_a * c_b * c_g in
  phi_sq.
(** unit_cell.py l.73-79: its derivative. *)
Definition calc_phi_sq_dder (uc : U6 R) : U6 R :=
  let c_a := cos (u_al uc) in let c_b := cos (u_be uc) in let c_g := cos (u_ga uc) in
  let der_a := 0 in
  let s_a := sin (u_al uc) in let s_b := sin (u_be uc) in let s_g := sin (u_ga uc) in
  let der_al := 2 * s_a * (c_a - c_b * c_g) in
  let der_be := 2 * s_b * (c_b - c_g * c_a) in
  let der_ga := 2 * s_g * (c_g - c_a * c_b) in
  mkU der_a der_a der_a der_al der_be der_ga.

(** unit_cell.py l.83-95 calc_phi_by_unit_cell_parameters. *)
Definition calc_phi (uc : U6 R) : R := sqrt (calc_phi_sq uc).
Definition calc_phi_dder (uc : U6 R) : U6 R :=
  let phi := calc_phi uc in
  let d := calc_phi_sq_dder uc in
  mkU ((5 / 10) * u_a d / phi) ((5 / 10) * u_b d / phi) ((5 / 10) * u_c d / phi)
      ((5 / 10) * u_al d / phi) ((5 / 10) * u_be d / phi) ((5 / 10) * u_ga d / phi).

(** unit_cell.py l.98-125 calc_volume_uc_by_unit_cell_parameters. *)
Definition calc_volume_uc (uc : U6 R) : R :=
  let a := u_a uc in let b := u_b uc in let c := u_c uc in
  let phi := calc_phi uc in
  let volume_uc := a * b * c * phi in
  volume_uc.
Definition calc_volume_uc_dder (uc : U6 R) : U6 R :=
  let a := u_a uc in let b := u_b uc in let c := u_c uc in
  let c_a := cos (u_al uc) in let c_b := cos (u_be uc) in let c_g := cos (u_ga uc) in
  let c_a_sq := Rsqr c_a in
  let c_b_sq := Rsqr c_b in
  let c_g_sq := Rsqr c_g in
  let phi := calc_phi uc in
  let s_a := sin (u_al uc) in let s_b := sin (u_be uc) in let s_g := sin (u_ga uc) in
  let der_a := b * c * phi in
  let der_b := a * c * phi in
  let der_c := a * b * phi in
  let der_al := (- a) * b * c * (5 / 10) * ((- 2) * c_a_sq + 2 * c_b * c_g) * s_a / phi in
  let der_be := (- a) * b * c * (5 / 10) * ((- 2) * c_b_sq + 2 * c_a * c_g) * s_b / phi in
  let der_ga := (- a) * b * c * (5 / 10) * ((- 2) * c_g_sq + 2 * c_a * c_b) * s_g / phi in
  mkU der_a der_b der_c der_al der_be der_ga.

(** unit_cell.py l.128-141 calc_volume_ruc_by_unit_cell_parameters (value). *)
Definition calc_volume_ruc (uc : U6 R) : R := 1 / calc_volume_uc uc.

(** unit_cell.py l.12-32 calc_reciprocal_by_unit_cell_parameters (value). *)
Definition calc_reciprocal (uc : U6 R) : U6 R :=
  let a := u_a uc in let b := u_b uc in let c := u_c uc in
  let c_a := cos (u_al uc) in let c_b := cos (u_be uc) in let c_g := cos (u_ga uc) in
  let s_a := sin (u_al uc) in let s_b := sin (u_be uc) in let s_g := sin (u_ga uc) in
  let vol := calc_volume_uc uc in
  let ialpha := acos ((c_b*c_g-c_a)/(s_b*s_g)) in
  let ibeta := acos ((c_g*c_a-c_b)/(s_g*s_a)) in
  let igamma := acos ((c_a*c_b-c_g)/(s_a*s_b)) in
  let ia := b * c * s_a / vol in
  let ib := c * a * s_b / vol in
  let ic := a * b * s_g / vol in
  mkU ia ib ic ialpha ibeta igamma.
(** unit_cell.py l.35-50: derivative of the reciprocal lengths a*, b* (rows der_ia, der_ib). *)
Definition calc_reciprocal_dder_ia (uc : U6 R) : U6 R :=
  let a := u_a uc in let b := u_b uc in let c := u_c uc in
  let c_a := cos (u_al uc) in let s_a := sin (u_al uc) in
  let vol := calc_volume_uc uc in
  let '(mkU d_v_0 d_v_1 d_v_2 d_v_3 d_v_4 d_v_5) := calc_volume_uc_dder uc in
  let i_vol_sq := 1 / Rsqr vol in
  let der_ia := (mkU (b * c * s_a * d_v_0 * i_vol_sq) (c * s_a / vol + b * c * s_a * d_v_1 * i_vol_sq) (b * s_a / vol + b * c * s_a * d_v_2 * i_vol_sq) (b * c * c_a / vol + b * c * s_a * d_v_3 * i_vol_sq) (b * c * s_a * d_v_4 * i_vol_sq) (b * c * s_a * d_v_5 * i_vol_sq)) in
  der_ia.

(** unit_cell.py l.144-153 calc_m_g_by_unit_cell_parameters (value, order 11,22,33,12,13,23). *)
Definition calc_m_g (uc : U6 R) : Q6 R :=
  let a := u_a uc in let b := u_b uc in let c := u_c uc in
  let c_a := cos (u_al uc) in let c_b := cos (u_be uc) in let c_g := cos (u_ga uc) in
  let m_g_ij := (mkQ (a * a) (b * b) (c * c) (a * b * c_g) (a * c * c_b) (b * c * c_a)) in
  m_g_ij.
(** unit_cell.py l.154-167: its derivative (outer index: element of G). *)
Definition calc_m_g_dder (uc : U6 R) : Q6 (U6 R) :=
  let a := u_a uc in let b := u_b uc in let c := u_c uc in
  let c_a := cos (u_al uc) in let c_b := cos (u_be uc) in let c_g := cos (u_ga uc) in
  let s_a := sin (u_al uc) in let s_b := sin (u_be uc) in let s_g := sin (u_ga uc) in
  let zeros := 0 in
  let der_11 := (mkU (2 * a) zeros zeros zeros zeros zeros) in
  let der_12 := (mkU (b * c_g) (a * c_g) zeros zeros zeros ((- a) * b * s_g)) in
  let der_13 := (mkU (c * c_b) zeros (a * c_b) zeros ((- a) * c * s_b) zeros) in
  let der_22 := (mkU zeros (2 * b) zeros zeros zeros zeros) in
  let der_23 := (mkU zeros (c * c_a) (b * c_a) ((- b) * c * s_a) zeros zeros) in
  let der_33 := (mkU zeros zeros (2 * c) zeros zeros zeros) in
  mkQ der_11 der_22 der_33 der_12 der_13 der_23.

(** unit_cell.py l.171-180 calc_m_g_norm_by_unit_cell_parameters (value). *)
Definition calc_m_g_norm (uc : U6 R) : Q6 R :=
  let c_a := cos (u_al uc) in let c_b := cos (u_be uc) in let c_g := cos (u_ga uc) in
  let ones := 1 in
  let m_g_norm_ij := (mkQ ones ones ones c_g c_b c_a) in
  m_g_norm_ij.
(** unit_cell.py l.181-194: its derivative. *)
Definition calc_m_g_norm_dder (uc : U6 R) : Q6 (U6 R) :=
  let c_a := cos (u_al uc) in let c_b := cos (u_be uc) in let c_g := cos (u_ga uc) in
  let zeros := 0 in
  let s_a := sin (u_al uc) in let s_b := sin (u_be uc) in let s_g := sin (u_ga uc) in
  let der_11 := (mkU zeros zeros zeros zeros zeros zeros) in
  let der_12 := (mkU c_g c_g zeros zeros zeros (- s_g)) in
  let der_13 := (mkU c_b zeros c_b zeros (- s_b) zeros) in
  let der_22 := (mkU zeros zeros zeros zeros zeros zeros) in
  let der_23 := (mkU zeros c_a c_a (- s_a) zeros zeros) in
  let der_33 := (mkU zeros zeros zeros zeros zeros zeros) in
  mkQ der_11 der_22 der_33 der_12 der_13 der_23.

(** unit_cell.py l.197-220 calc_m_reciprocal_g_by_unit_cell_parameters (value). *)
Definition calc_m_reciprocal_g (uc : U6 R) : Q6 R :=
  let a := u_a uc in let b := u_b uc in let c := u_c uc in
  let c_a := cos (u_al uc) in let c_b := cos (u_be uc) in let c_g := cos (u_ga uc) in
  let s_a := sin (u_al uc) in let s_b := sin (u_be uc) in let s_g := sin (u_ga uc) in
  let phi_sq := calc_phi_sq uc in
  let inv_g_11 := Rsqr s_a / (Rsqr a * phi_sq) in
  let inv_g_22 := Rsqr s_b / (Rsqr b * phi_sq) in
  let inv_g_33 := Rsqr s_g / (Rsqr c * phi_sq) in
  let inv_g_12 := (c_a * c_b - c_g) / (a * b * phi_sq) in
  let inv_g_13 := (c_a * c_g - c_b) / (a * c * phi_sq) in
  let inv_g_23 := (c_b * c_g - c_a) / (b * c * phi_sq) in
  let m_reciprocal_g_ij := (mkQ inv_g_11 inv_g_22 inv_g_33 inv_g_12 inv_g_13 inv_g_23) in
  m_reciprocal_g_ij.
(** unit_cell.py l.221-232: the derivative returned is identically zero. *)
Definition calc_m_reciprocal_g_dder (uc : U6 R) : Q6 (U6 R) :=
  let z := mkU 0 0 0 0 0 0 in mkQ z z z z z z.

(** unit_cell.py l.235-258 calc_m_reciprocal_g_norm_by_unit_cell_parameters (value). *)
Definition calc_m_reciprocal_g_norm (uc : U6 R) : Q6 R :=
  let c_a := cos (u_al uc) in let c_b := cos (u_be uc) in let c_g := cos (u_ga uc) in
  let s_a := sin (u_al uc) in let s_b := sin (u_be uc) in let s_g := sin (u_ga uc) in
  let ones := 1 in
  let inv_g_norm_11 := ones in
  let inv_g_norm_22 := ones in
  let inv_g_norm_33 := ones in
  let inv_g_norm_12 := (c_a * c_b - c_g) / (s_a * s_b) in
  let inv_g_norm_13 := (c_a * c_g - c_b) / (s_a * s_g) in
  let inv_g_norm_23 := (c_b * c_g - c_a) / (s_b * s_g) in
  let m_reciprocal_g_norm_ij := (mkQ inv_g_norm_11 inv_g_norm_22 inv_g_norm_33 inv_g_norm_12 inv_g_norm_13 inv_g_norm_23) in
  m_reciprocal_g_norm_ij.
(** unit_cell.py l.260-275: its derivative. *)
Definition calc_m_reciprocal_g_norm_dder (uc : U6 R) : Q6 (U6 R) :=
  let c_a := cos (u_al uc) in let c_b := cos (u_be uc) in let c_g := cos (u_ga uc) in
  let s_a := sin (u_al uc) in let s_b := sin (u_be uc) in let s_g := sin (u_ga uc) in
  let zero := 0 in
  let s_a_sq := Rsqr s_a in
  let s_b_sq := Rsqr s_b in
  let s_g_sq := Rsqr s_g in
  let der_11 := (mkU zero zero zero zero zero zero) in
  let der_22 := (mkU zero zero zero zero zero zero) in
  let der_33 := (mkU zero zero zero zero zero zero) in
  let der_12 := (mkU zero zero zero ((- (c_a * c_b - c_g)) * c_a / (s_a_sq * s_b) - c_b / s_b) ((- (c_a * c_b - c_g)) * c_b / (s_a * s_b_sq) - c_a / s_a) (s_g / (s_a * s_b))) in
  let der_13 := (mkU zero zero zero ((- (c_a * c_g - c_b)) * c_a / (s_a_sq * s_g) - c_g / s_g) (s_b / (s_a * s_g)) ((- (c_a * c_g - c_b)) * c_g / (s_a * s_g_sq) - c_a / s_a)) in
  let der_23 := (mkU zero zero zero (s_a / (s_b * s_g)) ((- ((- c_a) + c_b * c_g)) * c_b / (s_b_sq * s_g) - c_g / s_g) ((- ((- c_a) + c_b * c_g)) * c_g / (s_b * s_g_sq) - c_b / s_b)) in
  mkQ der_11 der_22 der_33 der_12 der_13 der_23.

(** unit_cell.py l.279-296 calc_m_b_by_unit_cell_parameters (value). *)
Definition calc_m_b (uc : U6 R) : M3 R :=
  let a := u_a uc in let b := u_b uc in let c := u_c uc in
  let c_a := cos (u_al uc) in let c_b := cos (u_be uc) in let c_g := cos (u_ga uc) in
  let s_a := sin (u_al uc) in let s_b := sin (u_be uc) in let s_g := sin (u_ga uc) in
  let phi := calc_phi uc in
  let zeros := 0 in
  let m_b_ij := (mkM (s_a / (a * phi)) ((c_a * c_b - c_g) / (b * phi * s_a)) ((c_a * c_g - c_b) / (c * phi * s_a)) zeros (1 / (b * s_a)) ((- c_a) / (c * s_a)) zeros zeros (1 / c)) in
  m_b_ij.
(** unit_cell.py l.298-340: its derivative. *)
Definition calc_m_b_dder (uc : U6 R) : M3 (U6 R) :=
  let a := u_a uc in let b := u_b uc in let c := u_c uc in
  let c_a := cos (u_al uc) in let c_b := cos (u_be uc) in let c_g := cos (u_ga uc) in
  let s_a := sin (u_al uc) in let s_b := sin (u_be uc) in let s_g := sin (u_ga uc) in
  let phi := calc_phi uc in
  let '(mkU dder_phi_0 dder_phi_1 dder_phi_2 dder_phi_3 dder_phi_4 dder_phi_5) := calc_phi_dder uc in
  let zeros := 0 in
  let m_b_ij_0 := m_11 (calc_m_b uc) in let m_b_ij_1 := m_12 (calc_m_b uc) in
  let m_b_ij_2 := m_13 (calc_m_b uc) in let m_b_ij_4 := m_22 (calc_m_b uc) in
  let m_b_ij_5 := m_23 (calc_m_b uc) in
  let der_11_a := (- m_b_ij_0) / a - m_b_ij_0 / phi * dder_phi_0 in
  let der_11_b := (- m_b_ij_0) / phi * dder_phi_1 in
  let der_11_c := (- m_b_ij_0) / phi * dder_phi_2 in
  let der_11_al := c_a / (a * phi) - m_b_ij_0 / phi * dder_phi_3 in
  let der_11_be := (- m_b_ij_0) / phi * dder_phi_4 in
  let der_11_ga := (- m_b_ij_0) / phi * dder_phi_5 in
  let der_11 := (mkU der_11_a der_11_b der_11_c der_11_al der_11_be der_11_ga) in
  let der_12_a := (- m_b_ij_1) / phi * dder_phi_0 in
  let der_12_b := (- m_b_ij_1) / b - m_b_ij_1 / phi * dder_phi_1 in
  let der_12_c := (- m_b_ij_1) / phi * dder_phi_2 in
  let der_12_al := (c_a * c_g - c_b) / (Rsqr s_a * b * phi) - m_b_ij_1 / phi * dder_phi_3 in
  let der_12_be := c_a * s_b / (b * phi * s_a) - m_b_ij_1 / phi * dder_phi_4 in
  let der_12_ga := s_g / (b * phi * s_a) - m_b_ij_1 / phi * dder_phi_5 in
  let der_12 := (mkU der_12_a der_12_b der_12_c der_12_al der_12_be der_12_ga) in
  let der_13_a := (- m_b_ij_2) / phi * dder_phi_0 in
  let der_13_b := (- m_b_ij_2) / phi * dder_phi_1 in
  let der_13_c := (- m_b_ij_2) / c - m_b_ij_2 / phi * dder_phi_2 in
  let der_13_al := (c_a * c_b - c_g) / (Rsqr s_a * c * phi) - m_b_ij_2 / phi * dder_phi_3 in
  let der_13_be := s_b / (c * phi * s_a) - m_b_ij_2 / phi * dder_phi_4 in
  let der_13_ga := (- s_g) * c_a / (c * phi * s_a) - m_b_ij_2 / phi * dder_phi_5 in
  let der_13 := (mkU der_13_a der_13_b der_13_c der_13_al der_13_be der_13_ga) in
  let der_22_b := (- m_b_ij_4) / b in
  let der_22_al := (- m_b_ij_4) * c_a / Rsqr s_a in
  let der_22 := (mkU zeros der_22_b zeros der_22_al zeros zeros) in
  let der_23_c := (- m_b_ij_5) / c in
  let der_23_al := 1 / (Rsqr s_a * c) in
  let der_23 := (mkU zeros zeros der_23_c der_23_al zeros zeros) in
  let der_33_c := (- 1) / Rsqr c in
  let der_33 := (mkU zeros zeros der_33_c zeros zeros zeros) in
  let der_21 := (mkU zeros zeros zeros zeros zeros zeros) in
  let der_31 := (mkU zeros zeros zeros zeros zeros zeros) in
  let der_32 := (mkU zeros zeros zeros zeros zeros zeros) in
  mkM der_11 der_12 der_13 der_21 der_22 der_23 der_31 der_32 der_33.

(** unit_cell.py l.344-361 calc_m_inv_b_by_unit_cell_parameters (value). *)
Definition calc_m_inv_b (uc : U6 R) : M3 R :=
  let a := u_a uc in let b := u_b uc in let c := u_c uc in
  let c_a := cos (u_al uc) in let c_b := cos (u_be uc) in let c_g := cos (u_ga uc) in
  let s_a := sin (u_al uc) in let s_b := sin (u_be uc) in let s_g := sin (u_ga uc) in
  let phi := calc_phi uc in
  let zeros := 0 in
  let m_inv_b_ij := (mkM (a * phi / s_a) (a * (c_g - c_a * c_b) / s_a) (a * c_b) zeros (b * s_a) (b * c_a) zeros zeros c) in
  m_inv_b_ij.

(** unit_cell.py l.380-399 calc_m_b_norm_by_unit_cell_parameters (value). *)
Definition calc_m_b_norm (uc : U6 R) : M3 R :=
  let c_a := cos (u_al uc) in let c_b := cos (u_be uc) in let c_g := cos (u_ga uc) in
  let s_a := sin (u_al uc) in let s_b := sin (u_be uc) in let s_g := sin (u_ga uc) in
  let phi := calc_phi uc in
  let zeros := 0 in let ones := 1 in
  let m_b_norm_ij := (mkM ones ((c_a * c_b - c_g) / (s_a * s_b)) ((c_a * c_g - c_b) / (s_a * s_g)) zeros (phi / (s_a * s_b)) ((- phi) * c_a / (s_a * s_g)) zeros zeros (phi / s_g)) in
  m_b_norm_ij.

(** unit_cell.py l.419-438 calc_m_inv_b_norm_by_unit_cell_parameters (value). *)
Definition calc_m_inv_b_norm (uc : U6 R) : M3 R :=
  let c_a := cos (u_al uc) in let c_b := cos (u_be uc) in let c_g := cos (u_ga uc) in
  let s_a := sin (u_al uc) in let s_b := sin (u_be uc) in let s_g := sin (u_ga uc) in
  let phi := calc_phi uc in
  let zeros := 0 in let ones := 1 in
  let m_inv_b_norm := (mkM ones ((c_g - c_a * c_b) / phi) (s_a * c_b / phi) zeros (s_a * s_b / phi) (c_a * s_b / phi) zeros zeros (s_g / phi)) in
  m_inv_b_norm.
(** unit_cell.py l.453: dder_phi["uni_cell_parameters"] (misspelled key) raises KeyError. *)
Definition calc_m_inv_b_norm_call (uc : U6 R) (flag : bool) : py_result (M3 R) :=
  if flag then KeyError else Ok (calc_m_inv_b_norm uc).

(** unit_cell.py l.461-479 calc_m_m_by_unit_cell_parameters (value). *)
Definition calc_m_m (uc : U6 R) : M3 R :=
  let a := u_a uc in let b := u_b uc in let c := u_c uc in
  let c_a := cos (u_al uc) in let c_b := cos (u_be uc) in let c_g := cos (u_ga uc) in
  let s_a := sin (u_al uc) in let s_b := sin (u_be uc) in let s_g := sin (u_ga uc) in
  let phi := calc_phi uc in
  let zeros := 0 in
  let m_m_ij := (mkM (a * phi / s_a) zeros zeros (a * (c_g - c_a * c_b) / s_a) (b * s_a) zeros (a * c_b) (b * c_a) c) in
  m_m_ij.

(** unit_cell.py l.498-516 calc_m_inv_m_by_unit_cell_parameters (value). *)
Definition calc_m_inv_m (uc : U6 R) : M3 R :=
  let a := u_a uc in let b := u_b uc in let c := u_c uc in
  let c_a := cos (u_al uc) in let c_b := cos (u_be uc) in let c_g := cos (u_ga uc) in
  let s_a := sin (u_al uc) in let s_b := sin (u_be uc) in let s_g := sin (u_ga uc) in
  let phi := calc_phi uc in
  let zeros := 0 in
  let m_inv_m_ij := (mkM (s_a / (a * phi)) zeros zeros ((c_a * c_b - c_g) / (b * phi * s_a)) (1 / (b * s_a)) zeros ((c_a * c_g - c_b) / (c * phi * s_a)) ((- c_a) / (c * s_a)) (1 / c)) in
  m_inv_m_ij.

(** unit_cell.py l.535-554 calc_m_m_norm_by_unit_cell_parameters (value). *)
Definition calc_m_m_norm (uc : U6 R) : M3 R :=
  let c_a := cos (u_al uc) in let c_b := cos (u_be uc) in let c_g := cos (u_ga uc) in
  let s_a := sin (u_al uc) in let s_b := sin (u_be uc) in let s_g := sin (u_ga uc) in
  let phi := calc_phi uc in
  let zeros := 0 in let ones := 1 in
  let m_m_norm_ij := (mkM (phi / s_a) zeros zeros ((c_g - c_a * c_b) / s_a) s_a zeros c_b c_a ones) in
  m_m_norm_ij.
(** unit_cell.py l.556-579: its derivative. *)
Definition calc_m_m_norm_dder (uc : U6 R) : M3 (U6 R) :=
  let c_a := cos (u_al uc) in let c_b := cos (u_be uc) in let c_g := cos (u_ga uc) in
  let s_a := sin (u_al uc) in let s_b := sin (u_be uc) in let s_g := sin (u_ga uc) in
  let phi := calc_phi uc in
  let zeros := 0 in
  let s_a_sq := Rsqr s_a in
  let c_a_sq := Rsqr c_a in
  let der_11 := (mkU zeros zeros zeros ((- (5 / 10)) / phi * (2 * c_a - 2 * c_b * c_g) - phi * c_a / s_a_sq) ((- (5 / 10)) / phi * (2 * c_b - 2 * c_a * c_g) * s_b / s_a) ((- (5 / 10)) / phi * (2 * c_g - 2 * c_a * c_b) * s_g / s_a)) in
  let der_12 := (mkU zeros zeros zeros zeros zeros zeros) in
  let der_13 := (mkU zeros zeros zeros zeros zeros zeros) in
  let der_21 := (mkU zeros zeros zeros (c_b - (c_g * c_a - c_a_sq * c_b) / s_a_sq) (c_a * s_b / s_a) ((- s_g) / s_a)) in
  let der_22 := (mkU zeros zeros zeros c_a zeros zeros) in
  let der_23 := (mkU zeros zeros zeros zeros zeros zeros) in
  let der_31 := (mkU zeros zeros zeros zeros ((- 1) * s_b) zeros) in
  let der_32 := (mkU zeros zeros zeros ((- 1) * s_a) zeros zeros) in
  let der_33 := (mkU zeros zeros zeros zeros zeros zeros) in
  mkM der_11 der_12 der_13 der_21 der_22 der_23 der_31 der_32 der_33.

(** unit_cell.py l.582-601 calc_m_inv_m_norm_by_unit_cell_parameters (value). *)
Definition calc_m_inv_m_norm (uc : U6 R) : M3 R :=
  let c_a := cos (u_al uc) in let c_b := cos (u_be uc) in let c_g := cos (u_ga uc) in
  let s_a := sin (u_al uc) in let s_b := sin (u_be uc) in let s_g := sin (u_ga uc) in
  let phi := calc_phi uc in
  let zeros := 0 in let ones := 1 in
  let m_inv_m_norm_ij := (mkM (s_a / phi) zeros zeros ((c_a * c_b - c_g) / (phi * s_a)) (1 / s_a) zeros ((c_a * c_g - c_b) / (phi * s_a)) ((- c_a) / s_a) ones) in
  m_inv_m_norm_ij.

(** unit_cell.py l.621-642 calc_q_ccs_by_unit_cell_parameters (value). *)
Definition calc_q_ccs (hkl : V3 R) (uc : U6 R) : V3 R :=
  let '(mkV index_hkl_0 index_hkl_1 index_hkl_2) := hkl in
  let '(mkM m_b_0 m_b_1 m_b_2 m_b_3 m_b_4 m_b_5 m_b_6 m_b_7 m_b_8) := calc_m_b uc in
  let q_xyz := (mkV (m_b_0 * index_hkl_0 + m_b_1 * index_hkl_1 + m_b_2 * index_hkl_2) (m_b_3 * index_hkl_0 + m_b_4 * index_hkl_1 + m_b_5 * index_hkl_2) (m_b_6 * index_hkl_0 + m_b_7 * index_hkl_1 + m_b_8 * index_hkl_2)) in
  q_xyz.

(** unit_cell.py l.646-657: its derivative, row i = sum_j hkl_j * dder_m_b[3 i + j]. *)
Definition u_lin3 (x : R) (p : U6 R) (y : R) (q : U6 R) (z : R) (r : U6 R) : U6 R :=
  mkU (x * u_a p + y * u_a q + z * u_a r) (x * u_b p + y * u_b q + z * u_b r) (x * u_c p + y * u_c q + z * u_c r)
      (x * u_al p + y * u_al q + z * u_al r) (x * u_be p + y * u_be q + z * u_be r) (x * u_ga p + y * u_ga q + z * u_ga r).
Definition calc_q_ccs_dder (hkl : V3 R) (uc : U6 R) : V3 (U6 R) :=
  let d := calc_m_b_dder uc in
  mkV (u_lin3 (v_1 hkl) (m_11 d) (v_2 hkl) (m_12 d) (v_3 hkl) (m_13 d))
      (u_lin3 (v_1 hkl) (m_21 d) (v_2 hkl) (m_22 d) (v_3 hkl) (m_23 d))
      (u_lin3 (v_1 hkl) (m_31 d) (v_2 hkl) (m_32 d) (v_3 hkl) (m_33 d)).
(** unit_cell.py l.362-374, 400-413, 480-493, 517-530, 603-616, 962-974: the derivatives of calc_m_inv_b,
    calc_m_b_norm, calc_m_m, calc_m_inv_m, calc_m_inv_m_norm and calc_m_inv_m_b_norm are 9x6 blocks of
    zeros. *)
Definition zero_dder_m : M3 (U6 R) :=
  let z := mkU 0 0 0 0 0 0 in mkM z z z z z z z z z.

(** unit_cell.py l.661-683 calc_eq_ccs_by_unit_cell_parameters (value). *)
Definition calc_eq_ccs (hkl : V3 R) (uc : U6 R) : V3 R :=
  let q := calc_q_ccs hkl uc in
  let q_norm := sqrt (Rsqr (v_1 q) + Rsqr (v_2 q) + Rsqr (v_3 q)) in
  let q_norm := if Req_EM_T q_norm 0 then 1 else q_norm in
  mkV (v_1 q / q_norm) (v_2 q / q_norm) (v_3 q / q_norm).

(** unit_cell.py l.685-693: its derivative for one parameter p,
    dq_i/|q| - q_i/|q|^2 * (sum_k q_k dq_k)/|q|. *)
Definition calc_eq_ccs_dder (hkl : V3 R) (uc : U6 R) (p : ux) : V3 R :=
  let q := calc_q_ccs hkl uc in
  let q_norm := sqrt (Rsqr (v_1 q) + Rsqr (v_2 q) + Rsqr (v_3 q)) in
  let q_norm := if Req_EM_T q_norm 0 then 1 else q_norm in
  let dq := calc_q_ccs_dder hkl uc in
  let hh := v_1 q * uget (v_1 dq) p + v_2 q * uget (v_2 dq) p + v_3 q * uget (v_3 dq) p in
  let row qi di := di / q_norm - qi / Rsqr q_norm * hh / q_norm in
  mkV (row (v_1 q) (uget (v_1 dq) p)) (row (v_2 q) (uget (v_2 dq) p)) (row (v_3 q) (uget (v_3 dq) p)).

(** unit_cell.py l.697-724 calc_inv_d_by_unit_cell_parameters (value). *)
Definition calc_inv_d (hkl : V3 R) (uc : U6 R) : R :=
  let a := u_a uc in let b := u_b uc in let c := u_c uc in
  let c_a := cos (u_al uc) in let c_b := cos (u_be uc) in let c_g := cos (u_ga uc) in
  let c_a_sq := Rsqr c_a in
  let c_b_sq := Rsqr c_b in
  let c_g_sq := Rsqr c_g in
  let s_a_sq := 1 - c_a_sq in
  let s_b_sq := 1 - c_b_sq in
  let s_g_sq := 1 - c_g_sq in
  let A := 1 - c_a_sq - c_b_sq - c_g_sq + 2 * c_a * c_b * c_g in
  let h := v_1 hkl in let k := v_2 hkl in let l := v_3 hkl in
  let B1 := s_a_sq * Rsqr (h * 1 / a) + s_b_sq * Rsqr (k * 1 / b) + s_g_sq * Rsqr (l * 1 / c) in
  let B2 := 2 * (k * l * (c_a - c_b * c_g)) / (b * c) + 2 * (h * l * (c_b - c_a * c_g)) / (a * c) + 2 * (h * k * (c_g - c_a * c_b)) / (a * b) in
  let B := B1 - B2 in
  let inv_d := sqrt (B * 1 / A) in
  inv_d.
(** unit_cell.py l.726-737: its derivative. *)
Definition calc_inv_d_dder (hkl : V3 R) (uc : U6 R) : U6 R :=
  let a := u_a uc in let b := u_b uc in let c := u_c uc in
  let c_a := cos (u_al uc) in let c_b := cos (u_be uc) in let c_g := cos (u_ga uc) in
  let c_a_sq := Rsqr c_a in
  let c_b_sq := Rsqr c_b in
  let c_g_sq := Rsqr c_g in
  let s_a_sq := 1 - c_a_sq in
  let s_b_sq := 1 - c_b_sq in
  let s_g_sq := 1 - c_g_sq in
  let A := 1 - c_a_sq - c_b_sq - c_g_sq + 2 * c_a * c_b * c_g in
  let h := v_1 hkl in let k := v_2 hkl in let l := v_3 hkl in
  let inv_d := calc_inv_d hkl uc in
  let s_a := sin (u_al uc) in let s_b := sin (u_be uc) in let s_g := sin (u_ga uc) in
  let coeff := 1 / (inv_d * A) in
  let dder_a := coeff * (h / Rsqr a) * (c_b * l / c + c_g * k / b - s_a_sq * h / a) in
  let dder_b := coeff * (k / Rsqr b) * (c_g * h / a + c_a * l / c - s_b_sq * k / b) in
  let dder_c := coeff * (l / Rsqr c) * (c_a * k / b + c_b * h / a - s_g_sq * l / c) in
  let dder_al := s_a / A * ((c_a * Rsqr (h / a) + k * l / (b * c)) / inv_d - inv_d * (c_a - c_b * c_g) / A) in
  let dder_be := s_b / A * ((c_b * Rsqr (k / b) + l * h / (c * a)) / inv_d - inv_d * (c_b - c_g * c_a) / A) in
  let dder_ga := s_g / A * ((c_g * Rsqr (l / c) + h * k / (a * b)) / inv_d - inv_d * (c_g - c_a * c_b) / A) in
  mkU dder_a dder_b dder_c dder_al dder_be dder_ga.

(** unit_cell.py l.741-755 calc_sthovl_by_unit_cell_parameters (value). *)
Definition calc_sthovl (hkl : V3 R) (uc : U6 R) : R := (5 / 10) * calc_inv_d hkl uc.

(** unit_cell.py l.758-931: the eight transform_quadratic_form_* functions (values).  Each takes a matrix,
    stacks its transpose (m_mt_ij) and calls calc_m_q_mt. *)
Definition stack_transposed (m : M3 R) : M3 R :=
  let '(mkM m0 m1 m2 m3 m4 m5 m6 m7 m8) := m in mkM m0 m3 m6 m1 m4 m7 m2 m5 m8.
Definition transform_reciprocal_to_ccs (q : Q6 R) (uc : U6 R) : Q6 R :=      (* l.758-778 *)
  calc_m_q_mt (stack_transposed (calc_m_inv_b uc)) q.
Definition transform_ccs_to_reciprocal (q : Q6 R) (uc : U6 R) : Q6 R :=      (* l.781-800 *)
  calc_m_q_mt (stack_transposed (calc_m_b uc)) q.
Definition transform_reciprocal_norm_to_ccs (q : Q6 R) (uc : U6 R) : Q6 R := (* l.803-822 *)
  calc_m_q_mt (stack_transposed (calc_m_inv_b_norm uc)) q.
Definition transform_ccs_to_reciprocal_norm (q : Q6 R) (uc : U6 R) : Q6 R := (* l.825-844 *)
  calc_m_q_mt (stack_transposed (calc_m_b_norm uc)) q.
Definition transform_direct_to_ccs (q : Q6 R) (uc : U6 R) : Q6 R :=          (* l.847-866 *)
  calc_m_q_mt (stack_transposed (calc_m_inv_m uc)) q.
Definition transform_ccs_to_direct (q : Q6 R) (uc : U6 R) : Q6 R :=          (* l.869-888 *)
  calc_m_q_mt (stack_transposed (calc_m_m uc)) q.
Definition transform_direct_norm_to_ccs (q : Q6 R) (uc : U6 R) : Q6 R :=     (* l.891-910 *)
  calc_m_q_mt (stack_transposed (calc_m_inv_m_norm uc)) q.
Definition transform_ccs_to_direct_norm (q : Q6 R) (uc : U6 R) : Q6 R :=     (* l.913-932 *)
  calc_m_q_mt (stack_transposed (calc_m_m_norm uc)) q.

(** unit_cell.py l.934-960 calc_m_inv_m_b_norm_by_unit_cell_parameters (value). *)
Definition calc_m_inv_m_b_norm (uc : U6 R) : M3 R :=
  let a := u_a uc in let b := u_b uc in let c := u_c uc in
  let c_a := cos (u_al uc) in let c_b := cos (u_be uc) in let c_g := cos (u_ga uc) in
  let s_a := sin (u_al uc) in let s_b := sin (u_be uc) in let s_g := sin (u_ga uc) in
  let phi := calc_phi uc in
  let o_11 := s_a / (a * phi) in
  let o_12 := (c_a * c_b - c_g) / (a * phi * s_b) in
  let o_13 := (c_a * c_g - c_b) / (a * phi * s_g) in
  let o_21 := (c_a * c_b - c_g) / (b * phi * s_a) in
  let o_22 := s_b / (b * phi) in
  let o_23 := (c_b * c_g - c_a) / (b * phi * s_g) in
  let o_31 := (c_a * c_g - c_b) / (c * phi * s_a) in
  let o_32 := (c_b * c_g - c_a) / (c * phi * s_b) in
  let o_33 := s_g / (c * phi) in
  let inv_m_b_norm := (mkM o_11 o_12 o_13 o_21 o_22 o_23 o_31 o_32 o_33) in
  inv_m_b_norm.

(** unit_cell.py l.976-1001 calc_m_inv_b_norm_m_by_unit_cell_parameters (value). *)
Definition calc_m_inv_b_norm_m (uc : U6 R) : M3 R :=
  let a := u_a uc in let b := u_b uc in let c := u_c uc in
  let c_a := cos (u_al uc) in let c_b := cos (u_be uc) in let c_g := cos (u_ga uc) in
  let s_a := sin (u_al uc) in let s_b := sin (u_be uc) in let s_g := sin (u_ga uc) in
  let phi := calc_phi uc in
  let o_11 := a * s_a / phi in
  let o_12 := b * s_a * c_g / phi in
  let o_13 := c * s_a * c_b / phi in
  let o_21 := a * s_b * c_g / phi in
  let o_22 := b * s_b / phi in
  let o_23 := c * s_b * c_a / phi in
  let o_31 := a * s_g * c_b / phi in
  let o_32 := b * s_g * c_a / phi in
  let o_33 := c * s_g / phi in
  let inv_b_norm_m := (mkM o_11 o_12 o_13 o_21 o_22 o_23 o_31 o_32 o_33) in
  inv_b_norm_m.

(** unit_cell.py l.1018-1064 calc_matrix_t (value), one reflection.  sb and the flags are evaluated as in
    the code; [None] is the `quit()` of l.1058-1061. *)
Definition calc_matrix_t (hkl : V3 R) (uc : U6 R) : option (M3 R) :=
  let '(mkV k_x k_y k_z) := calc_eq_ccs hkl uc in
  let be := acos k_z in
  let sb := sin be in
  let clip x := if Rlt_dec 1 x then 1 else x in
  let clip2 x := if Rlt_dec x (-1) then -1 else x in
  let al :=
    if Req_EM_T sb 0 then 0
    else
      let sa1 := clip2 (clip (k_x * 1 / sb)) in
      let ca2 := clip2 (clip ((-1) * k_y * 1 / sb)) in
      let al1 := asin sa1 in
      let al2 := acos ca2 in
      let al_sh := if Rlt_dec 0 sa1 then al2 else 2 * PI - al2 in
      if Rlt_dec (Rabs (al2 - al1)) (1 / 100000) then al1 else al_sh in
  let ga := 0 in
  let ca := cos al in let cb := cos be in let cg := cos ga in
  let sa := sin al in let sb := sin be in let sg := sin ga in
  let t_11 := ca * cg - sa * cb * sg in
  let t_21 := (- ca) * sg - sa * cb * cg in
  let t_31 := sa * sb in
  let t_12 := sa * cg + ca * cb * sg in
  let t_22 := (- sa) * sg + ca * cb * cg in
  let t_32 := (- ca) * sb in
  let t_13 := sb * sg in
  let t_23 := sb * cg in
  let t_33 := cb in
  if Rlt_dec (1 / 10000) ((sa*sb-k_x)^2+(-ca*sb-k_y)^2+(cb-k_z)^2) then None
  else Some (mkM t_11 t_12 t_13 t_21 t_22 t_23 t_31 t_32 t_33).
