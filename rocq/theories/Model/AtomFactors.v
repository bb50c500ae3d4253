(** Model of cryspy/A_functions_base/debye_waller_factor.py, preferred_orientation.py (calc_preferred_orientation_pd,
    calc_preferred_orientation_pd2d) and magnetic_form_factor.py (calc_j0, calc_j2, calc_form_factor), for one atom and one
    reflection (array axes are element-wise).  Floats are reals.  numpy.power(hh, -1.5) is Rpower hh (-1.5), which is only
    meaningful for hh > 0. *)
From Coq Require Import Reals Bool.
From Verif Require Import Spec.Lin3 Spec.Cell Model.UnitCell.
Open Scope R_scope.

(** debye_waller_factor.py l.14-41 calc_beta_by_u_ij *)
Definition calc_beta_by_u_ij (u : Q6 R) (rcell : U6 R) : Q6 R :=
  let ia := u_a rcell in let ib := u_b rcell in let ic := u_c rcell in
  mkQ (2 * PI ^ 2 * q_11 u * ia ^ 2) (2 * PI ^ 2 * q_22 u * ib ^ 2) (2 * PI ^ 2 * q_33 u * ic ^ 2)
      (2 * PI ^ 2 * q_12 u * ia * ib) (2 * PI ^ 2 * q_13 u * ia * ic) (2 * PI ^ 2 * q_23 u * ib * ic).
(** l.42-51 its derivative: element i of the result for element i of u_ij *)
Definition calc_beta_by_u_ij_dder (rcell : U6 R) : Q6 R :=
  let ia := u_a rcell in let ib := u_b rcell in let ic := u_c rcell in
  mkQ (2 * PI ^ 2 * 1 * ia ^ 2) (2 * PI ^ 2 * 1 * ib ^ 2) (2 * PI ^ 2 * 1 * ic ^ 2)
      (2 * PI ^ 2 * 1 * ia * ib) (2 * PI ^ 2 * 1 * ia * ic) (2 * PI ^ 2 * 1 * ib * ic).
(** l.54-90 calc_u_ij_by_beta *)
Definition calc_u_ij_by_beta (beta : Q6 R) (rcell : U6 R) : Q6 R :=
  let ia := u_a rcell in let ib := u_b rcell in let ic := u_c rcell in let pi_sq := PI ^ 2 in
  mkQ (q_11 beta / (2 * pi_sq * ia ^ 2)) (q_22 beta / (2 * pi_sq * ib ^ 2)) (q_33 beta / (2 * pi_sq * ic ^ 2))
      (q_12 beta / (2 * pi_sq * ia * ib)) (q_13 beta / (2 * pi_sq * ia * ic)) (q_23 beta / (2 * pi_sq * ib * ic)).
Definition calc_u_ij_by_beta_dder (rcell : U6 R) : Q6 R :=
  let ia := u_a rcell in let ib := u_b rcell in let ic := u_c rcell in let pi_sq := PI ^ 2 in
  mkQ (1 / (2 * pi_sq * ia ^ 2)) (1 / (2 * pi_sq * ib ^ 2)) (1 / (2 * pi_sq * ic ^ 2))
      (1 / (2 * pi_sq * ia * ib)) (1 / (2 * pi_sq * ia * ic)) (1 / (2 * pi_sq * ib * ic)).

(** The strings the code compares atom_adp_type with (l.107-113); any other string leaves zeros. *)
Inductive adp_type := Uiso | Biso | Uovl | Umpe | Uani | Bovl | Bani | Other_adp.
Definition q_zero : Q6 R := mkQ 0 0 0 0 0 0.
(** l.93-127 calc_b_iso_beta, one atom *)
Definition calc_b_iso_beta (uc : U6 R) (t : adp_type) (iso : R) (aniso : Q6 R) : R * Q6 R :=
  let coeff := 8 * Rsqr PI in
  let rcell := calc_reciprocal uc in
  (match t with Uiso | Uovl | Umpe => coeff * iso | Biso | Bovl => iso | _ => 0 end,
   match t with Uani => calc_beta_by_u_ij aniso rcell | Bani => aniso | _ => q_zero end).
(** l.130-160 calc_param_iso_aniso_by_b_iso_beta, one atom *)
Definition calc_param_iso_aniso_by_b_iso_beta (uc : U6 R) (t : adp_type) (b_iso : R) (beta : Q6 R) : R * Q6 R :=
  let coeff := 1 / (8 * Rsqr PI) in
  let rcell := calc_reciprocal uc in
  (match t with Uiso | Uovl | Umpe => coeff * b_iso | Biso | Bovl => b_iso | _ => 0 end,
   match t with Bani => beta | Uani => calc_u_ij_by_beta beta rcell | _ => q_zero end).

(** l.163-174 calc_power_dwf_iso: value, d/d b_iso, d/d sthovl *)
Definition calc_power_dwf_iso (sthovl b_iso : R) : R := b_iso * Rsqr sthovl.
Definition calc_power_dwf_iso_dder (sthovl b_iso : R) : R * R := (Rsqr sthovl * 1, 2 * b_iso * sthovl * 1).
(** l.177-210 calc_power_dwf_aniso; the elements 0..8 of symm_elems_r are the rows of the rotation *)
Definition rotated_hkl (hkl : V3 R) (r : M3 R) : V3 R :=
  let h := v_1 hkl in let k := v_2 hkl in let l := v_3 hkl in
  mkV (h * m_11 r + k * m_21 r + l * m_31 r) (h * m_12 r + k * m_22 r + l * m_32 r) (h * m_13 r + k * m_23 r + l * m_33 r).
Definition calc_power_dwf_aniso (hkl : V3 R) (beta : Q6 R) (r : M3 R) : R :=
  let '(mkV h_s k_s l_s) := rotated_hkl hkl r in
  q_11 beta * Rsqr h_s + q_22 beta * Rsqr k_s + q_33 beta * Rsqr l_s + 2 * q_12 beta * h_s * k_s +
  2 * q_13 beta * h_s * l_s + 2 * q_23 beta * k_s * l_s.
Definition calc_power_dwf_aniso_dder (hkl : V3 R) (r : M3 R) : Q6 R :=
  let '(mkV h_s k_s l_s) := rotated_hkl hkl r in
  mkQ (1 * Rsqr h_s) (1 * Rsqr k_s) (1 * Rsqr l_s) (1 * 2 * h_s * k_s) (1 * 2 * h_s * l_s) (1 * 2 * k_s * l_s).
(** l.213-241 calc_dwf (the derivatives are None) *)
Definition calc_dwf (hkl : V3 R) (sthovl b_iso : R) (beta : Q6 R) (r : M3 R) : R :=
  exp (- (calc_power_dwf_iso sthovl b_iso + calc_power_dwf_aniso hkl beta r)).

(** preferred_orientation.py l.37-47 (= l.75-86): the modified March-Dollase function of cos_alpha_sq *)
Definition po_hh (g1 cos_alpha_sq : R) : R := 1 / g1 + (g1 ^ 2 - 1 / g1) * cos_alpha_sq.
Definition po_value (g1 g2 cos_alpha_sq : R) : R := g2 + (1 - g2) * Rpower (po_hh g1 cos_alpha_sq) (- (15/10)).
Definition po_d_g2 (g1 g2 cos_alpha_sq : R) : R := 1 - Rpower (po_hh g1 cos_alpha_sq) (- (15/10)).
Definition po_d_g1 (g1 g2 cos_alpha_sq : R) : R :=
  - (15/10) * (1 - g2) * Rpower (po_hh g1 cos_alpha_sq) (- (25/10)) *
  (- (1 - cos_alpha_sq) / Rsqr g1 + 2 * cos_alpha_sq * g1).
(** l.27-35: cosine between the reciprocal vectors of the texture axis and of the reflection *)
Definition cos_alpha_ax (hkl axis : V3 R) (uc : U6 R) : R :=
  let e := calc_eq_ccs axis uc in let q := calc_eq_ccs hkl uc in v_1 e * v_1 q + v_2 e * v_2 q + v_3 e * v_3 q.
(** l.18-49 calc_preferred_orientation_pd: (factor, d/d g1, d/d g2) *)
Definition pd_cos_alpha_sq (hkl axis : V3 R) (uc : U6 R) : R := Rabs (1 - Rsqr (cos_alpha_ax hkl axis uc)).
Definition calc_preferred_orientation_pd (hkl : V3 R) (g1 g2 : R) (axis : V3 R) (uc : U6 R) : R * R * R :=
  let c := pd_cos_alpha_sq hkl axis uc in (po_value g1 g2 c, po_d_g1 g1 g2 c, po_d_g2 g1 g2 c).
(** l.52-88 calc_preferred_orientation_pd2d *)
Definition pd2d_cos_alpha_sq (alpha_det : R) (hkl axis : V3 R) (uc : U6 R) : R :=
  let c := cos_alpha_ax hkl axis uc in
  let c := if Rlt_dec 1 c then 1 else c in
  let c_help := 1 - c ^ 2 in
  let c_help := if Rlt_dec c_help 0 then 0 else c_help in
  let s := sqrt c_help in
  Rsqr (c * cos alpha_det + s * sin alpha_det).
Definition calc_preferred_orientation_pd2d (alpha_det : R) (hkl : V3 R) (g1 g2 : R) (axis : V3 R) (uc : U6 R) : R * R * R :=
  let c := pd2d_cos_alpha_sq alpha_det hkl axis uc in (po_value g1 g2 c, po_d_g1 g1 g2 c, po_d_g2 g1 g2 c).

(** magnetic_form_factor.py l.32-58 calc_j0; the parameters are A, a, B, b, C, c, D *)
Record jpar := mkJ { j_A : R; j_a : R; j_B : R; j_b : R; j_C : R; j_c : R; j_D : R }.
Definition j_h (sthovl kappa : R) : R := Rsqr (sthovl / kappa).
Definition j_sum (j : jpar) (h : R) : R :=
  j_A j * exp (- j_a j * h) + j_B j * exp (- j_b j * h) + j_C j * exp (- j_c j * h) + j_D j.
Definition j_sum_d (j : jpar) (h : R) : R :=
  j_A j * exp (- j_a j * h) * j_a j + j_B j * exp (- j_b j * h) * j_b j + j_C j * exp (- j_c j * h) * j_c j.
Definition calc_j0 (s kappa : R) (j : jpar) : R := j_sum j (j_h s kappa).
Definition calc_j0_d_sthovl (s kappa : R) (j : jpar) : R := - 2 * (s / kappa) * j_sum_d j (j_h s kappa) / kappa.
Definition calc_j0_d_kappa (s kappa : R) (j : jpar) : R := 2 * j_h s kappa * j_sum_d j (j_h s kappa) / kappa.
(** l.60-91 calc_j2 *)
Definition calc_j2 (s kappa : R) (j : jpar) : R := j_sum j (j_h s kappa) * j_h s kappa.
Definition calc_j2_d_sthovl (s kappa : R) (j : jpar) : R :=
  - 2 * (s / kappa) * j_h s kappa * j_sum_d j (j_h s kappa) / kappa + j_sum j (j_h s kappa) / kappa.
Definition calc_j2_d_kappa (s kappa : R) (j : jpar) : R :=
  2 * j_h s kappa * j_h s kappa * j_sum_d j (j_h s kappa) / kappa - (s / kappa) * j_sum j (j_h s kappa) / kappa.
(** l.94-134 calc_form_factor *)
Definition calc_form_factor (only_orbital : bool) (s lande kappa : R) (j0 j2 : jpar) : R :=
  let orbital := (2 / lande - 1) * calc_j2 s kappa j2 in
  if only_orbital then orbital else calc_j0 s kappa j0 + orbital.
Definition calc_form_factor_d_sthovl (only_orbital : bool) (s lande kappa : R) (j0 j2 : jpar) : R :=
  if only_orbital then calc_j2_d_sthovl s kappa j2 * (2 / lande - 1)
  else calc_j0_d_sthovl s kappa j0 + calc_j2_d_sthovl s kappa j2 * (2 / lande - 1).
Definition calc_form_factor_d_kappa (only_orbital : bool) (s lande kappa : R) (j0 j2 : jpar) : R :=
  if only_orbital then calc_j2_d_kappa s kappa j2 * (2 / lande - 1)
  else calc_j0_d_kappa s kappa j0 + calc_j2_d_kappa s kappa j2 * (2 / lande - 1).
Definition calc_form_factor_d_lande (s lande kappa : R) (j2 : jpar) : R := - 2 * calc_j2 s kappa j2 / Rsqr lande.
