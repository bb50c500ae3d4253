(** Model of cryspy/A_functions_base/powder_diffraction_const_wavelength.py: scalar kernels (one measured angle,
    one reflection; expand_dims/broadcasting is not modelled).  Floats are reals; numpy.power(x, p) is Rpower for
    the positive bases used here; numpy.finfo(float).eps = 2^-52. *)
From Coq Require Import Reals.
Open Scope R_scope.

(** l.6-21 calc_lorentz_factor *)
Definition calc_lorentz_factor (ttheta k cthm : R) : R :=
  let hh := 1 - k + k * cthm * Rsqr (cos ttheta) in
  hh / (sin ((5/10) * ttheta) * sin ttheta).
Definition calc_lorentz_factor_dder (ttheta k cthm : R) : R :=
  let res := calc_lorentz_factor ttheta k cthm in
  - Rsqr res * ((5/10) * cos ((5/10) * ttheta) * sin ttheta + sin ((5/10) * ttheta) * cos ttheta).
(** l.24-31 func_asymmetry_f_a *)
Definition func_asymmetry_f_a (z : R) : R := 2 * z * exp (- Rsqr z).
Definition func_asymmetry_f_a_dder (z : R) : R := 2 * (1 - 2 * Rsqr z) * exp (- Rsqr z).
(** l.34-42 func_asymmetry_f_b *)
Definition func_asymmetry_f_b (z : R) : R := let f_a := func_asymmetry_f_a z in 2 * (2 * Rsqr z - 3) * f_a.
Definition func_asymmetry_f_b_dder (z : R) : R :=
  let f_a := func_asymmetry_f_a z in 8 * z * f_a + 2 * (2 * Rsqr z - 3) * func_asymmetry_f_a_dder z.
(** l.45-71 calc_asymmetry_factor *)
Record asym := mkA { p_1 : R; p_2 : R; p_3 : R; p_4 : R }.
Definition calc_asymmetry_factor (z ttheta : R) (p : asym) : R :=
  let f_a := func_asymmetry_f_a z in let f_b := func_asymmetry_f_b z in
  let inv_tan_th := 1 / tan ((5/10) * ttheta) in let inv_tan_tth := 1 / tan ttheta in
  1 + (p_1 p * f_a + p_2 p * f_b) * inv_tan_th + (p_3 p * f_a + p_4 p * f_b) * inv_tan_tth.
Definition calc_asymmetry_factor_dder_z (z ttheta : R) (p : asym) : R :=
  let inv_tan_th := 1 / tan ((5/10) * ttheta) in let inv_tan_tth := 1 / tan ttheta in
  (p_1 p * func_asymmetry_f_a_dder z + p_2 p * func_asymmetry_f_b_dder z) * inv_tan_th +
  (p_3 p * func_asymmetry_f_a_dder z + p_4 p * func_asymmetry_f_b_dder z) * inv_tan_tth.
(** derivatives with respect to p_1 .. p_4, as a record *)
Definition calc_asymmetry_factor_dder_p (z ttheta : R) : asym :=
  let f_a := func_asymmetry_f_a z in let f_b := func_asymmetry_f_b z in
  let inv_tan_th := 1 / tan ((5/10) * ttheta) in let inv_tan_tth := 1 / tan ttheta in
  mkA (f_a * inv_tan_th) (f_b * inv_tan_th) (f_a * inv_tan_tth) (f_b * inv_tan_tth).
(** l.74-90 func_gauss_by_h_pv *)
Definition func_gauss_by_h_pv (z h_pv : R) : R :=
  let inv_h_pv := 1 / h_pv in let inv_h_pv_sq := Rsqr inv_h_pv in
  let z_deg := z * 180 / PI in let z_deg_sq := Rsqr z_deg in
  let a_g := 2 * inv_h_pv * sqrt (ln 2 / PI) in
  let b_g := 4 * ln 2 * inv_h_pv_sq in
  a_g * exp (- b_g * z_deg_sq).
Definition func_gauss_by_h_pv_dder_z (z h_pv : R) : R :=
  let z_deg := z * 180 / PI in let res := func_gauss_by_h_pv z h_pv in (-2) * z_deg * res * 180 / PI.
Definition func_gauss_by_h_pv_dder_h_pv (z h_pv : R) : R :=
  let inv_h_pv := 1 / h_pv in let inv_h_pv_sq := Rsqr inv_h_pv in
  let z_deg := z * 180 / PI in let z_deg_sq := Rsqr z_deg in
  let b_g := 4 * ln 2 * inv_h_pv_sq in let res := func_gauss_by_h_pv z h_pv in
  ((-1) + 2 * b_g * z_deg_sq) * res * inv_h_pv.
(** l.92-110 func_lorentz_by_h_pv *)
Definition func_lorentz_by_h_pv (z h_pv : R) : R :=
  let inv_h_pv := 1 / h_pv in let inv_h_pv_sq := Rsqr inv_h_pv in
  let z_deg := z * 180 / PI in let c_a := 2 / PI in
  let a_l := c_a * inv_h_pv in let b_l := 4 * inv_h_pv_sq in let z_deg_sq := Rsqr z_deg in
  a_l / (1 + b_l * z_deg_sq).
Definition func_lorentz_by_h_pv_dder_z (z h_pv : R) : R :=
  let inv_h_pv := 1 / h_pv in let inv_h_pv_sq := Rsqr inv_h_pv in
  let z_deg := z * 180 / PI in let b_l := 4 * inv_h_pv_sq in let z_deg_sq := Rsqr z_deg in
  let res := func_lorentz_by_h_pv z h_pv in
  (-2) * z_deg * b_l * res / (1 + b_l * z_deg_sq) * 180 / PI.
Definition func_lorentz_by_h_pv_dder_h_pv (z h_pv : R) : R :=
  let z_deg := z * 180 / PI in let c_a := 2 / PI in let z_deg_sq := Rsqr z_deg in
  (c_a * (h_pv + 4 * z_deg_sq) - c_a * h_pv) / Rsqr (h_pv + 4 * z_deg_sq).
(** l.112-133 calc_h_g; the width parameters *)
Record width := mkW { w_u : R; w_v : R; w_w : R; w_ig : R }.
Definition eps64 : R := / 2 ^ 52.
Definition h_g_sq (p : width) (ttheta : R) : R :=
  let tan_th := tan ((5/10) * ttheta) in let tan_th_sq := Rsqr tan_th in
  let inv_c_th_sq := 1 / Rsqr (cos ((5/10) * ttheta)) in
  w_u p * tan_th_sq + w_v p * tan_th + w_w p + w_ig p * inv_c_th_sq.
Definition calc_h_g (p : width) (ttheta : R) : R :=
  let hh := h_g_sq p ttheta in
  let hh := if Rlt_dec hh eps64 then eps64 else hh in
  sqrt hh.
(** derivatives with respect to u, v, w, i_g *)
Definition calc_h_g_dder (p : width) (ttheta : R) : width :=
  let res := calc_h_g p ttheta in
  let tan_th := tan ((5/10) * ttheta) in let tan_th_sq := Rsqr tan_th in
  let inv_c_th_sq := 1 / Rsqr (cos ((5/10) * ttheta)) in
  mkW ((5/10) * tan_th_sq / res) ((5/10) * tan_th / res) ((5/10) / res) ((5/10) * inv_c_th_sq / res).
(** l.135-148 calc_h_l *)
Definition calc_h_l (x y ttheta : R) : R :=
  let tan_th := tan ((5/10) * ttheta) in let inv_c_th := 1 / cos ((5/10) * ttheta) in x * tan_th + y * inv_c_th.
Definition calc_h_l_dder_x (ttheta : R) : R := tan ((5/10) * ttheta).
Definition calc_h_l_dder_y (ttheta : R) : R := 1 / cos ((5/10) * ttheta).
(** l.150-171 calc_h_pv *)
Definition h_pv_5 (h_g h_l : R) : R :=
  let h_g_2 := Rsqr h_g in let h_l_2 := Rsqr h_l in
  let h_g_3 := h_g_2 * h_g in let h_l_3 := h_l_2 * h_l in
  let h_g_4 := Rsqr h_g_2 in let h_l_4 := Rsqr h_l_2 in
  let h_g_5 := h_g_4 * h_g in let h_l_5 := h_l_4 * h_l in
  let c_2 := 269269/100000 in let c_3 := 242843/100000 in let c_4 := 447163/100000 in let c_5 := 7842/100000 in
  h_g_5 + c_2 * h_g_4 * h_l + c_3 * h_g_3 * h_l_2 + c_4 * h_g_2 * h_l_3 + c_5 * h_g * h_l_4 + h_l_5.
Definition calc_h_pv (h_g h_l : R) : R := Rpower (h_pv_5 h_g h_l) (2/10).
Definition calc_h_pv_dder_h_g (h_g h_l : R) : R :=
  let h_g_2 := Rsqr h_g in let h_l_2 := Rsqr h_l in
  let h_g_3 := h_g_2 * h_g in let h_l_3 := h_l_2 * h_l in
  let h_g_4 := Rsqr h_g_2 in let h_l_4 := Rsqr h_l_2 in
  let c_2 := 269269/100000 in let c_3 := 242843/100000 in let c_4 := 447163/100000 in let c_5 := 7842/100000 in
  let c_help := - (2/10) * Rpower (h_pv_5 h_g h_l) (- (8/10)) in
  c_help * (5 * h_g_4 + 4 * c_2 * h_g_3 * h_l + 3 * c_3 * h_g_2 * h_l_2 + 2 * c_4 * h_g * h_l_3 + c_5 * h_l_4).
Definition calc_h_pv_dder_h_l (h_g h_l : R) : R :=
  let h_g_2 := Rsqr h_g in let h_l_2 := Rsqr h_l in
  let h_g_3 := h_g_2 * h_g in let h_l_3 := h_l_2 * h_l in
  let h_g_4 := Rsqr h_g_2 in let h_l_4 := Rsqr h_l_2 in
  let c_2 := 269269/100000 in let c_3 := 242843/100000 in let c_4 := 447163/100000 in let c_5 := 7842/100000 in
  let c_help := - (2/10) * Rpower (h_pv_5 h_g h_l) (- (8/10)) in
  c_help * (c_2 * h_g_4 + 2 * c_3 * h_g_3 * h_l + 3 * c_4 * h_g_2 * h_l_2 + 4 * c_5 * h_g * h_l_3 + 5 * h_l_4).
(** l.173-192 calc_eta *)
Definition calc_eta (h_l h_pv : R) : R :=
  let c_1 := 136603/100000 in let c_2 := - (47719/100000) in let c_3 := 11116/100000 in
  let rel := h_l / h_pv in let rel_sq := Rsqr rel in c_1 * rel + c_2 * rel_sq + c_3 * rel_sq * rel.
Definition calc_eta_dder_h_pv (h_l h_pv : R) : R :=
  let c_1 := 136603/100000 in let c_2 := - (47719/100000) in let c_3 := 11116/100000 in
  let rel := h_l / h_pv in let rel_sq := Rsqr rel in
  let c_help := c_1 + 2 * c_2 * rel + 3 * c_3 * rel_sq in (-1) * c_help * rel / h_pv.
Definition calc_eta_dder_h_l (h_l h_pv : R) : R :=
  let c_1 := 136603/100000 in let c_2 := - (47719/100000) in let c_3 := 11116/100000 in
  let rel := h_l / h_pv in let rel_sq := Rsqr rel in
  let c_help := c_1 + 2 * c_2 * rel + 3 * c_3 * rel_sq in c_help / h_pv.
(** l.195-236 calc_profile_pseudo_voight (value at one angle for one reflection; dder is always empty). *)
Definition calc_profile_pseudo_voight (ttheta ttheta_hkl : R) (p : width) (x y : R) (a : asym) : R :=
  let delta_angle := ttheta - ttheta_hkl in
  let h_g := calc_h_g p ttheta in let h_l := calc_h_l x y ttheta in
  let h_pv := calc_h_pv h_g h_l in let eta := calc_eta h_l h_pv in
  let z := (delta_angle * 180 / PI) / h_pv in
  let af := calc_asymmetry_factor z ttheta a in
  let profile_l := func_lorentz_by_h_pv delta_angle h_pv in
  let profile_g := func_gauss_by_h_pv delta_angle h_pv in
  (eta * profile_l + (1 - eta) * profile_g) * af.
(** numpy.arctan2 *)
Definition arctan2 (y x : R) : R :=
  if Rlt_dec 0 x then atan (y / x)
  else if Rlt_dec x 0 then (if Rle_dec 0 y then atan (y / x) + PI else atan (y / x) - PI)
  else if Rlt_dec 0 y then PI / 2 else if Rlt_dec y 0 then - (PI / 2) else 0.
(** l.238-250 calc_gamma_nu_by_ttheta_phi *)
Definition calc_gamma_nu_by_ttheta_phi (ttheta phi : R) : R * R :=
  let s_tth := sin ttheta in let c_tth := cos ttheta in let s_phi := sin phi in let c_phi := cos phi in
  (arctan2 (s_tth * c_phi) c_tth, asin (s_tth * s_phi)).
(** l.252-264 calc_ttheta_phi_by_gamma_nu *)
Definition calc_ttheta_phi_by_gamma_nu (gamma nu : R) : R * R :=
  let s_ga := sin gamma in let c_ga := cos gamma in let s_nu := sin nu in let c_nu := cos nu in
  (acos (c_nu * c_ga), arctan2 s_nu (s_ga * c_nu)).
(** l.311-316 calc_coeff_phi *)
Definition calc_coeff_phi (phi p_phi : R) : R := (5/10) * (p_phi + 1) - cos phi * (p_phi - 1) * (5/10).
Definition calc_coeff_phi_dder (phi : R) : R := (5/10) - (5/10) * cos phi.
