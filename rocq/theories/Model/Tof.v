(** Model of cryspy/A_functions_base/powder_diffraction_tof.py and powder_diffraction_tof_zcode.py: scalar kernels (one time,
    one reflection; broadcasting is not modelled).  Floats are reals; a NaN is None.  The Lorentzian parts (scipy.special.exp1 of a
    complex argument) are not modelled, nor is the replacement of an overflowing exponential by 1e200. *)
From Coq Require Import Reals List.
From Verif Require Import Spec.Special.
Import ListNotations.
Open Scope R_scope.

(** powder_diffraction_tof.py l.46-48 calc_time_for_thermal_neutrons_by_d *)
Definition calc_time_thermal (d zero dtt1 dtt2 : R) : R := zero + dtt1 * d + dtt2 * Rsqr d.
(** l.51-59 calc_d_by_time_for_thermal_neutrons; the square root of a negative number is NaN. *)
Definition calc_d_by_time (time zero dtt1 dtt2 : R) : option R :=
  let sq := Rsqr dtt1 - 4 * (zero - time) * dtt2 in
  if Rlt_dec dtt2 0 then (if Rlt_dec sq 0 then None else Some ((sqrt sq - dtt1) / (2 * dtt2)))
  else if Rlt_dec 0 dtt2 then (if Rlt_dec sq 0 then None else Some ((- sqrt sq - dtt1) / (2 * dtt2)))
  else (if Req_EM_T dtt1 0 then None else Some ((time - zero) / dtt1)).
(** numpy.min, numpy.max of a non-empty array *)
Definition np_min (x : R) (l : list R) : R := fold_left Rmin l x.
Definition np_max (x : R) (l : list R) : R := fold_left Rmax l x.
(** l.62-69 calc_d_min_max_by_time_thermal_neutrons: one end of the range, and both; division by zero gives NaN or infinity (None). *)
Definition d_end (t zero dtt1 dtt2 : R) : option R :=
  let sq := Rsqr dtt1 - 4 * dtt2 * (zero - t) in
  if Req_EM_T dtt2 0 then None else if Rlt_dec sq 0 then None else Some ((- dtt1 + sqrt sq) / (2 * dtt2)).
Definition calc_d_min_max (t0 : R) (ts : list R) (zero dtt1 dtt2 : R) : option R * option R :=
  (d_end (np_min t0 ts) zero dtt1 dtt2, d_end (np_max t0 ts) zero dtt1 dtt2).
(** l.38-43 calc_time_for_epithermal_neutrons_by_d *)
Definition calc_time_epithermal (d zero dtt1 zerot dtt1t dtt2t width x_cross : R) : R :=
  let time_e := zero + dtt1 * d in
  let time_t := zerot + dtt1t * d - dtt2t / d in
  let n_cross := 5/10 * erfc (width * (x_cross - 1 / d)) in
  n_cross * time_e + (1 - n_cross) * time_t.
(** l.71-79 calc_d_min_max_by_time_epithermal_neutrons *)
Definition calc_d_min_max_epithermal (t0 : R) (ts : list R) (zero dtt1 zerot dtt1t dtt2t : R) : option (R * R) :=
  match calc_d_min_max t0 ts zerot dtt1t dtt2t with
  | (Some a, Some b) => Some (Rmin a ((np_min t0 ts - zero) / dtt1), Rmax b ((np_max t0 ts - zero) / dtt1))
  | _ => None
  end.
(** l.82-96 calc_hpv_eta *)
Definition calc_hpv (h_g h_l : R) : R :=
  let h_g_2 := h_g ^ 2 in let h_l_2 := h_l ^ 2 in
  let h_g_3 := h_g_2 * h_g in let h_l_3 := h_l_2 * h_l in
  let h_g_4 := h_g_3 * h_g in let h_l_4 := h_l_3 * h_l in
  let h_g_5 := h_g_4 * h_g in let h_l_5 := h_l_4 * h_l in
  let c_2 := 269269/100000 in let c_3 := 242843/100000 in let c_4 := 447163/100000 in let c_5 := 7842/100000 in
  Rpower (h_g_5 + c_2 * h_g_4 * h_l + c_3 * h_g_3 * h_l_2 + c_4 * h_g_2 * h_l_3 + c_5 * h_g * h_l_4 + h_l_5) (2/10).
Definition calc_eta_tof (h_g h_l : R) : R :=
  let hh := h_l * 1 / calc_hpv h_g h_l in 136603/100000 * hh - 47719/100000 * hh ^ 2 + 11116/100000 * hh ^ 3.
(** l.165-200 calc_alpha, calc_beta, calc_sigma, calc_sigma_gamma *)
Definition calc_alpha (alpha0 alpha1 d : R) : R := alpha0 + alpha1 / d.
Definition calc_beta (beta0 beta1 d : R) : R := beta0 + beta1 / d ^ 4.
Definition calc_sigma (d sigma0 sigma1 sigma2 size_g strain_g : R) : R :=
  sqrt (Rabs ((sigma2 + size_g) * Rsqr (Rsqr d) + (sigma1 + strain_g) * Rsqr d + sigma0)).
Definition calc_gamma (d gamma0 gamma1 gamma2 size_l strain_l : R) : R := (gamma2 + size_l) * Rsqr d + (gamma1 + strain_l) * d + gamma0.
(** l.203-218 calc_y_z_u_v *)
Definition calc_y (alpha sigma delta : R) : R := alpha * sigma / sqrt 2 + delta / (sigma * sqrt 2).
Definition calc_z (beta sigma delta : R) : R := beta * sigma / sqrt 2 - delta / (sigma * sqrt 2).
Definition calc_u (alpha sigma delta : R) : R := 5/10 * Rsqr alpha * Rsqr sigma + delta * alpha.
Definition calc_v (beta sigma delta : R) : R := 5/10 * Rsqr beta * Rsqr sigma - delta * beta.
(** l.99-111 tof_Jorgensen, as a function of delta = time - time_hkl *)
Definition tof_Jorgensen (alpha beta sigma delta : R) : R :=
  let norm := 5/10 * alpha * beta / (alpha + beta) in
  norm * (exp (calc_u alpha sigma delta) * erfc (calc_y alpha sigma delta) + exp (calc_v beta sigma delta) * erfc (calc_z beta sigma delta)).

(** powder_diffraction_tof_zcode.py l.5-7, l.36-65 calc_n, calc_u, calc_v, calc_y, calc_z, calc_e_beta_g *)
Definition z_n (alpha beta : R) : R := 5/10 * alpha * beta / (alpha + beta).
Definition z_u (delta sigma alpha : R) : R := 5/10 * alpha * (alpha * Rsqr sigma + 2 * delta).
Definition z_v (delta sigma beta : R) : R := 5/10 * beta * (beta * Rsqr sigma - 2 * delta).
Definition z_y (delta sigma alpha : R) : R := (alpha * Rsqr sigma + delta) / (sigma * sqrt 2).
Definition z_z (delta sigma beta : R) : R := (beta * Rsqr sigma - delta) / (sigma * sqrt 2).
Definition calc_e_beta_g (delta sigma alpha beta : R) : R :=
  z_n alpha beta * (exp (z_u delta sigma alpha) * erfc (z_y delta sigma alpha) + exp (z_v delta sigma beta) * erfc (z_z delta sigma beta)).
(** l.9-34 calc_eta, calc_h_com, calc_h_g, calc_gaussian, calc_lorentz *)
Definition z_eta (h_l h_com : R) : R := let x := h_l / h_com in 136603/100000 * x - 47719/100000 * Rsqr x + 11116/100000 * x ^ 3.
Definition z_h_com (h_g h_l : R) : R :=
  Rpower (h_g ^ 5 + 269269/100000 * h_g ^ 4 * h_l + 242843/100000 * h_g ^ 3 * Rsqr h_l + 447163/100000 * Rsqr h_g * h_l ^ 3
          + 7842/100000 * h_g * h_l ^ 4 + h_l ^ 5) (2/10).
Definition z_h_g (sigma : R) : R := sqrt (8 * ln 2) * sigma.
Definition z_gaussian (delta sigma : R) : R := exp (- (5/10) * Rsqr (delta / sigma)) / (sqrt (2 * PI) * sigma).
Definition z_lorentz (delta h_l : R) : R := h_l / (2 * PI * (Rsqr delta + Rsqr (5/10 * h_l))).
(** l.111-113, l.154 calc_sigma_square and its square root; l.116-118 calc_h_l; l.121-125 calc_r_0; l.128-139 calc_alpha_prime, calc_beta_0_prime, calc_beta_1_prime *)
Definition z_sigma (d s0 s1 s2 : R) : R := sqrt (s0 + s1 * Rsqr d + s2 * d ^ 4).
Definition z_h_l (d g0 g1 g2 : R) : R := g0 + g1 * d + g2 * Rsqr d.
Definition z_r_0 (d r1 r2 r3 : R) : R := r1 * exp (- r2 * Rpower d (- r3)).
Definition z_alpha_prime (d a1 a2 : R) : R := 1 / (a1 + a2 / d).
Definition z_beta_0_prime (d b0 b1 : R) : R := b0 + b1 / d.
Definition z_beta_1_prime (d b : R) : R := b.
(** l.95-106 calc_profile, its Gaussian part (the coefficient of 1 - eta); the part with calc_e_beta_l (l.67-93) is not modelled. *)
Definition z_profile_g (delta sigma alpha beta_0 beta_1 r_0 : R) : R :=
  r_0 * calc_e_beta_g delta sigma alpha beta_0 + (1 - r_0) * calc_e_beta_g delta sigma alpha beta_1.
(** l.142-168 calc_profile_by_zcode_parameters, the same part: alpha, beta_0 and beta_1 are 1 / (alpha_prime h_com), 1 / (beta'_prime h_com). *)
Definition z_profile_by_parameters_g (delta d s0 s1 s2 g0 g1 g2 r1 r2 r3 a1 a2 b00 b01 b10 : R) : R :=
  let r_0 := z_r_0 d r1 r2 r3 in
  let sigma := z_sigma d s0 s1 s2 in
  let h_com := z_h_com (z_h_g sigma) (z_h_l d g0 g1 g2) in
  z_profile_g delta sigma (1 / (z_alpha_prime d a1 a2 * h_com)) (1 / (z_beta_0_prime d b00 b01 * h_com)) (1 / (z_beta_1_prime d b10 * h_com)) r_0.
