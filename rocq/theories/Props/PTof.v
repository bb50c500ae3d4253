(** Property theorems C85, C86 (powder_diffraction_tof.py, powder_diffraction_tof_zcode.py, peak areas of powder_diffraction_const_wavelength.py). *)
From Coq Require Import Reals List Lra.
From Coquelicot Require Import Coquelicot.
From Verif Require Import Spec.Special Model.Tof Model.Profile Proofs.TofP Proofs.TofP2.
Import ListNotations.
Open Scope R_scope.

(** C85.  The distance found for the time of a reflection is its distance (on the branch where the time grows with the distance). *)
Theorem C85_distance_of_time_partial : forall zero dtt1 dtt2 d, 0 < dtt1 -> dtt2 <= 0 -> 0 <= dtt1 + 2 * dtt2 * d ->
  calc_d_by_time (calc_time_thermal d zero dtt1 dtt2) zero dtt1 dtt2 = Some d.
Proof. exact d_of_time. Qed.
Print Assumptions C85_distance_of_time_partial.
(** Any distance returned has the time asked for. *)
Theorem C85_time_of_distance : forall time zero dtt1 dtt2 d, calc_d_by_time time zero dtt1 dtt2 = Some d -> calc_time_thermal d zero dtt1 dtt2 = time.
Proof. exact d_of_time_sound. Qed.
Print Assumptions C85_time_of_distance.
(** With dtt2 > 0 the other root is returned, a negative distance. *)
Theorem C85_distance_of_time_refuted : forall zero dtt1 dtt2 d, 0 < dtt1 -> 0 < dtt2 -> 0 < d ->
  exists d', calc_d_by_time (calc_time_thermal d zero dtt1 dtt2) zero dtt1 dtt2 = Some d' /\ d' = - d - dtt1 / dtt2 /\ d' < 0.
Proof. exact d_of_time_wrong_root. Qed.
Print Assumptions C85_distance_of_time_refuted.
Theorem C85_later_is_longer : forall zero dtt1 dtt2 d e, 0 < dtt1 -> 0 <= dtt1 + 2 * dtt2 * d -> 0 <= dtt1 + 2 * dtt2 * e ->
  d < e -> calc_time_thermal d zero dtt1 dtt2 < calc_time_thermal e zero dtt1 dtt2.
Proof. exact time_increasing. Qed.
Print Assumptions C85_later_is_longer.
(** The range of distances holds exactly the reflections whose time is measured. *)
Theorem C85_range_partial : forall zero dtt1 dtt2 d0 ds, 0 < dtt1 -> dtt2 <> 0 -> List.Forall (fun d => 0 <= dtt1 + 2 * dtt2 * d) (d0 :: ds) ->
  let time := fun d => calc_time_thermal d zero dtt1 dtt2 in
  exists lo hi, calc_d_min_max (time d0) (map time ds) zero dtt1 dtt2 = (Some lo, Some hi) /\
    forall d, 0 <= dtt1 + 2 * dtt2 * d -> (lo <= d <= hi <-> np_min (time d0) (map time ds) <= time d <= np_max (time d0) (map time ds)).
Proof. exact d_range. Qed.
Print Assumptions C85_range_partial.
(** [np_min], [np_max] are the least and the largest time. *)
Theorem C85_min_max : forall l x, (np_min x l <= x /\ List.Forall (fun y => np_min x l <= y) l) /\ (x <= np_max x l /\ List.Forall (fun y => y <= np_max x l) l).
Proof. exact (fun l x => conj (np_min_in l x) (np_max_in l x)). Qed.
Print Assumptions C85_min_max.
(** A diffractometer with dtt2 = 0: no range (0 / 0). *)
Theorem C85_range_refuted : forall t0 ts zero dtt1, calc_d_min_max t0 ts zero dtt1 0 = (None, None).
Proof. exact d_range_linear. Qed.
Print Assumptions C85_range_refuted.
(** Epithermal neutrons: the range computed for the time of the reflection d = 2 does not hold 2, whatever the crossover is. *)
Theorem C85_epithermal_range_refuted : forall width x_cross, let t := calc_time_epithermal 2 0 1 0 1 1 width x_cross in
  exists lo hi, calc_d_min_max_epithermal t [] 0 1 0 1 1 = Some (lo, hi) /\ hi < 2.
Proof. exact epithermal_range. Qed.
Print Assumptions C85_epithermal_range_refuted.
Example C85_case : 0 < 7000 /\ -3 <= 0 /\ 0 <= 7000 + 2 * -3 * 4 /\ List.Forall (fun d => 0 <= 7000 + 2 * -3 * d) [1; 2; 4] /\ -3 <> 0.
Proof. repeat split; try lra. repeat constructor; lra. Qed.

(** C86.  The peak of Jorgensen et al. is the convolution of two exponentials back to back with a normal distribution; area one, positive. *)
Theorem C86_convolution : forall alpha beta sigma x, 0 < alpha -> 0 < beta -> 0 < sigma ->
  back_to_back alpha beta (normal sigma) x (tof_Jorgensen alpha beta sigma x).
Proof. exact jorgensen_convolution. Qed.
Print Assumptions C86_convolution.
Theorem C86_area : forall alpha beta sigma, 0 < alpha -> 0 < beta -> 0 < sigma -> area (tof_Jorgensen alpha beta sigma) 1.
Proof. exact jorgensen_area. Qed.
Print Assumptions C86_area.
Theorem C86_positive : forall alpha beta sigma x, 0 < alpha -> 0 < beta -> 0 < tof_Jorgensen alpha beta sigma x.
Proof. exact jorgensen_positive. Qed.
Print Assumptions C86_positive.
(** The Gaussian part of the Z-code peak is the same function, mixed with weights r and 1 - r. *)
Theorem C86_zcode_same : forall alpha beta sigma x, 0 < sigma -> calc_e_beta_g x sigma alpha beta = tof_Jorgensen alpha beta sigma x.
Proof. exact zcode_is_jorgensen. Qed.
Print Assumptions C86_zcode_same.
Theorem C86_zcode_area : forall sigma alpha b0 b1 r, 0 < sigma -> 0 < alpha -> 0 < b0 -> 0 < b1 -> area (fun x => z_profile_g x sigma alpha b0 b1 r) 1.
Proof. exact z_profile_area. Qed.
Print Assumptions C86_zcode_area.
Theorem C86_zcode_normal : forall sigma x, 0 < sigma -> z_gaussian x sigma = normal sigma x.
Proof. exact z_gaussian_normal. Qed.
Print Assumptions C86_zcode_normal.
Theorem C86_zcode_gauss_area : forall sigma, 0 < sigma -> area (fun x => z_gaussian x sigma) 1.
Proof. exact z_gaussian_area. Qed.
Print Assumptions C86_zcode_gauss_area.
Theorem C86_zcode_lorentz_area : forall h, 0 < h -> area (fun x => z_lorentz x h) 1.
Proof. exact z_lorentz_area. Qed.
Print Assumptions C86_zcode_lorentz_area.
(** Constant wavelength: area one over the angle in degrees, for any mixing. *)
Theorem C86_gauss_area : forall h, 0 < h -> area (fun t => func_gauss_by_h_pv (t * PI / 180) h) 1.
Proof. exact gauss_area. Qed.
Print Assumptions C86_gauss_area.
Theorem C86_lorentz_area : forall h, 0 < h -> area (fun t => func_lorentz_by_h_pv (t * PI / 180) h) 1.
Proof. exact lorentz_area_deg. Qed.
Print Assumptions C86_lorentz_area.
Theorem C86_pseudo_voigt_area : forall eta h, 0 < h ->
  area (fun t => eta * func_lorentz_by_h_pv (t * PI / 180) h + (1 - eta) * func_gauss_by_h_pv (t * PI / 180) h) 1.
Proof. exact pseudo_voigt_area. Qed.
Print Assumptions C86_pseudo_voigt_area.
(** Width and mixing of the three implementations agree as functions of the widths (FWHM) ... *)
Theorem C86_width_same : forall h_g h_l, calc_hpv h_g h_l = calc_h_pv h_g h_l /\ z_h_com h_g h_l = calc_h_pv h_g h_l.
Proof. exact tof_width_same. Qed.
Print Assumptions C86_width_same.
Theorem C86_mixing_same : forall h_g h_l, calc_eta_tof h_g h_l = calc_eta h_l (calc_h_pv h_g h_l) /\ z_eta h_l (z_h_com h_g h_l) = calc_eta h_l (calc_h_pv h_g h_l).
Proof. exact tof_eta_same. Qed.
Print Assumptions C86_mixing_same.
(** ... but the pseudo-Voigt peak for time of flight is given the standard deviation in place of the width, so eta is always too large. *)
Theorem C86_tof_mixing_refuted : forall sigma gamma, 0 < sigma -> 0 < gamma -> z_eta gamma (z_h_com (z_h_g sigma) gamma) < calc_eta_tof sigma gamma.
Proof. exact tof_eta_overestimated. Qed.
Print Assumptions C86_tof_mixing_refuted.
Example C86_case : 0 < calc_alpha 1 2 (3/2) /\ 0 < calc_beta 1 2 (3/2) /\ 0 < calc_sigma 1 4 0 0 0 0.
Proof.
  unfold calc_alpha, calc_beta, calc_sigma. repeat split; try lra. apply sqrt_lt_R0. unfold Rsqr. rewrite Rabs_right; lra.
Qed.
