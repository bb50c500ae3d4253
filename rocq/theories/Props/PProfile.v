(** Property theorems C44-C46 (powder_diffraction_const_wavelength.py). *)
From Coq Require Import Reals Lra.
From Coquelicot Require Import Coquelicot.
From Verif Require Import Model.Profile Proofs.ProfileP Proofs.ProfileDerivP.
Open Scope R_scope.

(** Both peak shapes are positive, even, fall off monotonically with the distance from the peak (so are maximal at
    it) and have half their maximum at half the width h (in degrees). *)
Theorem C44_gauss_shape : forall h, 0 < h ->
  (forall z, 0 < func_gauss_by_h_pv z h) /\ (forall z, func_gauss_by_h_pv (- z) h = func_gauss_by_h_pv z h) /\
  (forall z1 z2, Rabs z1 <= Rabs z2 -> func_gauss_by_h_pv z2 h <= func_gauss_by_h_pv z1 h) /\
  func_gauss_by_h_pv (h / 2 * PI / 180) h = func_gauss_by_h_pv 0 h / 2.
Proof. exact (fun h H => conj (fun z => gauss_pos z h H) (conj (fun z => gauss_even z h) (conj (fun a b => gauss_decreasing a b h H) (gauss_half h H)))). Qed.
Print Assumptions C44_gauss_shape.
Theorem C44_lorentz_shape : forall h, 0 < h ->
  (forall z, 0 < func_lorentz_by_h_pv z h) /\ (forall z, func_lorentz_by_h_pv (- z) h = func_lorentz_by_h_pv z h) /\
  (forall z1 z2, Rabs z1 <= Rabs z2 -> func_lorentz_by_h_pv z2 h <= func_lorentz_by_h_pv z1 h) /\
  func_lorentz_by_h_pv (h / 2 * PI / 180) h = func_lorentz_by_h_pv 0 h / 2.
Proof. exact (fun h H => conj (fun z => lorentz_pos z h H) (conj (fun z => lorentz_even z h) (conj (fun a b => lorentz_decreasing a b h H) (lorentz_half h H)))). Qed.
Print Assumptions C44_lorentz_shape.
(** The Lorentzian has unit area when integrated over the angle in degrees. *)
Theorem C44_lorentz_normalised : forall h, 0 < h ->
  is_lim (fun T => RInt (fun t => func_lorentz_by_h_pv (t * PI / 180) h) (- T) T) p_infty 1.
Proof. exact lorentz_normalised. Qed.
Print Assumptions C44_lorentz_normalised.
Theorem C44_width_bounds : forall h_g h_l, 0 < h_g -> 0 <= h_l ->
  h_g <= calc_h_pv h_g h_l /\ h_l <= calc_h_pv h_g h_l /\ calc_h_pv h_g h_l <= h_g + h_l.
Proof. exact h_pv_bounds. Qed.
Print Assumptions C44_width_bounds.
Theorem C44_eta_range : forall h_g h_l, 0 < h_g -> 0 <= h_l -> 0 <= calc_eta h_l (calc_h_pv h_g h_l) <= 1.
Proof. exact eta_range_hpv. Qed.
Print Assumptions C44_eta_range.
(** The Gaussian width is positive whatever u, v, w, i_g are. *)
Theorem C44_gauss_width_positive : forall p ttheta, 0 < calc_h_g p ttheta.
Proof. exact h_g_pos. Qed.
Print Assumptions C44_gauss_width_positive.
(** The profile without asymmetry is positive. *)
Theorem C44_profile_positive : forall ttheta ttheta_hkl p x y, 0 <= calc_h_l x y ttheta ->
  0 < calc_profile_pseudo_voight ttheta ttheta_hkl p x y (mkA 0 0 0 0).
Proof. exact profile_pos. Qed.
Print Assumptions C44_profile_positive.
(** It is not exactly symmetric about the reflection: the widths are those of the measured angle. *)
Theorem C44_profile_symmetric_refuted : exists p t0 d, 0 < d /\
  calc_profile_pseudo_voight (t0 + d) t0 p 0 0 (mkA 0 0 0 0) <> calc_profile_pseudo_voight (t0 - d) t0 p 0 0 (mkA 0 0 0 0).
Proof. exact profile_asym_refuted. Qed.
Print Assumptions C44_profile_symmetric_refuted.
Example C44_case : 0 <= calc_h_l (1/10) (2/10) (PI/2) /\ 0 < calc_h_g (mkW 1 (-1) 2 0) (PI/2).
Proof.
  split; [|apply h_g_pos]. unfold calc_h_l. replace (5/10 * (PI/2)) with (PI/4) by field. rewrite tan_PI4, cos_PI4.
  assert (0 < sqrt 2) by (apply sqrt_lt_R0; lra). assert (0 < 1 / (1 / sqrt 2)) by (repeat apply Rdiv_lt_0_compat; lra). lra.
Qed.

Theorem C45_asymmetry : forall z ttheta p,
  is_derive (fun z => func_asymmetry_f_a z) z (func_asymmetry_f_a_dder z) /\
  is_derive (fun z => func_asymmetry_f_b z) z (func_asymmetry_f_b_dder z) /\
  is_derive (fun z => calc_asymmetry_factor z ttheta p) z (calc_asymmetry_factor_dder_z z ttheta p).
Proof. exact (fun z t p => conj (f_a_d z) (conj (f_b_d z) (asym_dz z t p))). Qed.
Print Assumptions C45_asymmetry.
Theorem C45_asymmetry_parameters : forall z t p q r s,
  let d := calc_asymmetry_factor_dder_p z t in
  is_derive (fun v => calc_asymmetry_factor z t (mkA v q r s)) p (p_1 d) /\ is_derive (fun v => calc_asymmetry_factor z t (mkA p v r s)) q (p_2 d) /\
  is_derive (fun v => calc_asymmetry_factor z t (mkA p q v s)) r (p_3 d) /\ is_derive (fun v => calc_asymmetry_factor z t (mkA p q r v)) s (p_4 d).
Proof. exact asym_dp. Qed.
Print Assumptions C45_asymmetry_parameters.
(** Lorentz factor: right for neutrons (k = 0), wrong otherwise. *)
Theorem C45_lorentz_factor_partial : forall t cthm, sin ((5/10) * t) <> 0 -> sin t <> 0 ->
  is_derive (fun t => calc_lorentz_factor t 0 cthm) t (calc_lorentz_factor_dder t 0 cthm).
Proof. exact lorentz_factor_d. Qed.
Print Assumptions C45_lorentz_factor_partial.
Theorem C45_lorentz_factor_refuted : exists t k cthm d, 0 < t < PI /\ 0 < k < 1 /\
  is_derive (fun t => calc_lorentz_factor t k cthm) t d /\ d <> calc_lorentz_factor_dder t k cthm.
Proof. exact lorentz_factor_refuted. Qed.
Print Assumptions C45_lorentz_factor_refuted.
Theorem C45_gauss_width : forall z h, 0 < h -> is_derive (fun h => func_gauss_by_h_pv z h) h (func_gauss_by_h_pv_dder_h_pv z h).
Proof. exact gauss_dh. Qed.
Print Assumptions C45_gauss_width.
(** The derivative by the position misses the factor 4 ln 2 / h^2. *)
Theorem C45_gauss_position_refuted : exists z h d, 0 < h /\ is_derive (fun z => func_gauss_by_h_pv z h) z d /\ d <> func_gauss_by_h_pv_dder_z z h.
Proof. exact gauss_dz_refuted. Qed.
Print Assumptions C45_gauss_position_refuted.
Theorem C45_gauss_position_partial : forall z h, 0 < h ->
  is_derive (fun z => func_gauss_by_h_pv z h) z (4 * ln 2 * Rsqr (1 / h) * func_gauss_by_h_pv_dder_z z h).
Proof. exact gauss_true_dz. Qed.
Print Assumptions C45_gauss_position_partial.
Theorem C45_lorentz_position : forall z h, 0 < h -> is_derive (fun z => func_lorentz_by_h_pv z h) z (func_lorentz_by_h_pv_dder_z z h).
Proof. exact lorentz_dz. Qed.
Print Assumptions C45_lorentz_position.
(** The derivative of the Lorentzian by its width is wrong (h used for h^2). *)
Theorem C45_lorentz_width_refuted : exists z h d, 0 < h /\ is_derive (fun h => func_lorentz_by_h_pv z h) h d /\ d <> func_lorentz_by_h_pv_dder_h_pv z h.
Proof. exact lorentz_dh_refuted. Qed.
Print Assumptions C45_lorentz_width_refuted.
(** h_g by u, v, w, i_g (k = 0..3), where the protection against negative values does not act; where it acts the
    returned derivative is wrong. *)
Theorem C45_h_g_partial : forall p t k, eps64 < h_g_sq p t -> is_derive (fun v => calc_h_g (wset p k v) t) (wget p k) (wget (calc_h_g_dder p t) k).
Proof. exact h_g_d. Qed.
Print Assumptions C45_h_g_partial.
Theorem C45_h_g_clamp_refuted : exists p t d, is_derive (fun v => calc_h_g (wset p 2 v) t) (wget p 2) d /\ d <> wget (calc_h_g_dder p t) 2.
Proof. exact h_g_clamp_refuted. Qed.
Print Assumptions C45_h_g_clamp_refuted.
Theorem C45_h_l : forall x y t, is_derive (fun x => calc_h_l x y t) x (calc_h_l_dder_x t) /\ is_derive (fun y => calc_h_l x y t) y (calc_h_l_dder_y t).
Proof. exact h_l_d. Qed.
Print Assumptions C45_h_l.
(** h_pv: the returned derivatives have the wrong sign. *)
Theorem C45_h_pv_refuted : exists g l d d', 0 < g /\ 0 < l /\ is_derive (fun g => calc_h_pv g l) g d /\ d <> calc_h_pv_dder_h_g g l /\
  is_derive (fun l => calc_h_pv g l) l d' /\ d' <> calc_h_pv_dder_h_l g l.
Proof. exact h_pv_d_refuted. Qed.
Print Assumptions C45_h_pv_refuted.
Theorem C45_h_pv_partial : forall g l, 0 < g -> 0 <= l ->
  is_derive (fun g => calc_h_pv g l) g (- calc_h_pv_dder_h_g g l) /\ is_derive (fun l => calc_h_pv g l) l (- calc_h_pv_dder_h_l g l).
Proof. exact h_pv_true_d. Qed.
Print Assumptions C45_h_pv_partial.
Theorem C45_eta : forall l h, h <> 0 -> is_derive (fun h => calc_eta l h) h (calc_eta_dder_h_pv l h) /\ is_derive (fun l => calc_eta l h) l (calc_eta_dder_h_l l h).
Proof. exact eta_d. Qed.
Print Assumptions C45_eta.
Theorem C45_coeff_phi : forall phi p, is_derive (fun p => calc_coeff_phi phi p) p (calc_coeff_phi_dder phi).
Proof. exact coeff_phi_d. Qed.
Print Assumptions C45_coeff_phi.
Example C45_case : eps64 < h_g_sq (mkW 0 0 1 0) 1 /\ sin ((5/10) * (PI / 2)) <> 0 /\ sin (PI / 2) <> 0.
Proof.
  split; [|split].
  - unfold h_g_sq, eps64. cbn [w_u w_v w_w w_ig]. assert (/ 2 ^ 52 < 1) by (rewrite <- Rinv_1; apply Rinv_lt_contravar; lra). lra.
  - replace (5/10 * (PI / 2)) with (PI / 4) by field. exact sin_quarter.
  - rewrite sin_PI2. lra.
Qed.

(** The direction of the scattered beam, in both descriptions: (cos 2theta, sin 2theta cos phi, sin 2theta sin phi) =
    (cos nu cos gamma, cos nu sin gamma, sin nu). *)
Theorem C46_same_direction : forall t p, 0 <= t <= PI ->
  let gn := calc_gamma_nu_by_ttheta_phi t p in
  cos (snd gn) * cos (fst gn) = cos t /\ sin (fst gn) * cos (snd gn) = sin t * cos p /\ sin (snd gn) = sin t * sin p.
Proof. exact same_direction_1. Qed.
Print Assumptions C46_same_direction.
Theorem C46_same_direction_back : forall g n,
  let tp := calc_ttheta_phi_by_gamma_nu g n in
  cos (fst tp) = cos n * cos g /\ sin (fst tp) * cos (snd tp) = sin g * cos n /\ sin (fst tp) * sin (snd tp) = sin n.
Proof. exact same_direction_2. Qed.
Print Assumptions C46_same_direction_back.
Theorem C46_round_trip : forall t p, 0 < t < PI -> - PI < p <= PI ->
  let gn := calc_gamma_nu_by_ttheta_phi t p in calc_ttheta_phi_by_gamma_nu (fst gn) (snd gn) = (t, p).
Proof. exact round_trip_1. Qed.
Print Assumptions C46_round_trip.
Theorem C46_round_trip_back : forall g n, - PI < g <= PI -> - (PI / 2) < n < PI / 2 ->
  let tp := calc_ttheta_phi_by_gamma_nu g n in calc_gamma_nu_by_ttheta_phi (fst tp) (snd tp) = (g, n).
Proof. exact round_trip_2. Qed.
Print Assumptions C46_round_trip_back.
Example C46_case : 0 < PI / 3 < PI /\ - PI < - (PI / 2) <= PI /\ calc_ttheta_phi_by_gamma_nu 0 0 = (0, 0).
Proof.
  pose proof PI_RGT_0. repeat split; try lra. unfold calc_ttheta_phi_by_gamma_nu. rewrite sin_0, cos_0, Rmult_1_r, acos_1. f_equal.
  unfold arctan2. rewrite Rmult_1_r. destruct (Rlt_dec 0 0); lra.
Qed.
