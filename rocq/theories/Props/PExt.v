(** Property theorems C47, C48 (extinction.py). *)
From Coq Require Import Reals Lra.
From Coquelicot Require Import Coquelicot.
From Verif Require Import Spec.Intens Model.FlipRatio Model.Extinction Proofs.ExtinctionP Proofs.ExtinctionDerivP Proofs.ExtinctionFlipP.
Open Scope R_scope.

(** [physical f_sq c]: F^2, radius, mosaicity >= 0, volume and wavelength > 0, cosine in [-1, 1]. *)

(** The Lorentz correction is a number in (0, 1] for every physical input. *)
Theorem C47_lorentz_range : forall f_sq c, physical f_sq c ->
  exists y, calc_extinction_sphere_secondary_lorentz f_sq c = Some y /\ 0 < y <= 1.
Proof. exact lorentz_range. Qed.
Print Assumptions C47_lorentz_range.
(** The primary correction needs cos(2 theta) >= -0.67. *)
Theorem C47_primary_range_partial : forall f_sq c, 0 <= f_sq -> - (67/100) <= x_cos c <= 1 ->
  exists y, calc_extinction_sphere_primary f_sq c = Some y /\ 0 < y <= 1.
Proof. exact prim_range. Qed.
Print Assumptions C47_primary_range_partial.
(** Otherwise it may be NaN. *)
Theorem C47_primary_range_refuted : exists f_sq c, physical f_sq c /\ calc_extinction_sphere_primary f_sq c = None.
Proof. exact prim_nan. Qed.
Print Assumptions C47_primary_range_refuted.
(** The Gauss correction needs 1 + B x > 0, which cos(2 theta) <= 0.8 guarantees. *)
Theorem C47_gauss_range_partial : forall f_sq c, physical f_sq c -> x_cos c <= 8/10 -> 0 < calc_extinction_sphere_secondary_gauss f_sq c <= 1.
Proof. exact gauss_range8. Qed.
Print Assumptions C47_gauss_range_partial.
Theorem C47_gauss_range_low_angle_partial : forall f_sq c, physical f_sq c -> 0 < calc_extinction_sphere_secondary_gauss f_sq c <= 1 \/
  1 + gauss_B (x_cos c) * sec_x (gauss_term c) f_sq c <= 0.
Proof. exact gauss_range. Qed.
Print Assumptions C47_gauss_range_low_angle_partial.
(** At lower angles a stronger reflection may get no correction at all (a NaN is replaced by 1) although a weaker one does. *)
Theorem C47_gauss_monotone_refuted : exists f1 f2 c, physical f1 c /\ f1 < f2 /\ calc_extinction_sphere_secondary_gauss f1 c < 1 /\
  calc_extinction_sphere_secondary_gauss f2 c = 1.
Proof. exact gauss_nan. Qed.
Print Assumptions C47_gauss_monotone_refuted.
Theorem C47_sphere_range_partial : forall m f_sq c, physical f_sq c -> - (67/100) <= x_cos c -> (m = M_gauss -> x_cos c <= 8/10) ->
  exists y, calc_extinction_sphere m f_sq c = Some y /\ 0 < y <= 1.
Proof. exact sphere_range. Qed.
Print Assumptions C47_sphere_range_partial.
Theorem C47_no_crystal : forall m f_sq mo v c w, v <> 0 -> calc_extinction_sphere m f_sq (mkX 0 mo v c w) = Some 1.
Proof. exact zero_radius. Qed.
Print Assumptions C47_no_crystal.
(** The factor falls with F^2 ... *)
Theorem C47_decreasing_partial : forall m f1 f2 c, physical f1 c -> f1 <= f2 -> - (67/100) <= x_cos c -> (m = M_gauss -> x_cos c <= 8/10) ->
  val (calc_extinction_sphere m f2 c) <= val (calc_extinction_sphere m f1 c).
Proof. exact sphere_anti. Qed.
Print Assumptions C47_decreasing_partial.
(** ... but the order of intensities is kept by the primary correction. *)
Theorem C47_order_kept_primary : forall f1 f2 c, 0 <= f1 <= f2 -> - (67/100) <= x_cos c <= 1 ->
  f1 * val (calc_extinction_sphere_primary f1 c) <= f2 * val (calc_extinction_sphere_primary f2 c).
Proof. exact prim_int. Qed.
Print Assumptions C47_order_kept_primary.
Example C47_case : physical 100 (mkX 2 3 1000 (1/2) (15/10)) /\ - (67/100) <= 1/2 <= 8/10.
Proof. unfold physical; cbn; lra. Qed.

Theorem C48_primary : forall f r mo v c w, let cr := mkX r mo v c w in 0 <= f -> v <> 0 -> - (67/100) <= c <= 1 ->
  let y g c' := val (calc_extinction_sphere_primary g c') in let d := calc_extinction_sphere_primary_dder f cr in
  is_derive (fun t => y t cr) f (ed_f_sq d) /\ is_derive (fun t => y f (mkX t mo v c w)) r (ed_radius d) /\
  is_derive (fun t => y f (mkX r mo t c w)) v (ed_volume d) /\ is_derive (fun t => y f (mkX r mo v t w)) c (ed_cos d) /\
  is_derive (fun t => y f (mkX r mo v c t)) w (ed_wavelength d).
Proof. exact prim_d_all. Qed.
Print Assumptions C48_primary.
Theorem C48_sphere_f_sq : forall m f c, physical f c -> - (67/100) <= x_cos c -> (m = M_gauss -> x_cos c <= 8/10) ->
  is_derive (fun t => val (calc_extinction_sphere m t c)) f (ed_f_sq (calc_extinction_sphere_dder m f c)).
Proof. exact sphere_d_f. Qed.
Print Assumptions C48_sphere_f_sq.
(** So it may be used as the extinction callable of the intensities (hypothesis of the C40 theorems). *)
Theorem C48_usable_in_intensities : forall m c, (forall f, 0 <= f -> physical f c) -> - (67/100) <= x_cos c -> (m = M_gauss -> x_cos c <= 8/10) ->
  good_ext (Some (sphere_ext m c)) /\ good_ext (Some (radius_ext c)).
Proof. exact (fun m c H C Cm => conj (sphere_good m c H C Cm) (radius_good c H C)). Qed.
Print Assumptions C48_usable_in_intensities.
(** The secondary derivatives with respect to the refinable parameters are wrong for every crystal: *)
Theorem C48_gauss_radius_refuted : forall f r mo v c w, 0 < f -> 0 < r -> 0 < mo -> 0 < v -> -1 < c < 1 -> c <= 8/10 -> 0 < w ->
  exists d, is_derive (fun t => calc_extinction_sphere_secondary_gauss f (mkX t mo v c w)) r d /\
  d <> ed_radius (calc_extinction_sphere_secondary_gauss_dder f (mkX r mo v c w)).
Proof. exact gauss_radius_wrong. Qed.
Print Assumptions C48_gauss_radius_refuted.
Theorem C48_gauss_mosaicity_refuted : forall f r mo v c w, 0 < f -> 0 < r -> 0 < mo -> 0 < v -> -1 < c < 1 -> c <= 8/10 -> 0 < w ->
  exists d, is_derive (fun t => calc_extinction_sphere_secondary_gauss f (mkX r t v c w)) mo d /\
  d <> ed_mosaicity (calc_extinction_sphere_secondary_gauss_dder f (mkX r mo v c w)).
Proof. exact gauss_mosaicity_wrong. Qed.
Print Assumptions C48_gauss_mosaicity_refuted.
Theorem C48_gauss_volume_refuted : forall f r mo v c w, 0 < f -> 0 < r -> 0 < mo -> 0 < v -> -1 < c < 1 -> c <= 8/10 -> 0 < w ->
  exists d, is_derive (fun t => calc_extinction_sphere_secondary_gauss f (mkX r mo t c w)) v d /\
  d <> ed_volume (calc_extinction_sphere_secondary_gauss_dder f (mkX r mo v c w)).
Proof. exact gauss_volume_wrong. Qed.
Print Assumptions C48_gauss_volume_refuted.
Theorem C48_lorentz_mosaicity_refuted : forall f r mo v c w, 0 < f -> 0 < r -> 0 < mo -> 0 < v -> -1 < c < 1 -> 0 < w ->
  exists d, is_derive (fun t => val (calc_extinction_sphere_secondary_lorentz f (mkX r t v c w))) mo d /\
  d <> ed_mosaicity (calc_extinction_sphere_secondary_lorentz_dder f (mkX r mo v c w)).
Proof. exact lorentz_mosaicity_wrong. Qed.
Print Assumptions C48_lorentz_mosaicity_refuted.
