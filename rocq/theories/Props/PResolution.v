(** C115: the resolution shown by the object and that of the fit. *)
From Coq Require Import Reals.
From Verif Require Import Model.Profile Model.Resolution Proofs.ResolutionP.
Open Scope R_scope.

(** At an angle where the square of the Gaussian width is not below the smallest value the fit takes for it, and the Lorentzian width is not negative,
    the object gives the widths and the mixing parameter of the fit, and with its coefficients a and b the peaks of the fit are
    a exp (- b x^2) and a / (1 + b x^2), x in degrees. *)
Theorem C115_same_partial : forall r p tth, eps64 <= h_g_sq (fit_width r p) (tth * PI / 180) -> 0 <= calc_h_l (fit_x r p) (fit_y r p) (tth * PI / 180) ->
  exists o, calc_resolution r p tth = Some o /\ ro_hg o = calc_h_g (fit_width r p) (tth * PI / 180) /\ ro_hl o = calc_h_l (fit_x r p) (fit_y r p) (tth * PI / 180) /\
    ro_hpv o = calc_h_pv (ro_hg o) (ro_hl o) /\ ro_eta o = calc_eta (ro_hl o) (ro_hpv o) /\
    forall z, func_gauss_by_h_pv z (ro_hpv o) = ro_ag o * exp (- ro_bg o * (z * 180 / PI) ^ 2) /\ func_lorentz_by_h_pv z (ro_hpv o) = ro_al o / (1 + ro_bl o * (z * 180 / PI) ^ 2).
Proof. exact resolution_same. Qed.
Print Assumptions C115_same_partial.
Example C115_met : eps64 <= h_g_sq (fit_width (mkRP 0 0 1 0 0) (mkRPh 0 0 0 0 0 0)) (90 * PI / 180) /\ 0 <= calc_h_l (fit_x (mkRP 0 0 1 0 0) (mkRPh 0 0 0 0 0 0)) (fit_y (mkRP 0 0 1 0 0) (mkRPh 0 0 0 0 0 0)) (90 * PI / 180) /\
  exists o, calc_resolution (mkRP 0 0 1 0 0) (mkRPh 0 0 0 0 0 0) 90 = Some o /\ ro_hg o = 1 /\ ro_hpv o = 1 /\ ro_eta o = 0.
Proof. exact met. Qed.
(** Whenever the object gives a width, it is the full width at half maximum of both peaks. *)
Theorem C115_half_height : forall r p tth o, calc_resolution r p tth = Some o -> 0 < ro_hpv o /\
  ro_ag o * exp (- ro_bg o * (ro_hpv o / 2) ^ 2) = ro_ag o / 2 /\ ro_al o / (1 + ro_bl o * (ro_hpv o / 2) ^ 2) = ro_al o / 2.
Proof. exact half_height. Qed.
Print Assumptions C115_half_height.
(** With parameters that make the square of the Gaussian width negative the object gives no number where the fit uses a positive width. *)
Theorem C115_negative_refuted : exists r p tth, 0 < tth < 180 /\ calc_resolution r p tth = None /\ 0 < calc_h_g (fit_width r p) (tth * PI / 180).
Proof. exact negative_differs. Qed.
Print Assumptions C115_negative_refuted.
