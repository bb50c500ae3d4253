(** Proofs about the resolution of a powder diffractometer shown by the object (C115). *)
From Coq Require Import Reals Lra Lia.
From Verif Require Import Model.Profile Model.Resolution.
Open Scope R_scope.

Definition radians (tth : R) : R := tth * PI / 180.
Lemma half_radians : forall tth, 5 / 10 * radians tth = 5 / 10 * tth * PI / 180.
Proof. intros. unfold radians. field. Qed.
Lemma sq_same : forall r p tth, item_hg_sq r p (tan (5/10 * tth * PI / 180)) (1 / cos (5/10 * tth * PI / 180)) = h_g_sq (fit_width r p) (radians tth).
Proof.
  intros r p tth. unfold h_g_sq. cbv zeta. rewrite half_radians. unfold item_hg_sq, fit_width. cbn [w_u w_v w_w w_ig]. unfold Rdiv. rewrite !Rmult_1_l, !Rsqr_pow2.
  rewrite pow_inv. reflexivity.
Qed.
Lemma hl_same : forall r p tth, item_hl r p (tan (5/10 * tth * PI / 180)) (1 / cos (5/10 * tth * PI / 180)) = calc_h_l (fit_x r p) (fit_y r p) (radians tth).
Proof. intros r p tth. unfold calc_h_l. cbv zeta. rewrite half_radians. reflexivity. Qed.
Lemma h5_same : forall a b, item_hpv5 a b = h_pv_5 a b.
Proof. intros a b. unfold item_hpv5, h_pv_5, Rsqr. cbv zeta. ring. Qed.
Lemma h5_pos : forall a b, 0 < a -> 0 <= b -> 0 < item_hpv5 a b.
Proof.
  intros a b A B. unfold item_hpv5. cbv zeta. assert (0 < a ^ 2 * a * a * a) by (repeat apply Rmult_lt_0_compat; lra).
  pose proof (pow_le b 2 B) as B2. pose proof (pow_lt a 2 A) as A2.
  assert (0 <= 269269 / 100000 * (a ^ 2 * a * a) * b) by (repeat apply Rmult_le_pos; lra).
  assert (0 <= 242843 / 100000 * (a ^ 2 * a) * b ^ 2) by (repeat apply Rmult_le_pos; lra).
  assert (0 <= 447163 / 100000 * a ^ 2 * (b ^ 2 * b)) by (repeat apply Rmult_le_pos; lra).
  assert (0 <= 7842 / 100000 * a * (b ^ 2 * b * b)) by (repeat apply Rmult_le_pos; lra).
  assert (0 <= b ^ 2 * b * b * b) by (repeat apply Rmult_le_pos; lra). lra.
Qed.
Lemma eta_same : forall a b, item_eta a b = calc_eta a b.
Proof. intros a b. unfold item_eta, calc_eta, Rsqr, Rdiv. cbv zeta. rewrite Rmult_1_r. ring. Qed.
Lemma resolution_same : forall r p tth, eps64 <= h_g_sq (fit_width r p) (radians tth) -> 0 <= calc_h_l (fit_x r p) (fit_y r p) (radians tth) ->
  exists o, calc_resolution r p tth = Some o /\ ro_hg o = calc_h_g (fit_width r p) (radians tth) /\ ro_hl o = calc_h_l (fit_x r p) (fit_y r p) (radians tth) /\
    ro_hpv o = calc_h_pv (ro_hg o) (ro_hl o) /\ ro_eta o = calc_eta (ro_hl o) (ro_hpv o) /\
    forall z, func_gauss_by_h_pv z (ro_hpv o) = ro_ag o * exp (- ro_bg o * (z * 180 / PI) ^ 2) /\ func_lorentz_by_h_pv z (ro_hpv o) = ro_al o / (1 + ro_bl o * (z * 180 / PI) ^ 2).
Proof.
  intros r p tth H L. assert (E0 : 0 < eps64) by (unfold eps64; apply Rinv_0_lt_compat; lra).
  unfold calc_resolution. cbv zeta. rewrite sq_same, hl_same. set (sq := h_g_sq (fit_width r p) (radians tth)) in *. set (hl := calc_h_l (fit_x r p) (fit_y r p) (radians tth)) in *.
  destruct (Rlt_dec sq 0) as [N|_]; [lra|]. assert (G : 0 < sqrt sq) by (apply sqrt_lt_R0; lra). pose proof (h5_pos _ _ G L) as P5. destruct (Rle_dec (item_hpv5 (sqrt sq) hl) 0) as [N|_]; [lra|].
  set (h := Rpower (item_hpv5 (sqrt sq) hl) (2 / 10)). assert (HP : 0 < h) by (unfold h, Rpower; apply exp_pos). pose proof PI_RGT_0 as HPI. eexists. split; [reflexivity|]. cbn [ro_hg ro_hl ro_hpv ro_eta ro_ag ro_bg ro_al ro_bl].
  split; [unfold calc_h_g; cbv zeta; fold sq; destruct (Rlt_dec sq eps64); [lra|reflexivity]|]. split; [reflexivity|]. split; [unfold calc_h_pv, h; rewrite h5_same; reflexivity|]. split; [apply eta_same|].
  intros z. split.
  - unfold func_gauss_by_h_pv, Rsqr. cbv zeta. f_equal; [field; lra|]. f_equal. field. lra.
  - unfold func_lorentz_by_h_pv, Rsqr. cbv zeta. assert (0 <= (z * 180 / PI) ^ 2) by apply pow2_ge_0. assert (Q : 0 < h ^ 2) by (apply pow_lt; exact HP).
    assert (W : 1 + 4 * (1 / h * (1 / h)) * (z * 180 / PI * (z * 180 / PI)) = 1 + 4 / h ^ 2 * (z * 180 / PI) ^ 2) by (field; lra). rewrite W.
    f_equal. field. lra.
Qed.
Lemma half_height : forall r p tth o, calc_resolution r p tth = Some o -> 0 < ro_hpv o /\
  ro_ag o * exp (- ro_bg o * (ro_hpv o / 2) ^ 2) = ro_ag o / 2 /\ ro_al o / (1 + ro_bl o * (ro_hpv o / 2) ^ 2) = ro_al o / 2.
Proof.
  intros r p tth o. unfold calc_resolution. cbv zeta. destruct (Rlt_dec _ _); [discriminate|]. destruct (Rle_dec _ _); [discriminate|]. intros H. injection H as <-. cbn [ro_hpv ro_ag ro_bg ro_al ro_bl].
  set (h := Rpower _ _). assert (HP : 0 < h) by (unfold h, Rpower; apply exp_pos). clearbody h. split; [exact HP|]. split.
  - replace (- (4 * ln 2 / (h * (h * 1))) * (h / 2) ^ 2) with (- ln 2) by (field; lra). rewrite exp_Ropp, exp_ln by lra. unfold Rdiv. reflexivity.
  - replace (4 / (h * (h * 1)) * (h / 2) ^ 2) with 1 by (field; lra). replace (1 + 1) with 2 by ring. reflexivity.
Qed.
Lemma negative_differs : exists r p tth, 0 < tth < 180 /\ calc_resolution r p tth = None /\ 0 < calc_h_g (fit_width r p) (radians tth).
Proof.
  exists (mkRP (1/10) (-1) (1/10) 0 0), (mkRPh 0 0 0 0 0 0), 90. split; [lra|]. split.
  - unfold calc_resolution. cbv zeta. replace (5 / 10 * 90 * PI / 180) with (PI / 4) by field. rewrite tan_PI4. unfold item_hg_sq. cbn [rp_u rp_v rp_w ph_u ph_v ph_w ph_igsize]. destruct (Rlt_dec _ 0) as [L|L]; [reflexivity|exfalso; apply L; lra].
  - unfold calc_h_g. cbv zeta. assert (0 < eps64) by (unfold eps64; apply Rinv_0_lt_compat; lra). apply sqrt_lt_R0. destruct (Rlt_dec _ _); lra.
Qed.
Lemma met : eps64 <= h_g_sq (fit_width (mkRP 0 0 1 0 0) (mkRPh 0 0 0 0 0 0)) (radians 90) /\ 0 <= calc_h_l (fit_x (mkRP 0 0 1 0 0) (mkRPh 0 0 0 0 0 0)) (fit_y (mkRP 0 0 1 0 0) (mkRPh 0 0 0 0 0 0)) (radians 90) /\
  exists o, calc_resolution (mkRP 0 0 1 0 0) (mkRPh 0 0 0 0 0 0) 90 = Some o /\ ro_hg o = 1 /\ ro_hpv o = 1 /\ ro_eta o = 0.
Proof.
  assert (S : h_g_sq (fit_width (mkRP 0 0 1 0 0) (mkRPh 0 0 0 0 0 0)) (radians 90) = 1) by (unfold h_g_sq, fit_width; cbn [w_u w_v w_w w_ig rp_u rp_v rp_w ph_u ph_v ph_w ph_igsize]; ring).
  assert (L : calc_h_l (fit_x (mkRP 0 0 1 0 0) (mkRPh 0 0 0 0 0 0)) (fit_y (mkRP 0 0 1 0 0) (mkRPh 0 0 0 0 0 0)) (radians 90) = 0) by (unfold calc_h_l, fit_x, fit_y; cbn [rp_x rp_y ph_x ph_y]; ring).
  assert (E : eps64 <= 1) by (unfold eps64; rewrite <- Rinv_1; apply Rinv_le_contravar; lra). rewrite S, L. split; [exact E|]. split; [lra|].
  unfold calc_resolution. cbv zeta. rewrite sq_same, hl_same, S, L, sqrt_1. destruct (Rlt_dec 1 0) as [N|_]; [lra|]. assert (F : item_hpv5 1 0 = 1) by (unfold item_hpv5; cbv zeta; ring). rewrite F. destruct (Rle_dec 1 0) as [N|_]; [lra|].
  eexists. split; [reflexivity|]. cbn [ro_hg ro_hpv ro_eta]. assert (P : Rpower 1 (2 / 10) = 1) by (unfold Rpower; rewrite ln_1, Rmult_0_r; apply exp_0). rewrite P. split; [reflexivity|]. split; [reflexivity|]. unfold item_eta. cbv zeta. field.
Qed.
