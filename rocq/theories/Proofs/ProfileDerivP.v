(** Derivatives of the profile functions (C45), angle conversions (C46). *)
From Coq Require Import Reals Lra Psatz.
From Coquelicot Require Import Coquelicot.
From Verif Require Import Model.Profile Proofs.ProfileP.
Open Scope R_scope.

Lemma f_a_d : forall z, is_derive func_asymmetry_f_a z (func_asymmetry_f_a_dder z).
Proof. intros z. unfold func_asymmetry_f_a, func_asymmetry_f_a_dder, Rsqr. auto_derive; [exact I|ring]. Qed.
Lemma f_b_d : forall z, is_derive func_asymmetry_f_b z (func_asymmetry_f_b_dder z).
Proof. intros z. unfold func_asymmetry_f_b, func_asymmetry_f_b_dder, func_asymmetry_f_a, func_asymmetry_f_a_dder, Rsqr. auto_derive; [exact I|ring]. Qed.
Lemma asym_dz : forall z t p, is_derive (fun z => calc_asymmetry_factor z t p) z (calc_asymmetry_factor_dder_z z t p).
Proof.
  intros z t p. unfold calc_asymmetry_factor, calc_asymmetry_factor_dder_z, func_asymmetry_f_b, func_asymmetry_f_b_dder, func_asymmetry_f_a, func_asymmetry_f_a_dder, Rsqr.
  auto_derive; [exact I|ring].
Qed.
Lemma asym_dp : forall z t p q r s,
  let d := calc_asymmetry_factor_dder_p z t in
  is_derive (fun v => calc_asymmetry_factor z t (mkA v q r s)) p (p_1 d) /\ is_derive (fun v => calc_asymmetry_factor z t (mkA p v r s)) q (p_2 d) /\
  is_derive (fun v => calc_asymmetry_factor z t (mkA p q v s)) r (p_3 d) /\ is_derive (fun v => calc_asymmetry_factor z t (mkA p q r v)) s (p_4 d).
Proof.
  intros. unfold d, calc_asymmetry_factor, calc_asymmetry_factor_dder_p. cbn [p_1 p_2 p_3 p_4]. (split; [|split; [|split]]); (auto_derive; [exact I|ring]).
Qed.
Lemma lorentz_factor_d : forall t cthm, sin ((5/10) * t) <> 0 -> sin t <> 0 ->
  is_derive (fun t => calc_lorentz_factor t 0 cthm) t (calc_lorentz_factor_dder t 0 cthm).
Proof.
  intros t c H1 H2. unfold calc_lorentz_factor, calc_lorentz_factor_dder, calc_lorentz_factor, Rsqr. auto_derive; [apply Rmult_integral_contrapositive_currified; assumption|].
  field. split; assumption.
Qed.
Lemma lorentz_factor_true_d : forall t k cthm, sin ((5/10) * t) <> 0 -> sin t <> 0 ->
  is_derive (fun t => calc_lorentz_factor t k cthm) t
   ((- (2 * k * cthm * cos t * sin t) - calc_lorentz_factor t k cthm * ((5/10) * cos ((5/10) * t) * sin t + sin ((5/10) * t) * cos t)) / (sin ((5/10) * t) * sin t)).
Proof.
  intros t k c H1 H2. unfold calc_lorentz_factor, Rsqr. auto_derive; [apply Rmult_integral_contrapositive_currified; assumption|].
  field. split; assumption.
Qed.
Lemma sin_quarter : sin (PI / 4) <> 0. Proof. rewrite sin_PI4. apply Rgt_not_eq. apply Rdiv_lt_0_compat; [lra|apply sqrt_lt_R0; lra]. Qed.
Lemma lorentz_factor_refuted : exists t k cthm d, 0 < t < PI /\ 0 < k < 1 /\ is_derive (fun t => calc_lorentz_factor t k cthm) t d /\ d <> calc_lorentz_factor_dder t k cthm.
Proof.
  exists (PI / 2), (5/10), (91/100). eexists. pose proof PI_RGT_0 as P. split; [lra|]. split; [lra|].
  assert (S1 : sin ((5/10) * (PI / 2)) <> 0) by (replace ((5/10) * (PI / 2)) with (PI / 4) by field; exact sin_quarter).
  assert (S2 : sin (PI / 2) <> 0) by (rewrite sin_PI2; lra).
  split; [apply lorentz_factor_true_d; assumption|].
  unfold calc_lorentz_factor_dder, calc_lorentz_factor. rewrite sin_PI2, cos_PI2. replace ((5/10) * (PI / 2)) with (PI / 4) in * by field.
  rewrite sin_PI4, cos_PI4. set (s := 1 / sqrt 2). assert (Hs : 0 < s) by (apply Rdiv_lt_0_compat; [lra|apply sqrt_lt_R0; lra]).
  unfold Rsqr. intros E. assert (X : (- (2 * (5/10) * (91/100) * 0 * 1) - (1 - 5/10 + 5/10 * (91/100) * (0*0)) / (s * 1) * ((5/10) * s * 1 + s * 0)) / (s * 1) = - (25/100) / s) by (field; lra).
  rewrite X in E.
  assert (Y : - ((1 - 5/10 + 5/10 * (91/100) * (0*0)) / (s * 1) * ((1 - 5/10 + 5/10 * (91/100) * (0*0)) / (s * 1))) * ((5/10) * s * 1 + s * 0) = - (125/1000) / s) by (field; lra).
  rewrite Y in E. assert (/ s > 0) by (apply Rinv_0_lt_compat; exact Hs). unfold Rdiv in E. nra.
Qed.
Lemma gauss_dh : forall z h, 0 < h -> is_derive (fun h => func_gauss_by_h_pv z h) h (func_gauss_by_h_pv_dder_h_pv z h).
Proof.
  intros z h Hh. unfold func_gauss_by_h_pv, func_gauss_by_h_pv_dder_h_pv, func_gauss_by_h_pv, Rsqr. pose proof PI_neq0.
  auto_derive; [repeat split; lra|]. unfold Rdiv. field. repeat split; (lra || assumption).
Qed.
Lemma gauss_true_dz : forall z h, 0 < h -> is_derive (fun z => func_gauss_by_h_pv z h) z (4 * ln 2 * Rsqr (1 / h) * func_gauss_by_h_pv_dder_z z h).
Proof.
  intros z h Hh. unfold func_gauss_by_h_pv, func_gauss_by_h_pv_dder_z, func_gauss_by_h_pv, Rsqr. pose proof PI_neq0.
  auto_derive; [repeat split; lra|]. unfold Rdiv. field. repeat split; (lra || assumption).
Qed.
(** the derivative returned lacks the factor 4 ln2 / h^2 *)
Lemma gauss_dz_refuted : exists z h d, 0 < h /\ is_derive (fun z => func_gauss_by_h_pv z h) z d /\ d <> func_gauss_by_h_pv_dder_z z h.
Proof.
  exists (- (PI / 180)), 1. eexists. split; [lra|]. split; [apply gauss_true_dz; lra|].
  unfold func_gauss_by_h_pv_dder_z. pose proof (gauss_pos (- (PI / 180)) 1 ltac:(lra)) as G. set (g := func_gauss_by_h_pv _ _) in *. pose proof PI_RGT_0 as P.
  replace (- (PI / 180) * 180 / PI) with (-1) by (field; lra). intros E.
  assert (L : 1/2 < ln 2). { apply exp_lt_inv. rewrite exp_ln by lra. pose proof exp_le_3. apply Rsqr_incrst_0; [|left; apply exp_pos|lra]. unfold Rsqr. rewrite <- exp_plus. replace (1/2 + 1/2) with 1 by lra. lra. }
  assert (A : 0 < -2 * -1 * g * 180 / PI) by (apply Rdiv_lt_0_compat; nra). set (w := -2 * -1 * g * 180 / PI) in *. unfold Rsqr in E. nra.
Qed.
Lemma lorentz_dz : forall z h, 0 < h -> is_derive (fun z => func_lorentz_by_h_pv z h) z (func_lorentz_by_h_pv_dder_z z h).
Proof.
  intros z h Hh. pose proof (lor_den z h Hh) as D. pose proof PI_RGT_0 as P. unfold func_lorentz_by_h_pv, func_lorentz_by_h_pv_dder_z, func_lorentz_by_h_pv, Rsqr in *.
  auto_derive; [apply Rgt_not_eq; unfold Rdiv in *; lra|].
  assert (0 < h * h * (PI * PI)) by (apply Rmult_lt_0_compat; nra). assert (0 <= z * z) by (change (0 <= Rsqr z); apply Rle_0_sqr).
  field. repeat split; first [lra | apply Rgt_not_eq; cbn in *; nra].
Qed.
Lemma lorentz_true_dh : forall z h, 0 < h -> is_derive (fun h => func_lorentz_by_h_pv z h) h
  (2 / PI * (4 * Rsqr (z * 180 / PI) - h * h) / Rsqr (h * h + 4 * Rsqr (z * 180 / PI))).
Proof.
  intros z h Hh. pose proof (lor_den z h Hh) as D. pose proof PI_RGT_0 as P. unfold func_lorentz_by_h_pv.
  set (w := z * 180 / PI) in *. unfold Rsqr in *. auto_derive; [repeat split; try lra; apply Rgt_not_eq; unfold Rdiv in *; lra|].
  assert (0 < h * h + 4 * (w * w)) by nra. field. repeat split; try lra; nra.
Qed.
Lemma lorentz_dh_refuted : exists z h d, 0 < h /\ is_derive (fun h => func_lorentz_by_h_pv z h) h d /\ d <> func_lorentz_by_h_pv_dder_h_pv z h.
Proof.
  exists 0, 1. eexists. split; [lra|]. split; [apply lorentz_true_dh; lra|]. unfold func_lorentz_by_h_pv_dder_h_pv. pose proof PI_RGT_0 as P.
  replace (0 * 180 / PI) with 0 by (field; lra). unfold Rsqr. intros E.
  assert (X : 2 / PI * (4 * (0 * 0) - 1 * 1) / ((1 * 1 + 4 * (0 * 0)) * (1 * 1 + 4 * (0 * 0))) = - (2 / PI)) by (field; lra).
  assert (Y : (2 / PI * (1 + 4 * (0 * 0)) - 2 / PI * 1) / ((1 + 4 * (0 * 0)) * (1 + 4 * (0 * 0))) = 0) by (field; lra).
  rewrite X, Y in E. assert (0 < 2 / PI) by (apply Rdiv_lt_0_compat; lra). lra.
Qed.
(** widths *)
Definition wset (p : width) (k : nat) (v : R) : width :=
  match k with 0%nat => mkW v (w_v p) (w_w p) (w_ig p) | 1%nat => mkW (w_u p) v (w_w p) (w_ig p) | 2%nat => mkW (w_u p) (w_v p) v (w_ig p) | _ => mkW (w_u p) (w_v p) (w_w p) v end.
Definition wget (p : width) (k : nat) : R := match k with 0%nat => w_u p | 1%nat => w_v p | 2%nat => w_w p | _ => w_ig p end.
Lemma eps_pos : 0 < eps64. Proof. unfold eps64. apply Rinv_0_lt_compat. lra. Qed.
Lemma h_g_d : forall p t k, eps64 < h_g_sq p t -> is_derive (fun v => calc_h_g (wset p k v) t) (wget p k) (wget (calc_h_g_dder p t) k).
Proof.
  intros p t k H. pose proof eps_pos as EP.
  assert (SQ : is_derive (fun v => sqrt (h_g_sq (wset p k v) t)) (wget p k) (wget (calc_h_g_dder p t) k)).
  { assert (E : sqrt (h_g_sq p t) = calc_h_g p t) by (unfold calc_h_g; destruct (Rlt_dec _ _); [lra|reflexivity]).
    unfold calc_h_g_dder. rewrite <- E. destruct p as [u v w g]. unfold h_g_sq in *. cbn [w_u w_v w_w w_ig] in *.
    set (T := tan _) in *. set (C := 1 / _) in *. assert (SP : 0 < sqrt (u * T² + v * T + w + g * C)) by (apply sqrt_lt_R0; lra).
    destruct k as [|[|[|k]]]; cbn [wset wget w_u w_v w_w w_ig]; (auto_derive; [lra|field; lra]). }
  apply is_derive_ext_loc with (2 := SQ).
  assert (CT : continuous (fun v => h_g_sq (wset p k v) t) (wget p k)).
  { apply (ex_derive_continuous (V := R_NormedModule)). destruct p as [u v w g]. unfold h_g_sq. destruct k as [|[|[|k]]]; cbn [wset wget w_u w_v w_w w_ig]; auto_derive; exact I. }
  assert (VAL : h_g_sq (wset p k (wget p k)) t = h_g_sq p t) by (destruct p, k as [|[|[|k]]]; reflexivity).
  assert (LOC : locally (h_g_sq (wset p k (wget p k)) t) (fun x => eps64 < x)).
  { rewrite VAL. apply (open_gt eps64). exact H. }
  specialize (CT _ LOC). unfold filtermap in CT. eapply filter_imp; [|exact CT]. cbn. intros v Hv. unfold calc_h_g. destruct (Rlt_dec _ _); [lra|reflexivity].
Qed.
Lemma h_g_clamp_refuted : exists p t d, is_derive (fun v => calc_h_g (wset p 2 v) t) (wget p 2) d /\ d <> wget (calc_h_g_dder p t) 2.
Proof.
  exists (mkW 0 0 (-1) 0), 0, 0. pose proof eps_pos as EP. split.
  - apply is_derive_ext_loc with (fun _ => sqrt eps64); [|auto_derive; [exact I|ring]].
    assert (L : locally (-1) (fun v => v < 0)) by (apply (open_lt 0); lra).
    eapply filter_imp; [|exact L]. cbn. intros v Hv. unfold calc_h_g, h_g_sq. cbn [wset w_u w_v w_w w_ig].
    destruct (Rlt_dec _ _) as [A|A]; [reflexivity|]. exfalso. apply A. unfold Rsqr. lra.
  - cbn [wget calc_h_g_dder w_w]. apply Rlt_not_eq. apply Rdiv_lt_0_compat; [lra|apply h_g_pos].
Qed.
Lemma h_l_d : forall x y t, is_derive (fun x => calc_h_l x y t) x (calc_h_l_dder_x t) /\ is_derive (fun y => calc_h_l x y t) y (calc_h_l_dder_y t).
Proof. intros. unfold calc_h_l, calc_h_l_dder_x, calc_h_l_dder_y. split; (auto_derive; [exact I|ring]). Qed.
Lemma h_pv_true_d : forall g l, 0 < g -> 0 <= l ->
  is_derive (fun g => calc_h_pv g l) g (- calc_h_pv_dder_h_g g l) /\ is_derive (fun l => calc_h_pv g l) l (- calc_h_pv_dder_h_l g l).
Proof.
  intros g l Hg Hl. pose proof (h_pv_5_pos g l Hg Hl) as P. unfold calc_h_pv, calc_h_pv_dder_h_g, calc_h_pv_dder_h_l.
  assert (E : Rpower (h_pv_5 g l) (- (8/10)) = exp (2/10 * ln (h_pv_5 g l)) / h_pv_5 g l).
  { unfold Rpower. rewrite <- (exp_ln (h_pv_5 g l) P) at 3. unfold Rdiv. rewrite <- exp_Ropp, <- exp_plus. f_equal. lra. }
  rewrite E. unfold Rpower, h_pv_5, Rsqr in *. split; (auto_derive; [exact P|]); field; lra.
Qed.
Lemma h_pv_d_refuted : exists g l d d', 0 < g /\ 0 < l /\ is_derive (fun g => calc_h_pv g l) g d /\ d <> calc_h_pv_dder_h_g g l /\
  is_derive (fun l => calc_h_pv g l) l d' /\ d' <> calc_h_pv_dder_h_l g l.
Proof.
  exists 1, 1. destruct (h_pv_true_d 1 1 ltac:(lra) ltac:(lra)) as [A B]. eexists. eexists. split; [lra|]. split; [lra|]. split; [exact A|].
  split; [|split; [exact B|]].
  - unfold calc_h_pv_dder_h_g. pose proof (exp_pos (- (8/10) * ln (h_pv_5 1 1))) as P. unfold Rpower. set (w := exp _) in *. unfold Rsqr. intros E. nra.
  - unfold calc_h_pv_dder_h_l. pose proof (exp_pos (- (8/10) * ln (h_pv_5 1 1))) as P. unfold Rpower. set (w := exp _) in *. unfold Rsqr. intros E. nra.
Qed.
Lemma eta_d : forall l h, h <> 0 -> is_derive (fun h => calc_eta l h) h (calc_eta_dder_h_pv l h) /\ is_derive (fun l => calc_eta l h) l (calc_eta_dder_h_l l h).
Proof. intros l h Hh. unfold calc_eta, calc_eta_dder_h_pv, calc_eta_dder_h_l, Rsqr. split; (auto_derive; [repeat split; assumption|field; assumption]). Qed.
Lemma coeff_phi_d : forall phi p, is_derive (fun p => calc_coeff_phi phi p) p (calc_coeff_phi_dder phi).
Proof. intros. unfold calc_coeff_phi, calc_coeff_phi_dder. auto_derive; [exact I|field]. Qed.
(** * the profile is not symmetric about the reflection, since the widths belong to the measured angle *)
Lemma profile_asym_refuted : exists p t0 d, 0 < d /\
  calc_profile_pseudo_voight (t0 + d) t0 p 0 0 no_asymmetry <> calc_profile_pseudo_voight (t0 - d) t0 p 0 0 no_asymmetry.
Proof.
  exists (mkW 1 0 0 0), (7 * PI / 12), (PI / 12). pose proof PI_RGT_0 as P. split; [lra|].
  replace (7 * PI / 12 + PI / 12) with (2 * PI / 3) by field. replace (7 * PI / 12 - PI / 12) with (PI / 2) by field.
  assert (HL : forall t, calc_h_l 0 0 t = 0) by (intros; unfold calc_h_l; ring).
  assert (HE : forall h, calc_eta 0 h = 0) by (intros; unfold calc_eta, Rsqr, Rdiv; ring).
  assert (HP : forall g, 0 < g -> calc_h_pv g 0 = g).
  { intros g Hg. unfold calc_h_pv. rewrite h_pv_5_form. transitivity (Rpower (fifth g) (2/10)); [f_equal; unfold fifth; ring|apply fifth_root; exact Hg]. }
  unfold calc_profile_pseudo_voight. rewrite !HL, !HE, !asym_none.
  assert (G1 : calc_h_g (mkW 1 0 0 0) (PI / 2) = 1).
  { unfold calc_h_g, h_g_sq. cbn [w_u w_v w_w w_ig]. replace (5/10 * (PI/2)) with (PI/4) by field. rewrite tan_PI4.
    destruct (Rlt_dec _ _) as [A|A]; [exfalso; unfold eps64, Rsqr in A; assert (/ 2 ^ 52 < 1) by (rewrite <- Rinv_1; apply Rinv_lt_contravar; lra); lra|].
    replace (1 * 1² + 0 * 1 + 0 + 0 * (1 / (cos (PI / 4))²)) with 1 by (unfold Rsqr; ring). apply sqrt_1. }
  assert (G2 : calc_h_g (mkW 1 0 0 0) (2 * PI / 3) = sqrt 3).
  { unfold calc_h_g, h_g_sq. cbn [w_u w_v w_w w_ig]. replace (5/10 * (2 * PI/3)) with (PI/3) by field. rewrite tan_PI3.
    assert (S3 : (sqrt 3)² = 3) by (apply Rsqr_sqrt; lra). rewrite S3.
    destruct (Rlt_dec _ _) as [A|A]; [exfalso; unfold eps64 in A; assert (/ 2 ^ 52 < 1) by (rewrite <- Rinv_1; apply Rinv_lt_contravar; lra); lra|].
    f_equal. ring. }
  rewrite G1, G2. assert (S3 : 0 < sqrt 3) by (apply sqrt_lt_R0; lra). rewrite (HP 1) by lra. rewrite (HP (sqrt 3) S3).
  rewrite !gauss_form by lra. replace (2 * PI / 3 - 7 * PI / 12) with (PI / 12) by field. replace (PI / 2 - 7 * PI / 12) with (- (PI / 12)) by field.
  replace (PI / 12 * 180 / PI) with 15 by (field; lra). replace (- (PI / 12) * 180 / PI) with (-15) by (field; lra).
  set (A := sqrt (ln 2 / PI)). assert (HA : 0 < A) by (apply sqrt_lt_R0, Rdiv_lt_0_compat; [apply ln2_pos|exact P]).
  replace (Rsqr (15 / sqrt 3)) with 75 by (unfold Rsqr; replace (15 / sqrt 3 * (15 / sqrt 3)) with (225 / (sqrt 3 * sqrt 3)) by (field; lra); rewrite sqrt_sqrt by lra; field).
  replace (Rsqr (-15 / 1)) with 225 by (unfold Rsqr; field). pose proof ln2_pos as L.
  replace (- (4 * ln 2 * 225)) with (- (4 * ln 2 * 75) + - (600 * ln 2)) by ring. rewrite exp_plus. set (W := exp (- (4 * ln 2 * 75))).
  assert (HW : 0 < W) by apply exp_pos. assert (X : exp (- (600 * ln 2)) < 1/2).
  { apply Rlt_le_trans with (exp (- ln 2)); [apply exp_increasing; lra|]. rewrite exp_Ropp, exp_ln by lra. lra. }
  assert (S2 : sqrt 3 < 2) by (rewrite <- (sqrt_Rsqr 2) by lra; apply sqrt_lt_1; unfold Rsqr; lra).
  assert (I3 : 1/2 < / sqrt 3) by (replace (1/2) with (/ 2) by field; apply Rinv_lt_contravar; lra).
  set (e := exp (- (600 * ln 2))) in *. intros E. assert (E' : / sqrt 3 = e).
  { apply (Rmult_eq_reg_l (2 * A * W)); [|apply Rgt_not_eq; apply Rmult_lt_0_compat; [lra|exact HW]].
    assert (Y1 : (0 * func_lorentz_by_h_pv (PI / 12) (sqrt 3) + (1 - 0) * (2 / sqrt 3 * A * W)) * 1 = 2 * A * W * / sqrt 3) by (field; lra).
    assert (Y2 : (0 * func_lorentz_by_h_pv (- (PI / 12)) 1 + (1 - 0) * (2 / 1 * A * (W * e))) * 1 = 2 * A * W * e) by field.
    rewrite <- Y1, <- Y2. exact E. }
  lra.
Qed.
(** * angle conversions *)
Lemma atan_hyp : forall a, 0 < cos (atan a) /\ sin (atan a) = a * cos (atan a) /\ cos (atan a) ^ 2 * (1 + a ^ 2) = 1.
Proof.
  intros a. pose proof (atan_bound a) as B. assert (C : 0 < cos (atan a)) by (apply cos_gt_0; lra). assert (T : tan (atan a) = a) by apply tan_atan.
  unfold tan in T. assert (S : sin (atan a) = a * cos (atan a)) by (rewrite <- T at 2; field; lra). repeat split; [exact C|exact S|].
  pose proof (sin2_cos2 (atan a)) as SC. rewrite S in SC. unfold Rsqr in SC. lra.
Qed.
Lemma polar : forall x y, sin (arctan2 y x) * sqrt (x * x + y * y) = y /\ cos (arctan2 y x) * sqrt (x * x + y * y) = x.
Proof.
  intros x y. assert (K : forall a, x = a * 1 -> True) by auto. clear K.
  assert (G : x <> 0 -> cos (atan (y / x)) * sqrt (x * x + y * y) = Rabs x /\ sin (atan (y / x)) * sqrt (x * x + y * y) = y / x * Rabs x).
  { intros Hx. destruct (atan_hyp (y / x)) as (C & S & H). assert (E : cos (atan (y / x)) * sqrt (x * x + y * y) = Rabs x).
    { rewrite <- (sqrt_Rsqr (cos (atan (y / x)))) by lra. rewrite <- sqrt_mult_alt by apply Rle_0_sqr. rewrite <- sqrt_Rsqr_abs. f_equal. unfold Rsqr.
      assert (H' : cos (atan (y / x)) ^ 2 * (x * x + y * y) = x * x) by (transitivity (cos (atan (y / x)) ^ 2 * (1 + (y / x) ^ 2) * (x * x)); [field; exact Hx|rewrite H; ring]).
      transitivity (cos (atan (y / x)) ^ 2 * (x * x + y * y)); [ring|exact H']. }
    split; [exact E|]. rewrite S, Rmult_assoc, E. reflexivity. }
  unfold arctan2. destruct (Rlt_dec 0 x) as [Hx|Hx].
  - destruct (G ltac:(lra)) as [A B]. rewrite A, B. rewrite Rabs_right by lra. split; [field; lra|reflexivity].
  - destruct (Rlt_dec x 0) as [Hx'|Hx'].
    + destruct (G ltac:(lra)) as [A B]. rewrite Rabs_left in A, B by lra. destruct (Rle_dec 0 y).
      * rewrite neg_sin, neg_cos. split; [replace (- sin (atan (y / x)) * sqrt (x * x + y * y)) with (- (sin (atan (y / x)) * sqrt (x * x + y * y))) by ring; rewrite B; field; lra|].
        replace (- cos (atan (y / x)) * sqrt (x * x + y * y)) with (- (cos (atan (y / x)) * sqrt (x * x + y * y))) by ring. rewrite A. ring.
      * assert (SM : forall a, sin (a - PI) = - sin a) by (intros; rewrite sin_minus, cos_PI, sin_PI; ring).
        assert (CM : forall a, cos (a - PI) = - cos a) by (intros; rewrite cos_minus, cos_PI, sin_PI; ring). rewrite SM, CM.
        split; [replace (- sin (atan (y / x)) * sqrt (x * x + y * y)) with (- (sin (atan (y / x)) * sqrt (x * x + y * y))) by ring; rewrite B; field; lra|].
        replace (- cos (atan (y / x)) * sqrt (x * x + y * y)) with (- (cos (atan (y / x)) * sqrt (x * x + y * y))) by ring. rewrite A. ring.
    + assert (x = 0) by lra. subst x. replace (0 * 0 + y * y) with (Rsqr y) by (unfold Rsqr; ring). rewrite sqrt_Rsqr_abs.
      destruct (Rlt_dec 0 y); [rewrite sin_PI2, cos_PI2, Rabs_right by lra; lra|]. destruct (Rlt_dec y 0).
      * rewrite sin_neg, cos_neg, sin_PI2, cos_PI2, Rabs_left by lra. lra.
      * assert (y = 0) by lra. subst y. rewrite Rabs_R0. lra.
Qed.
Lemma arctan2_range : forall x y, - PI < arctan2 y x <= PI.
Proof.
  intros x y. pose proof PI_RGT_0 as P. unfold arctan2. pose proof (atan_bound (y / x)) as B. destruct (Rlt_dec 0 x); [lra|]. destruct (Rlt_dec x 0).
  - destruct (Rle_dec 0 y) as [Hy|Hy].
    + assert (atan (y / x) <= 0). { destruct (Rle_lt_or_eq_dec 0 y Hy) as [L|E].
        - left. rewrite <- atan_0. apply atan_increasing. unfold Rdiv. assert (/ x < 0) by (apply Rinv_lt_0_compat; lra). nra.
        - subst y. unfold Rdiv. rewrite Rmult_0_l, atan_0. lra. } lra.
    + assert (0 < atan (y / x)). { rewrite <- atan_0. apply atan_increasing. unfold Rdiv. assert (/ x < 0) by (apply Rinv_lt_0_compat; lra). nra. } lra.
  - destruct (Rlt_dec 0 y); [lra|]. destruct (Rlt_dec y 0); lra.
Qed.
Lemma angle_unique : forall a b, - PI < a <= PI -> - PI < b <= PI -> sin a = sin b -> cos a = cos b -> a = b.
Proof.
  intros a b Ha Hb S C. pose proof PI_RGT_0 as P.
  assert (D : cos (a - b) = 1) by (rewrite cos_minus, S, C; pose proof (sin2_cos2 b) as X; unfold Rsqr in X; lra).
  assert (H : cos (a - b) = 1 - 2 * sin ((a - b) / 2) * sin ((a - b) / 2)).
  { replace (a - b) with (2 * ((a - b) / 2)) at 1 by field. apply cos_2a_sin. }
  assert (Z : sin ((a - b) / 2) = 0) by nra.
  destruct (Rtotal_order a b) as [L|[E|G]]; [|exact E|].
  - exfalso. assert (sin ((b - a) / 2) > 0) by (apply sin_gt_0; lra). replace ((a - b) / 2) with (- ((b - a) / 2)) in Z by field. rewrite sin_neg in Z. lra.
  - exfalso. assert (sin ((a - b) / 2) > 0) by (apply sin_gt_0; lra). lra.
Qed.
Lemma arctan2_polar : forall r a, 0 < r -> - PI < a <= PI -> arctan2 (r * sin a) (r * cos a) = a.
Proof.
  intros r a Hr Ha. destruct (polar (r * cos a) (r * sin a)) as [S C].
  assert (E : sqrt (r * cos a * (r * cos a) + r * sin a * (r * sin a)) = r).
  { replace (r * cos a * (r * cos a) + r * sin a * (r * sin a)) with (r * r * (sin a * sin a + cos a * cos a)) by ring.
    pose proof (sin2_cos2 a) as X. unfold Rsqr in X. rewrite X, Rmult_1_r. apply sqrt_square. lra. }
  rewrite E in S, C. apply angle_unique; [apply arctan2_range|exact Ha| |].
  - apply (Rmult_eq_reg_r r); [|lra]. rewrite S. ring.
  - apply (Rmult_eq_reg_r r); [|lra]. rewrite C. ring.
Qed.
(** the direction of the scattered beam in the two descriptions *)
Lemma same_direction_1 : forall t p, 0 <= t <= PI ->
  let gn := calc_gamma_nu_by_ttheta_phi t p in
  cos (snd gn) * cos (fst gn) = cos t /\ sin (fst gn) * cos (snd gn) = sin t * cos p /\ sin (snd gn) = sin t * sin p.
Proof.
  intros t p Ht gn. unfold gn, calc_gamma_nu_by_ttheta_phi. cbn [fst snd]. destruct (polar (cos t) (sin t * cos p)) as [S C].
  pose proof (SIN_bound t) as B1. pose proof (SIN_bound p) as B2. pose proof (sin2_cos2 t) as X. pose proof (sin2_cos2 p) as Y. unfold Rsqr in X, Y.
  assert (R : -1 <= sin t * sin p <= 1) by nra. rewrite (sin_asin _ R), (cos_asin _ R). unfold Rsqr.
  assert (E : 1 - sin t * sin p * (sin t * sin p) = cos t * cos t + sin t * cos p * (sin t * cos p)) by nra. rewrite E.
  split; [rewrite Rmult_comm; exact C|]. split; [exact S|reflexivity].
Qed.
Lemma same_direction_2 : forall g n,
  let tp := calc_ttheta_phi_by_gamma_nu g n in
  cos (fst tp) = cos n * cos g /\ sin (fst tp) * cos (snd tp) = sin g * cos n /\ sin (fst tp) * sin (snd tp) = sin n.
Proof.
  intros g n tp. unfold tp, calc_ttheta_phi_by_gamma_nu. cbn [fst snd]. destruct (polar (sin g * cos n) (sin n)) as [S C].
  pose proof (COS_bound n) as B1. pose proof (COS_bound g) as B2. pose proof (sin2_cos2 g) as X. pose proof (sin2_cos2 n) as Y. unfold Rsqr in X, Y.
  assert (R : -1 <= cos n * cos g <= 1) by nra. rewrite (cos_acos _ R), (sin_acos _ R). unfold Rsqr.
  assert (E : 1 - cos n * cos g * (cos n * cos g) = sin g * cos n * (sin g * cos n) + sin n * sin n) by nra. rewrite E.
  split; [reflexivity|]. split; rewrite Rmult_comm; assumption.
Qed.
Lemma round_trip_1 : forall t p, 0 < t < PI -> - PI < p <= PI ->
  let gn := calc_gamma_nu_by_ttheta_phi t p in calc_ttheta_phi_by_gamma_nu (fst gn) (snd gn) = (t, p).
Proof.
  intros t p Ht Hp gn. destruct (same_direction_1 t p ltac:(lra)) as (A & B & C). fold gn in A, B, C. unfold calc_ttheta_phi_by_gamma_nu. rewrite A, B, C.
  f_equal; [apply acos_cos; lra|]. apply arctan2_polar; [apply sin_gt_0; lra|exact Hp].
Qed.
Lemma round_trip_2 : forall g n, - PI < g <= PI -> - (PI / 2) < n < PI / 2 ->
  let tp := calc_ttheta_phi_by_gamma_nu g n in calc_gamma_nu_by_ttheta_phi (fst tp) (snd tp) = (g, n).
Proof.
  intros g n Hg Hn tp. destruct (same_direction_2 g n) as (A & B & C). fold tp in A, B, C. unfold calc_gamma_nu_by_ttheta_phi. rewrite A, B, C.
  f_equal; [|apply asin_sin; lra]. replace (sin g * cos n) with (cos n * sin g) by ring. apply arctan2_polar; [apply cos_gt_0; lra|exact Hg].
Qed.
