(** Time of flight against interplanar distance; peak areas. *)
From Coq Require Import Reals List Lra Psatz.
From Coquelicot Require Import Coquelicot.
From Verif Require Import Spec.Special Model.Tof Model.Profile Proofs.GaussIntP Proofs.TofP Proofs.ProfileP.
Import ListNotations.
Open Scope R_scope.

Lemma sq_branch : forall zero dtt1 dtt2 d, 0 <= dtt1 + 2 * dtt2 * d ->
  sqrt (Rsqr dtt1 - 4 * (zero - calc_time_thermal d zero dtt1 dtt2) * dtt2) = dtt1 + 2 * dtt2 * d.
Proof.
  intros. replace (Rsqr dtt1 - 4 * (zero - calc_time_thermal d zero dtt1 dtt2) * dtt2) with (Rsqr (dtt1 + 2 * dtt2 * d)) by (unfold calc_time_thermal, Rsqr; ring).
  apply sqrt_Rsqr; assumption.
Qed.
Lemma sq_nonneg : forall zero dtt1 dtt2 d, 0 <= Rsqr dtt1 - 4 * (zero - calc_time_thermal d zero dtt1 dtt2) * dtt2.
Proof.
  intros. replace (Rsqr dtt1 - 4 * (zero - calc_time_thermal d zero dtt1 dtt2) * dtt2) with (Rsqr (dtt1 + 2 * dtt2 * d)) by (unfold calc_time_thermal, Rsqr; ring).
  apply Rle_0_sqr.
Qed.
Theorem d_of_time : forall zero dtt1 dtt2 d, 0 < dtt1 -> dtt2 <= 0 -> 0 <= dtt1 + 2 * dtt2 * d ->
  calc_d_by_time (calc_time_thermal d zero dtt1 dtt2) zero dtt1 dtt2 = Some d.
Proof.
  intros zero a b d A B C. unfold calc_d_by_time. cbv zeta. pose proof (sq_nonneg zero a b d). pose proof (sq_branch zero a b d C) as E.
  destruct (Rlt_dec b 0).
  - destruct (Rlt_dec _ 0); [lra|]. rewrite E. f_equal. field. lra.
  - destruct (Rlt_dec 0 b); [lra|]. destruct (Req_EM_T a 0); [lra|]. assert (b = 0) by lra. subst b. f_equal. unfold calc_time_thermal, Rsqr. field. lra.
Qed.
Theorem d_of_time_sound : forall time zero dtt1 dtt2 d, calc_d_by_time time zero dtt1 dtt2 = Some d -> calc_time_thermal d zero dtt1 dtt2 = time.
Proof.
  intros t zero a b d. unfold calc_d_by_time. cbv zeta. set (q := Rsqr a - 4 * (zero - t) * b).
  destruct (Rlt_dec b 0).
  - destruct (Rlt_dec q 0); [discriminate|]. intros E. injection E as <-. assert (S : sqrt q * sqrt q = q) by (apply sqrt_sqrt; lra).
    unfold calc_time_thermal, Rsqr. replace (zero + a * ((sqrt q - a) / (2 * b)) + b * ((sqrt q - a) / (2 * b) * ((sqrt q - a) / (2 * b))))
      with (zero + (sqrt q * sqrt q - a * a) / (4 * b)) by (field; lra). rewrite S. unfold q, Rsqr. field. lra.
  - destruct (Rlt_dec 0 b).
    + destruct (Rlt_dec q 0); [discriminate|]. intros E. injection E as <-. assert (S : sqrt q * sqrt q = q) by (apply sqrt_sqrt; lra).
      unfold calc_time_thermal, Rsqr. replace (zero + a * ((- sqrt q - a) / (2 * b)) + b * ((- sqrt q - a) / (2 * b) * ((- sqrt q - a) / (2 * b))))
        with (zero + (sqrt q * sqrt q - a * a) / (4 * b)) by (field; lra). rewrite S. unfold q, Rsqr. field. lra.
    + destruct (Req_EM_T a 0); [discriminate|]. intros E. injection E as <-. assert (b = 0) by lra. subst b. unfold calc_time_thermal, Rsqr. field. assumption.
Qed.
Theorem d_of_time_wrong_root : forall zero dtt1 dtt2 d, 0 < dtt1 -> 0 < dtt2 -> 0 < d ->
  exists d', calc_d_by_time (calc_time_thermal d zero dtt1 dtt2) zero dtt1 dtt2 = Some d' /\ d' = - d - dtt1 / dtt2 /\ d' < 0.
Proof.
  intros zero a b d A B D. exists (- d - a / b). assert (0 < a / b) by (apply Rdiv_lt_0_compat; lra). split; [|split; [reflexivity|lra]].
  unfold calc_d_by_time. cbv zeta. pose proof (sq_nonneg zero a b d). destruct (Rlt_dec b 0); [lra|]. destruct (Rlt_dec 0 b); [|lra].
  destruct (Rlt_dec _ 0); [lra|]. rewrite sq_branch by nra. f_equal. field. lra.
Qed.
(* ---- range ---- *)
Lemma d_end_of_time : forall zero dtt1 dtt2 d, dtt2 <> 0 -> 0 <= dtt1 + 2 * dtt2 * d -> d_end (calc_time_thermal d zero dtt1 dtt2) zero dtt1 dtt2 = Some d.
Proof.
  intros zero a b d B C. unfold d_end. cbv zeta. destruct (Req_EM_T b 0); [contradiction|].
  replace (Rsqr a - 4 * b * (zero - calc_time_thermal d zero a b)) with (Rsqr a - 4 * (zero - calc_time_thermal d zero a b) * b) by ring.
  pose proof (sq_nonneg zero a b d). destruct (Rlt_dec _ 0); [lra|]. rewrite sq_branch by assumption. f_equal. field. assumption.
Qed.
Lemma time_increasing : forall zero dtt1 dtt2 d e, 0 < dtt1 -> 0 <= dtt1 + 2 * dtt2 * d -> 0 <= dtt1 + 2 * dtt2 * e ->
  d < e -> calc_time_thermal d zero dtt1 dtt2 < calc_time_thermal e zero dtt1 dtt2.
Proof.
  intros zero a b d e A C D L. unfold calc_time_thermal, Rsqr.
  assert (0 < (e - d) * (a + b * (d + e))); [|nra]. apply Rmult_lt_0_compat; [lra|].
  destruct (Rtotal_order b 0) as [N|[Z|P]].
  - assert (b * e < b * d) by nra. nra.
  - subst b. lra.
  - assert (b * d < b * e) by nra. nra.
Qed.
Lemma time_le : forall zero dtt1 dtt2 d e, 0 < dtt1 -> 0 <= dtt1 + 2 * dtt2 * d -> 0 <= dtt1 + 2 * dtt2 * e ->
  (calc_time_thermal d zero dtt1 dtt2 <= calc_time_thermal e zero dtt1 dtt2 <-> d <= e).
Proof.
  intros zero a b d e A C D. destruct (Rtotal_order d e) as [L|[E|G]].
  - pose proof (time_increasing zero a b d e A C D L). split; intros; lra.
  - subst e. split; intros; lra.
  - pose proof (time_increasing zero a b e d A D C G). split; intros; lra.
Qed.
Lemma np_min_map : forall (P : R -> Prop) f, (forall x y, P x -> P y -> (f x <= f y <-> x <= y)) -> forall l x, P x -> List.Forall P l ->
  np_min (f x) (map f l) = f (np_min x l) /\ P (np_min x l).
Proof.
  intros P f M. unfold np_min. induction l as [|y l IH]; intros x X F; simpl; [auto|]. inversion F as [|? ? Y F']; subst.
  assert (E : Rmin (f x) (f y) = f (Rmin x y)). { specialize (M x y X Y). unfold Rmin. destruct (Rle_dec x y), (Rle_dec (f x) (f y)); tauto. }
  rewrite E. apply IH; [|assumption]. unfold Rmin. destruct (Rle_dec x y); assumption.
Qed.
Lemma np_max_map : forall (P : R -> Prop) f, (forall x y, P x -> P y -> (f x <= f y <-> x <= y)) -> forall l x, P x -> List.Forall P l ->
  np_max (f x) (map f l) = f (np_max x l) /\ P (np_max x l).
Proof.
  intros P f M. unfold np_max. induction l as [|y l IH]; intros x X F; simpl; [auto|]. inversion F as [|? ? Y F']; subst.
  assert (E : Rmax (f x) (f y) = f (Rmax x y)). { specialize (M x y X Y). unfold Rmax. destruct (Rle_dec x y), (Rle_dec (f x) (f y)); tauto. }
  rewrite E. apply IH; [|assumption]. unfold Rmax. destruct (Rle_dec x y); assumption.
Qed.
Theorem d_range : forall zero dtt1 dtt2 d0 ds, 0 < dtt1 -> dtt2 <> 0 -> List.Forall (fun d => 0 <= dtt1 + 2 * dtt2 * d) (d0 :: ds) ->
  let time := fun d => calc_time_thermal d zero dtt1 dtt2 in
  exists lo hi, calc_d_min_max (time d0) (map time ds) zero dtt1 dtt2 = (Some lo, Some hi) /\
    forall d, 0 <= dtt1 + 2 * dtt2 * d -> (lo <= d <= hi <-> np_min (time d0) (map time ds) <= time d <= np_max (time d0) (map time ds)).
Proof.
  intros zero a b d0 ds A B F time. inversion F as [|? ? F0 F']; subst.
  pose proof (fun x y X Y => time_le zero a b x y A X Y) as M.
  destruct (np_min_map (fun d => 0 <= a + 2 * b * d) time M ds d0 F0 F') as [E1 P1].
  destruct (np_max_map (fun d => 0 <= a + 2 * b * d) time M ds d0 F0 F') as [E2 P2].
  exists (np_min d0 ds), (np_max d0 ds). unfold calc_d_min_max. rewrite E1, E2. unfold time at 1 2. rewrite !d_end_of_time by assumption. split; [reflexivity|].
  intros d D. pose proof (M _ _ P1 D). pose proof (M _ _ D P2). unfold time. tauto.
Qed.
Theorem d_range_linear : forall t0 ts zero dtt1, calc_d_min_max t0 ts zero dtt1 0 = (None, None).
Proof. intros. unfold calc_d_min_max, d_end. cbv zeta. destruct (Req_EM_T 0 0); [reflexivity|contradiction]. Qed.
Lemma np_min_in : forall l x, np_min x l <= x /\ List.Forall (fun y => np_min x l <= y) l.
Proof.
  unfold np_min. induction l as [|y l IH]; intros x; simpl; [split; [lra|constructor]|]. destruct (IH (Rmin x y)) as [A B].
  pose proof (Rmin_l x y). pose proof (Rmin_r x y). split; [lra|constructor; [lra|assumption]].
Qed.
Lemma np_max_in : forall l x, x <= np_max x l /\ List.Forall (fun y => y <= np_max x l) l.
Proof.
  unfold np_max. induction l as [|y l IH]; intros x; simpl; [split; [lra|constructor]|]. destruct (IH (Rmax x y)) as [A B].
  pose proof (Rmax_l x y). pose proof (Rmax_r x y). split; [lra|constructor; [lra|assumption]].
Qed.
Theorem epithermal_range : forall width x_cross, let t := calc_time_epithermal 2 0 1 0 1 1 width x_cross in
  exists lo hi, calc_d_min_max_epithermal t [] 0 1 0 1 1 = Some (lo, hi) /\ hi < 2.
Proof.
  intros w x t.
  assert (T : 3/2 < t < 2).
  { unfold t, calc_time_epithermal. cbv zeta. set (e := erfc _). assert (0 < e) by apply erfc_pos.
    assert (e < 2). { unfold e. pose proof (erfc_pos (- (w * (x - 1 / 2)))) as P. set (y := w * (x - 1/2)) in *.
      assert (Q : erfc y + erfc (- y) = 2). { unfold erfc. rewrite !erf_G, G_odd. ring. } lra. }
    split; nra. }
  unfold calc_d_min_max_epithermal, calc_d_min_max, np_min, np_max, d_end. cbv zeta. simpl fold_left.
  destruct (Req_EM_T 1 0); [lra|]. destruct (Rlt_dec _ 0) as [L|L]; [unfold Rsqr in L; lra|].
  eexists; eexists; split; [reflexivity|]. apply Rmax_lub_lt; [|lra].
  assert (sqrt (Rsqr 1 - 4 * 1 * (0 - t)) < 5); [|lra]. rewrite <- (sqrt_Rsqr 5) by lra. apply sqrt_lt_1_alt. unfold Rsqr in *. lra.
Qed.

(* ---- areas ---- *)
Lemma erfc_lin_derive : forall k x, is_derive (fun x : R => - (1/2) * erfc (k * x)) x (k / sqrt PI * exp (- ((k * x) * (k * x)))).
Proof.
  intros k x. evar (v : R). match goal with |- is_derive _ _ ?w => replace w with v end.
  - apply (is_derive_scal (fun x => erfc (k * x)) x (- (1/2))). apply (is_derive_comp erfc (fun x => k * x)); [apply erfc_derive|].
    instantiate (1 := k). auto_derive; [trivial|ring].
  - unfold v, scal. simpl. unfold mult. simpl. pose proof sqrt_PI_pos. field. lra.
Qed.
Lemma lin_lim2 : forall k, 0 < k -> is_lim (fun x => k * x) p_infty p_infty /\ is_lim (fun x => k * x) m_infty m_infty.
Proof.
  intros k K. split.
  - intros P [M HM]. exists (M / k). intros t L. apply HM. apply (Rmult_lt_compat_l k) in L; [|exact K]. replace (k * (M / k)) with M in L by (field; lra). exact L.
  - intros P [M HM]. exists (M / k). intros t L. apply HM. apply (Rmult_lt_compat_l k) in L; [|exact K]. replace (k * (M / k)) with M in L by (field; lra). exact L.
Qed.
Lemma atan_inf : is_lim atan p_infty (PI / 2).
Proof.
  pose proof PI_RGT_0 as PP. intros Q [eps HQ]. exists (tan (Rmax (PI / 2 - eps) 0)). intros x Hx. apply HQ.
  assert (B : 0 <= Rmax (PI / 2 - eps) 0 < PI / 2).
  { split; [apply Rmax_r|]. destruct eps as [e He]. cbn. unfold Rmax. destruct (Rle_dec (PI / 2 - e) 0); lra. }
  assert (L : Rmax (PI / 2 - eps) 0 < atan x). { rewrite <- (atan_tan (Rmax (PI / 2 - eps) 0)) by lra. apply atan_increasing. exact Hx. }
  pose proof (atan_bound x) as AB. pose proof (Rmax_l (PI / 2 - eps) 0). unfold ball; cbn; unfold AbsRing_ball, abs, minus, plus, opp; cbn.
  rewrite Rabs_left by lra. lra.
Qed.
Lemma atan_minf : is_lim atan m_infty (- (PI / 2)).
Proof.
  apply (is_lim_ext (fun x => - atan (- x))); [intros; rewrite atan_opp; ring|].
  apply (is_lim_opp (fun x => atan (- x)) m_infty (PI / 2)). apply (is_lim_comp atan (fun x => - x) m_infty (PI / 2) p_infty); [apply atan_inf| |exists 0; intros; discriminate].
  replace p_infty with (Rbar_opp m_infty) by reflexivity. apply is_lim_opp, is_lim_id.
Qed.
Lemma gauss_area_k : forall k, 0 < k -> area (fun x => k / sqrt PI * exp (- ((k * x) * (k * x)))) 1.
Proof.
  intros k K. unfold area. destruct (lin_lim2 k K) as [LP LM].
  replace 1 with (- (1/2) * 0 - - (1/2) * 2) by lra.
  apply (antiderivative_int (fun x : R => - (1/2) * erfc (k * x)) (fun x => k / sqrt PI * exp (- ((k * x) * (k * x)))) (- (1/2) * 2) (- (1/2) * 0)).
  - apply erfc_lin_derive.
  - intros x. apply (ex_derive_continuous (fun x => k / sqrt PI * exp (- ((k * x) * (k * x))))). auto_derive. trivial.
  - apply (is_lim_scal_l (fun x => erfc (k * x)) (- (1/2)) m_infty 2). apply (is_lim_comp erfc (fun x => k * x) m_infty 2 m_infty); [apply erfc_minf|exact LM|exists 0; intros; discriminate].
  - apply (is_lim_scal_l (fun x => erfc (k * x)) (- (1/2)) p_infty 0). apply (is_lim_comp erfc (fun x => k * x) p_infty 0 p_infty); [apply erfc_inf|exact LP|exists 0; intros; discriminate].
Qed.
Lemma area_ext : forall f g v, (forall x, f x = g x) -> area f v -> area g v.
Proof.
  intros f g v E A. unfold area in *. eapply is_RInt_gen_ext; [|exact A]. exists (fun _ => True) (fun _ => True); [exists 0; trivial|exists 0; trivial|].
  intros x y _ _ z _. apply E.
Qed.
Theorem gauss_area : forall h, 0 < h -> area (fun t => func_gauss_by_h_pv (t * PI / 180) h) 1.
Proof.
  intros h H. pose proof PI_RGT_0 as PP. assert (L : 0 < ln 2) by (rewrite <- ln_1; apply ln_increasing; lra).
  assert (K : 0 < 2 * sqrt (ln 2) / h). { apply Rdiv_lt_0_compat; [|lra]. pose proof (sqrt_lt_R0 _ L). lra. }
  refine (area_ext _ _ 1 _ (gauss_area_k _ K)). intros x. unfold func_gauss_by_h_pv. cbv zeta.
  rewrite sqrt_div_alt by lra. pose proof sqrt_PI_pos. f_equal.
  - field. split; lra.
  - f_equal. transitivity (- (4 * (sqrt (ln 2) * sqrt (ln 2)) / (h * h) * (x * x))); [field; lra|]. rewrite sqrt_sqrt by lra. unfold Rsqr. field. split; lra.
Qed.
Theorem z_gaussian_area : forall s, 0 < s -> area (fun x => z_gaussian x s) 1.
Proof.
  intros s S. pose proof PI_RGT_0 as PP. pose proof sqrt2_pos as S2. assert (K : 0 < / (s * sqrt 2)) by (apply Rinv_0_lt_compat; nra).
  refine (area_ext _ _ 1 _ (gauss_area_k _ K)). intros x. unfold z_gaussian. rewrite sqrt_mult_alt by lra. pose proof sqrt_PI_pos.
  transitivity (exp (- (5/10) * Rsqr (x / s)) * (/ (s * sqrt 2) / sqrt PI)).
  - rewrite Rmult_comm. f_equal. f_equal. transitivity (- (x * x) / (s * s * (sqrt 2 * sqrt 2))); [field; lra|]. rewrite sqrt_sqrt by lra. unfold Rsqr. field. lra.
  - unfold Rdiv. field. repeat split; lra.
Qed.
Theorem z_gaussian_normal : forall s x, 0 < s -> z_gaussian x s = normal s x.
Proof. intros s x S. unfold z_gaussian, normal. f_equal; [|ring]. f_equal. unfold Rsqr. field. lra. Qed.
Lemma atan_area : forall k, 0 < k -> area (fun x => k / PI / (1 + (k * x) * (k * x))) 1.
Proof.
  intros k K. unfold area. pose proof PI_RGT_0 as PP. destruct (lin_lim2 k K) as [LP LM].
  assert (E1 : / PI * (PI / 2) - / PI * (- (PI / 2)) = 1) by (field; lra).
  pose proof (antiderivative_int (fun x : R => / PI * atan (k * x)) (fun x => k / PI / (1 + (k * x) * (k * x))) (/ PI * (- (PI / 2))) (/ PI * (PI / 2))) as X. rewrite E1 in X. apply X; clear X.
  - intros x. assert (0 < 1 + (k * x) * (k * x)) by nra. auto_derive; [trivial|]. unfold Rsqr, Rdiv. field. split; nra.
  - intros x. assert (0 < 1 + (k * x) * (k * x)) by nra. apply (ex_derive_continuous (fun x => k / PI / (1 + (k * x) * (k * x)))). auto_derive. lra.
  - apply (is_lim_scal_l (fun x => atan (k * x)) (/ PI) m_infty (- (PI / 2))). apply (is_lim_comp atan (fun x => k * x) m_infty (- (PI / 2)) m_infty); [|exact LM|exists 0; intros; discriminate].
    apply atan_minf.
  - apply (is_lim_scal_l (fun x => atan (k * x)) (/ PI) p_infty (PI / 2)). apply (is_lim_comp atan (fun x => k * x) p_infty (PI / 2) p_infty); [|exact LP|exists 0; intros; discriminate].
    apply atan_inf.
Qed.
Theorem lorentz_area_deg : forall h, 0 < h -> area (fun t => func_lorentz_by_h_pv (t * PI / 180) h) 1.
Proof.
  intros h H. pose proof PI_RGT_0 as PP. assert (K : 0 < 2 / h) by (apply Rdiv_lt_0_compat; lra).
  refine (area_ext _ _ 1 _ (atan_area _ K)). intros x. unfold func_lorentz_by_h_pv, Rsqr. cbv zeta. field. repeat split; nra.
Qed.
Theorem z_lorentz_area : forall h, 0 < h -> area (fun x => z_lorentz x h) 1.
Proof.
  intros h H. pose proof PI_RGT_0 as PP. assert (K : 0 < 2 / h) by (apply Rdiv_lt_0_compat; lra).
  refine (area_ext _ _ 1 _ (atan_area _ K)). intros x. unfold z_lorentz, Rsqr. field. repeat split; nra.
Qed.
Lemma area_mix : forall f g e, area f 1 -> area g 1 -> area (fun x => e * f x + (1 - e) * g x) 1.
Proof.
  intros f g e A B. unfold area in *.
  pose proof (is_RInt_gen_plus (fun x => e * f x) (fun x => (1 - e) * g x) _ _ (is_RInt_gen_scal f e 1 A) (is_RInt_gen_scal g (1 - e) 1 B)) as X.
  match type of X with is_RInt_gen _ _ _ ?w => assert (E : w = 1) by (unfold plus, scal; simpl; unfold mult; simpl; ring) end. rewrite E in X. exact X.
Qed.
Theorem pseudo_voigt_area : forall eta h, 0 < h ->
  area (fun t => eta * func_lorentz_by_h_pv (t * PI / 180) h + (1 - eta) * func_gauss_by_h_pv (t * PI / 180) h) 1.
Proof. intros. apply (area_mix (fun t => func_lorentz_by_h_pv (t * PI / 180) h) (fun t => func_gauss_by_h_pv (t * PI / 180) h)); [apply lorentz_area_deg|apply gauss_area]; assumption. Qed.
Theorem z_profile_area : forall s al b0 b1 r, 0 < s -> 0 < al -> 0 < b0 -> 0 < b1 -> area (fun x => z_profile_g x s al b0 b1 r) 1.
Proof.
  intros s al b0 b1 r S A B0 B1. unfold z_profile_g. apply (area_mix (fun x => calc_e_beta_g x s al b0) (fun x => calc_e_beta_g x s al b1));
    [apply (area_ext (tof_Jorgensen al b0 s))|apply (area_ext (tof_Jorgensen al b1 s))];
    try (intros x; symmetry; apply zcode_is_jorgensen; assumption); apply jorgensen_area; assumption.
Qed.
(* ---- widths ---- *)
Theorem tof_width_same : forall h_g h_l, calc_hpv h_g h_l = calc_h_pv h_g h_l /\ z_h_com h_g h_l = calc_h_pv h_g h_l.
Proof. intros. unfold calc_hpv, z_h_com, calc_h_pv, h_pv_5, Rsqr. cbv zeta. split; f_equal; ring. Qed.
Theorem tof_eta_same : forall h_g h_l, calc_eta_tof h_g h_l = calc_eta h_l (calc_h_pv h_g h_l) /\ z_eta h_l (z_h_com h_g h_l) = calc_eta h_l (calc_h_pv h_g h_l).
Proof.
  intros. unfold calc_eta_tof, z_eta, calc_eta. cbv zeta. rewrite (proj1 (tof_width_same h_g h_l)), (proj2 (tof_width_same h_g h_l)). unfold Rsqr, Rdiv. split; ring.
Qed.
Lemma eta_poly_inc : forall x y, 0 <= x < y -> y <= 1 ->
  136603/100000 * x - 47719/100000 * x ^ 2 + 11116/100000 * x ^ 3 < 136603/100000 * y - 47719/100000 * y ^ 2 + 11116/100000 * y ^ 3.
Proof.
  intros x y X Y. assert (0 < (y - x) * (136603/100000 - 47719/100000 * (x + y) + 11116/100000 * (x * x + x * y + y * y))); [|nra].
  apply Rmult_lt_0_compat; [lra|]. nra.
Qed.
Theorem tof_eta_overestimated : forall sigma gamma, 0 < sigma -> 0 < gamma -> z_eta gamma (z_h_com (z_h_g sigma) gamma) < calc_eta_tof sigma gamma.
Proof.
  intros s g S G0. pose proof ProfileP.h_pv_bounds as B. assert (L : 1/2 < ln 2).
  { assert (exp (1/2) < 2). { apply Rsqr_incrst_0; [|left; apply exp_pos|lra]. unfold Rsqr. rewrite <- exp_plus. replace (1/2+1/2) with 1 by lra. pose proof exp_le_3. lra. }
    rewrite <- (ln_exp (1/2)). apply ln_increasing; [apply exp_pos|lra]. }
  assert (HG : s < z_h_g s). { unfold z_h_g. assert (1 < sqrt (8 * ln 2)). { rewrite <- sqrt_1 at 1. apply sqrt_lt_1_alt. lra. } nra. }
  unfold z_eta, calc_eta_tof. cbv zeta. rewrite (proj1 (tof_width_same s g)), (proj2 (tof_width_same (z_h_g s) g)).
  destruct (B s g S (Rlt_le _ _ G0)) as [B1 [B2 _]]. destruct (B (z_h_g s) g ltac:(lra) (Rlt_le _ _ G0)) as [B3 [B4 _]].
  assert (I : calc_h_pv s g < calc_h_pv (z_h_g s) g).
  { unfold calc_h_pv. apply Rlt_Rpower_l; [lra|]. unfold h_pv_5, Rsqr. cbv zeta. set (h := z_h_g s) in *. clearbody h. clear - S G0 HG.
    assert (P2 : s * s < h * h) by nra. assert (P3 : s * s * s < h * h * h) by nra.
    assert (P4 : s * s * (s * s) < h * h * (h * h)) by nra. assert (P5 : s * s * (s * s) * s < h * h * (h * h) * h) by nra.
    assert (0 < g * g) by nra. assert (0 < g * g * g) by nra. assert (0 < g * g * (g * g)) by nra.
    split.
    - assert (0 < s * s) by nra. assert (0 < s * s * s) by nra. assert (0 < s * s * (s * s)) by nra. assert (0 < s * s * (s * s) * s) by nra.
      assert (0 < g * g * (g * g) * g) by nra. repeat apply Rplus_lt_0_compat; repeat apply Rmult_lt_0_compat; lra.
    - assert (s * s * (s * s) * g < h * h * (h * h) * g) by (apply Rmult_lt_compat_r; lra).
      assert (s * s * s * (g * g) < h * h * h * (g * g)) by (apply Rmult_lt_compat_r; lra).
      assert (s * s * (g * g * g) < h * h * (g * g * g)) by (apply Rmult_lt_compat_r; lra).
      assert (s * (g * g * (g * g)) < h * (g * g * (g * g))) by (apply Rmult_lt_compat_r; lra). lra. }
  replace (g * 1 / calc_h_pv s g) with (g / calc_h_pv s g) by (unfold Rdiv; ring).
  rewrite Rsqr_pow2. apply eta_poly_inc.
  - split; [left; apply Rdiv_lt_0_compat; lra|]. unfold Rdiv. apply Rmult_lt_compat_l; [lra|]. apply Rinv_lt_contravar; [|lra]. nra.
  - apply (Rmult_le_reg_r (calc_h_pv s g)); [lra|]. unfold Rdiv. rewrite Rmult_assoc, Rinv_l by lra. lra.
Qed.
