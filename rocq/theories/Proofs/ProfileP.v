(** Profile functions (C44-C46). *)
From Coq Require Import Reals Lra Psatz.
From Coquelicot Require Import Coquelicot.
From Verif Require Import Model.Profile.
Open Scope R_scope.

Lemma deg_pos : 0 < 180 / PI. Proof. apply Rdiv_lt_0_compat; [lra|apply PI_RGT_0]. Qed.
Lemma ln2_pos : 0 < ln 2. Proof. rewrite <- ln_1. apply ln_increasing; lra. Qed.
(** * Gaussian *)
Lemma gauss_form : forall z h, 0 < h -> func_gauss_by_h_pv z h = 2 / h * sqrt (ln 2 / PI) * exp (- (4 * ln 2 * Rsqr (z * 180 / PI / h))).
Proof.
  intros z h Hh. unfold func_gauss_by_h_pv. pose proof PI_neq0 as P.
  assert (E : - (4 * ln 2 * Rsqr (1 / h)) * Rsqr (z * 180 / PI) = - (4 * ln 2 * Rsqr (z * 180 / PI / h))) by (unfold Rsqr; field; split; (lra || exact P)).
  rewrite E. unfold Rdiv. ring.
Qed.
Lemma gauss_amp : forall h, 0 < h -> 0 < 2 / h * sqrt (ln 2 / PI).
Proof.
  intros h Hh. apply Rmult_lt_0_compat; [apply Rdiv_lt_0_compat; lra|]. apply sqrt_lt_R0. apply Rdiv_lt_0_compat; [apply ln2_pos|apply PI_RGT_0].
Qed.
Lemma gauss_pos : forall z h, 0 < h -> 0 < func_gauss_by_h_pv z h.
Proof. intros. rewrite gauss_form by assumption. apply Rmult_lt_0_compat; [apply gauss_amp; assumption|apply exp_pos]. Qed.
Lemma gauss_even : forall z h, func_gauss_by_h_pv (- z) h = func_gauss_by_h_pv z h.
Proof. intros. unfold func_gauss_by_h_pv. replace (- z * 180 / PI) with (- (z * 180 / PI)) by (unfold Rdiv; ring). rewrite <- Rsqr_neg. reflexivity. Qed.
Lemma gauss_decreasing : forall z1 z2 h, 0 < h -> Rabs z1 <= Rabs z2 -> func_gauss_by_h_pv z2 h <= func_gauss_by_h_pv z1 h.
Proof.
  intros z1 z2 h Hh H. rewrite !gauss_form by assumption. apply Rmult_le_compat_l; [left; apply gauss_amp; exact Hh|].
  pose proof ln2_pos as L. assert (S : Rsqr (z1 * 180 / PI / h) <= Rsqr (z2 * 180 / PI / h)).
  { replace (z1 * 180 / PI / h) with (z1 * (180 / PI / h)) by (unfold Rdiv; ring). replace (z2 * 180 / PI / h) with (z2 * (180 / PI / h)) by (unfold Rdiv; ring).
    rewrite !Rsqr_mult. apply Rmult_le_compat_r; [apply Rle_0_sqr|]. apply Rsqr_le_abs_1. exact H. }
  destruct (Req_dec (4 * ln 2 * Rsqr (z2 * 180 / PI / h)) (4 * ln 2 * Rsqr (z1 * 180 / PI / h))) as [E|NE]; [rewrite E; lra|].
  left. apply exp_increasing. nra.
Qed.
Lemma gauss_half : forall h, 0 < h -> func_gauss_by_h_pv (h / 2 * PI / 180) h = func_gauss_by_h_pv 0 h / 2.
Proof.
  intros h Hh. rewrite !gauss_form by assumption.
  replace (h / 2 * PI / 180 * 180 / PI / h) with (1 / 2) by (pose proof PI_neq0; field; split; (lra || assumption)).
  replace (0 * 180 / PI / h) with 0 by (pose proof PI_neq0; field; split; (lra || assumption)).
  replace (- (4 * ln 2 * (1 / 2)²)) with (- ln 2) by (unfold Rsqr; field). rewrite exp_Ropp, exp_ln by lra.
  replace (- (4 * ln 2 * 0²)) with 0 by (unfold Rsqr; ring). rewrite exp_0. field. lra.
Qed.
(** * Lorentzian *)
Lemma lor_den : forall z h, 0 < h -> 0 < 1 + 4 * Rsqr (1 / h) * Rsqr (z * 180 / PI).
Proof. intros. pose proof (Rle_0_sqr (1 / h)). pose proof (Rle_0_sqr (z * 180 / PI)). nra. Qed.
Lemma lor_amp : forall h, 0 < h -> 0 < 2 / PI * (1 / h).
Proof. intros. apply Rmult_lt_0_compat; apply Rdiv_lt_0_compat; try lra. apply PI_RGT_0. Qed.
Lemma lorentz_pos : forall z h, 0 < h -> 0 < func_lorentz_by_h_pv z h.
Proof. intros. unfold func_lorentz_by_h_pv. apply Rdiv_lt_0_compat; [apply lor_amp; assumption|apply lor_den; assumption]. Qed.
Lemma lorentz_even : forall z h, func_lorentz_by_h_pv (- z) h = func_lorentz_by_h_pv z h.
Proof. intros. unfold func_lorentz_by_h_pv. replace (- z * 180 / PI) with (- (z * 180 / PI)) by (unfold Rdiv; ring). rewrite <- Rsqr_neg. reflexivity. Qed.
Lemma lorentz_decreasing : forall z1 z2 h, 0 < h -> Rabs z1 <= Rabs z2 -> func_lorentz_by_h_pv z2 h <= func_lorentz_by_h_pv z1 h.
Proof.
  intros z1 z2 h Hh H. unfold func_lorentz_by_h_pv. unfold Rdiv at 1 6. apply Rmult_le_compat_l; [left; apply lor_amp; exact Hh|].
  apply Rinv_le_contravar; [apply lor_den; exact Hh|]. apply Rplus_le_compat_l. apply Rmult_le_compat_l; [pose proof (Rle_0_sqr (1 / h)); lra|].
  replace (z1 * 180 / PI) with (z1 * (180 / PI)) by (unfold Rdiv; ring). replace (z2 * 180 / PI) with (z2 * (180 / PI)) by (unfold Rdiv; ring).
  rewrite !Rsqr_mult. apply Rmult_le_compat_r; [apply Rle_0_sqr|]. apply Rsqr_le_abs_1. exact H.
Qed.
Lemma lorentz_half : forall h, 0 < h -> func_lorentz_by_h_pv (h / 2 * PI / 180) h = func_lorentz_by_h_pv 0 h / 2.
Proof.
  intros h Hh. unfold func_lorentz_by_h_pv. pose proof PI_RGT_0.
  replace (h / 2 * PI / 180 * 180 / PI) with (h / 2) by (field; lra). replace (0 * 180 / PI) with 0 by (field; lra). unfold Rsqr. field. lra.
Qed.
(** area under the Lorentzian in degrees *)
Lemma lorentz_area : forall h T, 0 < h -> is_RInt (fun t => func_lorentz_by_h_pv (t * PI / 180) h) (- T) T (2 / PI * atan (2 * T / h)).
Proof.
  intros h T Hh. pose proof PI_RGT_0 as P.
  replace (2 / PI * atan (2 * T / h)) with (minus (1 / PI * atan (2 * T / h)) (1 / PI * atan (2 * (- T) / h))).
  2:{ unfold minus, plus, opp; cbn. replace (2 * - T / h) with (- (2 * T / h)) by (field; lra). rewrite atan_opp. field. lra. }
  apply (is_RInt_derive (fun t => 1 / PI * atan (2 * t / h))).
  - intros t _. unfold func_lorentz_by_h_pv.
    evar_last; [auto_derive; [lra|reflexivity]|]. replace (t * PI / 180 * 180 / PI) with t by (field; lra). unfold Rsqr. field.
    repeat split; try lra. nra.
  - intros t _. unfold func_lorentz_by_h_pv. apply (ex_derive_continuous (V := R_NormedModule)). auto_derive. pose proof (lor_den (t * PI / 180) h Hh) as D. unfold Rsqr in D. unfold Rsqr.
    apply Rgt_not_eq. unfold Rdiv in *. lra.
Qed.
Lemma lorentz_normalised : forall h, 0 < h -> is_lim (fun T => RInt (fun t => func_lorentz_by_h_pv (t * PI / 180) h) (- T) T) p_infty 1.
Proof.
  intros h Hh. pose proof PI_RGT_0 as P.
  apply (is_lim_ext (fun T => 2 / PI * atan (2 / h * T))).
  - intros T. symmetry. apply is_RInt_unique. replace (2 / h * T) with (2 * T / h) by (field; lra). apply lorentz_area. exact Hh.
  - replace 1 with (2 / PI * (PI / 2)) by (field; lra). apply (is_lim_scal_l _ (2 / PI) p_infty (PI / 2)).
    apply (is_lim_comp atan (fun T => 2 / h * T) p_infty (PI / 2) p_infty).
    + assert (A : is_lim atan p_infty (PI / 2)).
      { intros Q [eps HQ]. exists (tan (Rmax (PI / 2 - eps) 0)). intros x Hx. apply HQ.
        assert (B : 0 <= Rmax (PI / 2 - eps) 0 < PI / 2).
        { split; [apply Rmax_r|]. destruct eps as [e He]. cbn. unfold Rmax. destruct (Rle_dec (PI / 2 - e) 0); lra. }
        assert (L : Rmax (PI / 2 - eps) 0 < atan x). { rewrite <- (atan_tan (Rmax (PI / 2 - eps) 0)) by lra. apply atan_increasing. exact Hx. }
        pose proof (atan_bound x) as AB. pose proof (Rmax_l (PI / 2 - eps) 0). unfold ball; cbn; unfold AbsRing_ball, abs, minus, plus, opp; cbn.
        rewrite Rabs_left by lra. lra. }
      exact A.
    + pose proof (is_lim_scal_l (fun T => T) (2 / h) p_infty p_infty (is_lim_id p_infty)) as L.
      assert (E : Rbar_mult (2 / h) p_infty = p_infty).
      { cbn. assert (0 < 2 / h) by (apply Rdiv_lt_0_compat; lra). destruct (Rle_dec 0 (2 / h)); [|lra]. destruct (Rle_lt_or_eq_dec 0 (2 / h) r); [reflexivity|lra]. }
      rewrite E in L. exact L.
    + exists 0. intros x _. discriminate.
Qed.
(** * widths *)
Definition fifth (x : R) : R := x * x * x * x * x.
Lemma h_pv_5_form : forall g l, h_pv_5 g l = fifth g + 269269/100000 * (g*g*g*g) * l + 242843/100000 * (g*g*g) * (l*l) + 447163/100000 * (g*g) * (l*l*l) + 7842/100000 * g * (l*l*l*l) + fifth l.
Proof. intros. unfold h_pv_5, fifth, Rsqr. ring. Qed.
Lemma fifth_root : forall x, 0 < x -> Rpower (fifth x) (2/10) = x.
Proof.
  intros x Hx. replace (fifth x) with (Rpower x 5).
  - rewrite Rpower_mult. replace (5 * (2 / 10)) with 1 by field. apply Rpower_1. exact Hx.
  - replace 5 with (INR 5) by (cbn; ring). rewrite Rpower_pow by exact Hx. unfold fifth. cbn. ring.
Qed.
Lemma root_le : forall a b, 0 < a -> a <= b -> Rpower a (2/10) <= Rpower b (2/10).
Proof. intros a b Ha Hab. apply Rle_Rpower_l; [lra|]. split; assumption. Qed.
Lemma mono_pos : forall a b, 0 <= a -> 0 <= b -> 0 <= a * b. Proof. intros; nra. Qed.
Lemma h_pv_5_ge_l : forall g l, 0 <= g -> 0 < l -> fifth l <= h_pv_5 g l /\ 0 < fifth l.
Proof.
  intros g l Hg Hl. rewrite h_pv_5_form. unfold fifth.
  assert (0 <= g*g) by nra. assert (0 <= l*l) by nra. assert (0 <= g*g*g) by nra. assert (0 <= l*l*l) by nra. assert (0 <= g*g*g*g) by nra. assert (0 <= l*l*l*l) by nra. assert (0 <= g*g*g*g*g) by nra.
  pose proof (mono_pos (g*g*g*g) l ltac:(lra) ltac:(lra)). pose proof (mono_pos (g*g*g) (l*l) ltac:(lra) ltac:(lra)).
  pose proof (mono_pos (g*g) (l*l*l) ltac:(lra) ltac:(lra)). pose proof (mono_pos g (l*l*l*l) ltac:(lra) ltac:(lra)).
  split; [nra|]. repeat apply Rmult_lt_0_compat; assumption.
Qed.
Lemma h_pv_5_ge_g : forall g l, 0 < g -> 0 <= l -> fifth g <= h_pv_5 g l /\ 0 < fifth g.
Proof.
  intros g l Hg Hl. rewrite h_pv_5_form. unfold fifth.
  assert (0 <= g*g) by nra. assert (0 <= l*l) by nra. assert (0 <= g*g*g) by nra. assert (0 <= l*l*l) by nra. assert (0 <= g*g*g*g) by nra. assert (0 <= l*l*l*l) by nra. assert (0 <= l*l*l*l*l) by nra.
  pose proof (mono_pos (g*g*g*g) l ltac:(lra) ltac:(lra)). pose proof (mono_pos (g*g*g) (l*l) ltac:(lra) ltac:(lra)).
  pose proof (mono_pos (g*g) (l*l*l) ltac:(lra) ltac:(lra)). pose proof (mono_pos g (l*l*l*l) ltac:(lra) ltac:(lra)).
  split; [nra|]. repeat apply Rmult_lt_0_compat; assumption.
Qed.
Lemma h_pv_5_pos : forall g l, 0 < g -> 0 <= l -> 0 < h_pv_5 g l.
Proof. intros g l Hg Hl. destruct (h_pv_5_ge_g g l Hg Hl). lra. Qed.
Lemma h_pv_5_le : forall g l, 0 <= g -> 0 <= l -> h_pv_5 g l <= fifth (g + l).
Proof.
  intros g l Hg Hl. rewrite h_pv_5_form. unfold fifth.
  assert (0 <= g*g) by nra. assert (0 <= l*l) by nra. assert (0 <= g*g*g) by nra. assert (0 <= l*l*l) by nra. assert (0 <= g*g*g*g) by nra. assert (0 <= l*l*l*l) by nra.
  pose proof (mono_pos (g*g*g*g) l ltac:(lra) ltac:(lra)). pose proof (mono_pos (g*g*g) (l*l) ltac:(lra) ltac:(lra)).
  pose proof (mono_pos (g*g) (l*l*l) ltac:(lra) ltac:(lra)). pose proof (mono_pos g (l*l*l*l) ltac:(lra) ltac:(lra)).
  replace ((g + l) * (g + l) * (g + l) * (g + l) * (g + l)) with
    (g*g*g*g*g + 5 * (g*g*g*g*l) + 10 * (g*g*g*(l*l)) + 10 * (g*g*(l*l*l)) + 5 * (g*(l*l*l*l)) + l*l*l*l*l) by ring. nra.
Qed.
Lemma h_pv_bounds : forall g l, 0 < g -> 0 <= l -> g <= calc_h_pv g l /\ l <= calc_h_pv g l /\ calc_h_pv g l <= g + l.
Proof.
  intros g l Hg Hl. unfold calc_h_pv. destruct (h_pv_5_ge_g g l Hg Hl) as [A Ap]. split; [|split].
  - rewrite <- (fifth_root g Hg) at 1. apply root_le; assumption.
  - destruct (Rle_lt_or_eq_dec 0 l Hl) as [L|L].
    + destruct (h_pv_5_ge_l g l ltac:(lra) L) as [B Bp]. rewrite <- (fifth_root l L) at 1. apply root_le; assumption.
    + subst l. left. apply exp_pos.
  - rewrite <- (fifth_root (g + l)) by lra. apply root_le; [lra|]. apply h_pv_5_le; lra.
Qed.
Lemma eta_range : forall l h, 0 <= l -> l <= h -> 0 < h -> 0 <= calc_eta l h <= 1.
Proof.
  intros l h Hl Hlh Hh. unfold calc_eta. set (r := l / h). assert (Hr : 0 <= r <= 1).
  { split; [apply Rdiv_le_0_compat; assumption|]. apply (Rmult_le_reg_r h); [exact Hh|]. unfold r. field_simplify; lra. }
  unfold Rsqr. clearbody r. split; [nra|].
  assert (0 <= (1 - r) * r * (1 - r)) by (apply Rmult_le_pos; [apply Rmult_le_pos|]; lra). nra.
Qed.
Lemma eta_range_hpv : forall g l, 0 < g -> 0 <= l -> 0 <= calc_eta l (calc_h_pv g l) <= 1.
Proof. intros g l Hg Hl. destruct (h_pv_bounds g l Hg Hl) as (A & B & C). apply eta_range; lra. Qed.
Lemma h_g_pos : forall p t, 0 < calc_h_g p t.
Proof.
  intros. unfold calc_h_g. apply sqrt_lt_R0. assert (0 < eps64) by (unfold eps64; apply Rinv_0_lt_compat; lra). destruct (Rlt_dec _ _); lra.
Qed.
(** * the pseudo-Voigt profile *)
Definition no_asymmetry := mkA 0 0 0 0.
Lemma asym_none : forall z t, calc_asymmetry_factor z t no_asymmetry = 1.
Proof. intros. unfold calc_asymmetry_factor, no_asymmetry. cbn [p_1 p_2 p_3 p_4]. ring. Qed.
Lemma profile_pos : forall t t0 p x y, 0 <= calc_h_l x y t -> 0 < calc_profile_pseudo_voight t t0 p x y no_asymmetry.
Proof.
  intros t t0 p x y Hl. unfold calc_profile_pseudo_voight. rewrite asym_none. pose proof (h_g_pos p t) as Hg.
  destruct (h_pv_bounds _ _ Hg Hl) as (A & B & C). pose proof (eta_range_hpv _ _ Hg Hl) as E.
  pose proof (lorentz_pos (t - t0) (calc_h_pv (calc_h_g p t) (calc_h_l x y t)) ltac:(lra)).
  pose proof (gauss_pos (t - t0) (calc_h_pv (calc_h_g p t) (calc_h_l x y t)) ltac:(lra)).
  set (e := calc_eta _ _) in *. set (a := func_lorentz_by_h_pv _ _) in *. set (b := func_gauss_by_h_pv _ _) in *. rewrite Rmult_1_r.
  destruct (Rle_lt_dec (1/2) e); [assert (0 < e * a) by nra; assert (0 <= (1 - e) * b) by nra; lra|assert (0 <= e * a) by nra; assert (0 < (1 - e) * b) by nra; lra].
Qed.
