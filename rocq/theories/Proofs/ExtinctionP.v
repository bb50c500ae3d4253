From Coq Require Import Reals Lra Psatz Bool.
From Coquelicot Require Import Coquelicot.
From Verif Require Import Model.Extinction.
Open Scope R_scope.

(** The two ways the denominator is safe for every x >= 0 in question. *)
Definition safe (k A B x : R) : Prop := 0 <= x /\ 1 <= k /\ ((0 <= B /\ 0 <= A + k * B) \/ (0 <= A /\ 0 < 1 + B * x)).
Lemma safe_pos k A B x : safe k A B x -> 0 < 1 + B * x.
Proof. intros (H1 & H2 & [[H3 H4]|[H3 H4]]); [nra|exact H4]. Qed.
Lemma den_ge1 k A B x : safe k A B x -> 1 <= ext_den k A B x.
Proof.
  intros S. assert (P := safe_pos _ _ _ _ S). destruct S as (Hx & Hk & H). unfold ext_den, Rsqr.
  assert (E : A * (x * x) / (1 + B * x) >= - (k * x)).
  { apply Rle_ge. apply (Rmult_le_reg_r (1 + B * x)); [exact P|]. unfold Rdiv. rewrite Rmult_assoc, Rinv_l, Rmult_1_r by lra.
    destruct H as [[H3 H4]|[H3 H4]].
    - assert (0 <= (A + k * B) * (x * x)) by (apply Rmult_le_pos; nra). nra.
    - assert (0 <= A * (x * x)) by (apply Rmult_le_pos; nra). assert (0 <= k * x) by nra. nra. }
  lra.
Qed.
Lemma den_mono k A B x1 x2 : safe k A B x1 -> safe k A B x2 -> x1 <= x2 -> ext_den k A B x1 <= ext_den k A B x2.
Proof.
  intros S1 S2 L. assert (P1 := safe_pos _ _ _ _ S1). assert (P2 := safe_pos _ _ _ _ S2).
  destruct S1 as (X1 & Hk & H1). destruct S2 as (X2 & _ & H2).
  assert (E : ext_den k A B x2 - ext_den k A B x1 =
    (x2 - x1) * ((k * ((1 + B * x1) * (1 + B * x2)) + A * (x1 + x2 + B * x1 * x2)) / ((1 + B * x1) * (1 + B * x2)))).
  { unfold ext_den, Rsqr. field. lra. }
  assert (N : 0 <= k * ((1 + B * x1) * (1 + B * x2)) + A * (x1 + x2 + B * x1 * x2)).
  { destruct H1 as [[H3 H4]|[H3 H4]].
    - assert (0 <= (A + k * B) * (x1 + x2 + B * x1 * x2)). { apply Rmult_le_pos; [lra|]. assert (0 <= B * x1 * x2) by (repeat apply Rmult_le_pos; lra). lra. } nra.
    - assert (0 <= x1 + x2 + B * x1 * x2) by nra. assert (0 <= (1 + B * x1) * (1 + B * x2)) by nra.
      assert (0 <= A * (x1 + x2 + B * x1 * x2)) by (apply Rmult_le_pos; lra). nra. }
  assert (0 <= (k * ((1 + B * x1) * (1 + B * x2)) + A * (x1 + x2 + B * x1 * x2)) / ((1 + B * x1) * (1 + B * x2))).
  { apply Rmult_le_pos; [exact N|]. left. apply Rinv_0_lt_compat. nra. }
  assert (0 <= (x2 - x1) * ((k * ((1 + B * x1) * (1 + B * x2)) + A * (x1 + x2 + B * x1 * x2)) / ((1 + B * x1) * (1 + B * x2)))) by (apply Rmult_le_pos; lra).
  lra.
Qed.
(* x^2/den increases *)
Lemma den_int k A B x1 x2 : 0 <= x1 <= x2 -> 1 <= k -> 0 <= B -> 0 <= A + k * B ->
  x1 * x1 * ext_den k A B x2 <= x2 * x2 * ext_den k A B x1.
Proof.
  intros [X1 L] Hk HB HA. assert (P1 : 0 < 1 + B * x1) by nra. assert (P2 : 0 < 1 + B * x2) by nra.
  assert (E : x2 * x2 * ext_den k A B x1 - x1 * x1 * ext_den k A B x2 =
     (x2 - x1) * (x1 + x2) + (x2 - x1) * (x1 * x2) * ((k * ((1 + B * x1) * (1 + B * x2)) + A * B * (x1 * x2)) / ((1 + B * x1) * (1 + B * x2)))).
  { unfold ext_den, Rsqr. field. lra. }
  assert (Q : 0 < (1 + B * x1) * (1 + B * x2)) by nra.
  assert (N : 0 <= k * ((1 + B * x1) * (1 + B * x2)) + A * B * (x1 * x2)).
  { assert (0 <= (A + k * B) * (B * (x1 * x2))) by (repeat apply Rmult_le_pos; lra).
    assert (0 <= k * (B * (x1 + x2))) by (repeat apply Rmult_le_pos; lra). lra. }
  assert (0 <= (k * ((1 + B * x1) * (1 + B * x2)) + A * B * (x1 * x2)) / ((1 + B * x1) * (1 + B * x2))).
  { apply Rmult_le_pos; [exact N|]. left. apply Rinv_0_lt_compat. exact Q. }
  assert (0 <= (x2 - x1) * (x1 * x2)) by (repeat apply Rmult_le_pos; lra).
  assert (0 <= (x2 - x1) * (x1 + x2)) by (repeat apply Rmult_le_pos; lra). nra.
Qed.
Lemma inv_sqrt_ok d : 1 <= d -> exists y, inv_sqrt d = Some y /\ 0 < y <= 1.
Proof.
  intros H. unfold inv_sqrt. destruct (Rlt_dec 0 d) as [P|N]; [|lra]. exists (1 / sqrt d). split; [reflexivity|].
  assert (S : 1 <= sqrt d) by (rewrite <- sqrt_1; apply sqrt_le_1_alt; exact H).
  split; [apply Rdiv_lt_0_compat; lra|]. apply (Rmult_le_reg_r (sqrt d)); [lra|]. unfold Rdiv. rewrite Rmult_assoc, Rinv_l by lra. lra.
Qed.
Lemma inv_sqrt_1 : inv_sqrt 1 = Some 1.
Proof. unfold inv_sqrt. destruct (Rlt_dec 0 1); [|lra]. rewrite sqrt_1. f_equal. field. Qed.
Lemma inv_sqrt_anti d1 d2 : 0 < d1 -> d1 <= d2 -> val (inv_sqrt d2) <= val (inv_sqrt d1).
Proof.
  intros P L. unfold inv_sqrt. destruct (Rlt_dec 0 d1); [|lra]. destruct (Rlt_dec 0 d2); [|lra]. cbn.
  assert (0 < sqrt d1) by (apply sqrt_lt_R0; lra). assert (sqrt d1 <= sqrt d2) by (apply sqrt_le_1_alt; lra).
  unfold Rdiv. rewrite !Rmult_1_l. apply Rinv_le_contravar; lra.
Qed.
Lemma inv_sqrt_int x1 x2 d1 d2 : 0 <= x1 -> 0 <= x2 -> 0 < d1 -> 0 < d2 -> x1 * x1 * d2 <= x2 * x2 * d1 ->
  x1 * val (inv_sqrt d1) <= x2 * val (inv_sqrt d2).
Proof.
  intros X1 X2 P1 P2 L. unfold inv_sqrt. destruct (Rlt_dec 0 d1); [|lra]. destruct (Rlt_dec 0 d2); [|lra]. cbn.
  assert (S1 : 0 < sqrt d1) by (apply sqrt_lt_R0; lra). assert (S2 : 0 < sqrt d2) by (apply sqrt_lt_R0; lra).
  assert (Q1 := sqrt_sqrt d1 ltac:(lra)). assert (Q2 := sqrt_sqrt d2 ltac:(lra)).
  apply (Rmult_le_reg_r (sqrt d1 * sqrt d2)); [nra|].
  replace (x1 * (1 / sqrt d1) * (sqrt d1 * sqrt d2)) with (x1 * sqrt d2) by (field; lra).
  replace (x2 * (1 / sqrt d2) * (sqrt d1 * sqrt d2)) with (x2 * sqrt d1) by (field; lra).
  apply Rsqr_incr_0; [|nra|nra]. unfold Rsqr. nra.
Qed.

(** where the three models are safe *)
Lemma prim_safe c2t x : - (67/100) <= c2t <= 1 -> 0 <= x -> safe 2 (prim_A c2t) (prim_B c2t) x.
Proof. intros H Hx. split; [exact Hx|]. split; [lra|]. left. unfold prim_A, prim_B. split; nra. Qed.
Lemma gauss_A_pos c2t : 0 < gauss_A c2t.
Proof. unfold gauss_A, Rsqr. nra. Qed.
Lemma gauss_safe c2t x : 0 <= x -> 0 < 1 + gauss_B c2t * x -> safe (212/100) (gauss_A c2t) (gauss_B c2t) x.
Proof. intros Hx H. split; [exact Hx|]. split; [lra|]. right. assert (P := gauss_A_pos c2t). lra. Qed.
Lemma gauss_safe8 c2t x : 0 <= x -> c2t <= 8/10 -> 0 < 1 + gauss_B c2t * x.
Proof. intros Hx H. unfold gauss_B. nra. Qed.
Lemma lorentz_safe c2t x : -1 <= c2t <= 1 -> 0 <= x -> safe 2 (lorentz_A c2t) (lorentz_B c2t) x.
Proof.
  intros H Hx. split; [exact Hx|]. split; [lra|]. left. unfold lorentz_A, lorentz_B, Rsqr.
  destruct (Rlt_dec 0 c2t); split; nra.
Qed.

Definition physical (f_sq : R) (c : crystal) : Prop :=
  0 <= f_sq /\ 0 <= x_radius c /\ 0 <= x_mosaicity c /\ 0 < x_volume c /\ 0 < x_wavelength c /\ -1 <= x_cos c <= 1.
Lemma prim_x_pos f_sq c : 0 <= f_sq -> 0 <= prim_x f_sq c.
Proof. intros H. unfold prim_x. apply Rmult_le_pos; [lra|apply Rle_0_sqr]. Qed.
Lemma mos_pos c : 0 <= x_mosaicity c -> 0 <= mos_rad c.
Proof. intros H. unfold mos_rad. assert (P := PI_RGT_0). apply Rmult_le_pos; [nra|]. left. apply Rinv_0_lt_compat. lra. Qed.
Lemma rm_pos c : 0 <= x_radius c -> 0 <= x_mosaicity c -> 0 < x_radius c * mos_rad c -> 0 < x_radius c /\ 0 < mos_rad c.
Proof. intros H1 H2 H. assert (M := mos_pos c H2). split; [destruct H1 as [H1|H1]|destruct M as [M|M]]; try assumption; [rewrite <- H1 in H|rewrite <- M in H]; lra. Qed.
Lemma gauss_root_pos c : 0 < x_radius c * mos_rad c -> 0 < x_wavelength c -> -1 <= x_cos c <= 1 -> 0 < gauss_root c.
Proof.
  intros H W C. unfold gauss_root. apply sqrt_lt_R0.
  assert (M : mos_rad c <> 0) by (intros E; rewrite E in H; lra).
  assert (0 < Rsqr (mos_rad c * x_wavelength c)). { apply Rsqr_pos_lt. apply Rmult_integral_contrapositive_currified; lra. }
  assert (A := Rle_0_sqr (x_radius c)). assert (0 <= 1 - Rsqr (x_cos c)) by (unfold Rsqr; nra).
  assert (0 <= 9 / 8 * Rsqr (x_radius c) * (1 - Rsqr (x_cos c))) by (apply Rmult_le_pos; [lra|assumption]). lra.
Qed.
Lemma sec_x_pos term f_sq c : 0 <= term -> 0 <= f_sq -> 0 < x_wavelength c -> 0 <= sec_x term f_sq c.
Proof.
  intros T F W. unfold sec_x. destruct (Rlt_dec _ _); [|lra]. apply Rmult_le_pos; [|exact T]. apply Rmult_le_pos; [|apply Rle_0_sqr]. apply Rmult_le_pos; lra.
Qed.
Lemma gauss_term_pos f_sq c : physical f_sq c -> 0 <= gauss_term c.
Proof.
  intros (F & R0 & M & V & W & C). unfold gauss_term. destruct (Rlt_dec 0 (x_radius c * mos_rad c)) as [P|N]; [|lra].
  apply Rmult_le_pos; [exact (mos_pos c M)|]. left. apply Rinv_0_lt_compat. apply gauss_root_pos; assumption.
Qed.
Lemma lorentz_den_pos f_sq c : physical f_sq c -> 0 < x_radius c * mos_rad c -> 0 < mos_rad c * x_wavelength c + x_radius c * sqrt (1 - Rsqr (x_cos c)).
Proof.
  intros (F & R0 & M & V & W & C) P. destruct (rm_pos c R0 M P) as [P1 P2]. assert (S := sqrt_pos (1 - Rsqr (x_cos c))). nra.
Qed.
Lemma lorentz_term_pos f_sq c : physical f_sq c -> 0 <= lorentz_term c.
Proof.
  intros H. unfold lorentz_term. destruct (Rlt_dec 0 (x_radius c * mos_rad c)) as [P|N]; [|lra].
  assert (D := lorentz_den_pos f_sq c H P). destruct H as (F & R0 & M & V & W & C).
  apply Rmult_le_pos; [exact (mos_pos c M)|]. left. apply Rinv_0_lt_compat. exact D.
Qed.
(** C47 *)
Lemma prim_range f_sq c : 0 <= f_sq -> - (67/100) <= x_cos c <= 1 ->
  exists y, calc_extinction_sphere_primary f_sq c = Some y /\ 0 < y <= 1.
Proof. intros F C. apply inv_sqrt_ok, den_ge1, prim_safe; [exact C|apply prim_x_pos; exact F]. Qed.
Lemma gauss_range f_sq c : physical f_sq c -> 0 < calc_extinction_sphere_secondary_gauss f_sq c <= 1 \/
  1 + gauss_B (x_cos c) * sec_x (gauss_term c) f_sq c <= 0.
Proof.
  intros H. destruct (Rlt_dec 0 (1 + gauss_B (x_cos c) * sec_x (gauss_term c) f_sq c)) as [P|N]; [left|right; lra].
  assert (X : 0 <= sec_x (gauss_term c) f_sq c) by (apply sec_x_pos; [apply (gauss_term_pos f_sq); exact H| |]; apply H).
  unfold calc_extinction_sphere_secondary_gauss. destruct (inv_sqrt_ok _ (den_ge1 _ _ _ _ (gauss_safe _ _ X P))) as (y & E & R). rewrite E. exact R.
Qed.
Lemma gauss_range8 f_sq c : physical f_sq c -> x_cos c <= 8/10 -> 0 < calc_extinction_sphere_secondary_gauss f_sq c <= 1.
Proof.
  intros H C. destruct (gauss_range f_sq c H) as [G|G]; [exact G|exfalso].
  assert (X : 0 <= sec_x (gauss_term c) f_sq c) by (apply sec_x_pos; [apply (gauss_term_pos f_sq); exact H| |]; apply H).
  assert (Q := gauss_safe8 _ _ X C). lra.
Qed.
Lemma lorentz_range f_sq c : physical f_sq c ->
  exists y, calc_extinction_sphere_secondary_lorentz f_sq c = Some y /\ 0 < y <= 1.
Proof.
  intros H. apply inv_sqrt_ok, den_ge1, lorentz_safe; [apply H|]. apply sec_x_pos; [apply (lorentz_term_pos f_sq); exact H| |]; apply H.
Qed.
Lemma sphere_range m f_sq c : physical f_sq c -> - (67/100) <= x_cos c -> (m = M_gauss -> x_cos c <= 8/10) ->
  exists y, calc_extinction_sphere m f_sq c = Some y /\ 0 < y <= 1.
Proof.
  intros H C Cm. assert (C1 : x_cos c <= 1) by (apply H). assert (F : 0 <= f_sq) by (apply H).
  destruct (prim_range f_sq c F (conj C C1)) as (yp & E & P). unfold calc_extinction_sphere. rewrite E.
  destruct m.
  - assert (G := gauss_range8 f_sq c H (Cm eq_refl)). eexists; split; [reflexivity|]. nra.
  - destruct (lorentz_range f_sq c H) as (ys & E2 & G). rewrite E2. eexists; split; [reflexivity|]. nra.
  - eexists; split; [reflexivity|]. nra.
Qed.
(* zero radius *)
Lemma zero_radius m f_sq mo v c w : v <> 0 -> calc_extinction_sphere m f_sq (mkX 0 mo v c w) = Some 1.
Proof.
  intros V. unfold calc_extinction_sphere, calc_extinction_sphere_primary, calc_extinction_sphere_secondary_gauss, calc_extinction_sphere_secondary_lorentz, prim_x, sec_x. cbn.
  destruct (Rlt_dec 0 (0 * mos_rad {| x_radius := 0; x_mosaicity := mo; x_volume := v; x_cos := c; x_wavelength := w |})) as [L|_]; [rewrite Rmult_0_l in L; lra|].
  assert (Z : (15/10) * f_sq * Rsqr (w * 0 / v) = 0) by (unfold Rsqr; field; exact V). rewrite Z.
  assert (E : forall k A B, ext_den k A B 0 = 1). { intros. unfold ext_den, Rsqr. rewrite !Rmult_0_r, Rplus_0_r. unfold Rdiv. ring. }
  rewrite !E, inv_sqrt_1. destruct m; f_equal; lra.
Qed.
(* dependence on F^2 *)
Lemma sec_x_mono term f1 f2 c : 0 <= term -> f1 <= f2 -> 0 < x_wavelength c -> sec_x term f1 c <= sec_x term f2 c.
Proof.
  intros T L W. unfold sec_x. destruct (Rlt_dec _ _); [|lra].
  assert (0 <= x_wavelength c * Rsqr (x_wavelength c * x_radius c / x_volume c) * term) by (apply Rmult_le_pos; [apply Rmult_le_pos; [lra|apply Rle_0_sqr]|exact T]).
  nra.
Qed.
Lemma prim_x_mono f1 f2 c : f1 <= f2 -> prim_x f1 c <= prim_x f2 c.
Proof. intros L. unfold prim_x. assert (A := Rle_0_sqr (x_wavelength c * x_radius c / x_volume c)). nra. Qed.
Lemma prim_anti f1 f2 c : 0 <= f1 <= f2 -> - (67/100) <= x_cos c <= 1 ->
  val (calc_extinction_sphere_primary f2 c) <= val (calc_extinction_sphere_primary f1 c).
Proof.
  intros F C. unfold calc_extinction_sphere_primary.
  assert (S1 := prim_safe _ _ C (prim_x_pos f1 c ltac:(lra))). assert (S2 := prim_safe _ _ C (prim_x_pos f2 c ltac:(lra))).
  apply inv_sqrt_anti; [assert (D := den_ge1 _ _ _ _ S1); lra|]. apply den_mono; [exact S1|exact S2|apply prim_x_mono; lra].
Qed.
Lemma physical_le f1 f2 c : physical f1 c -> f1 <= f2 -> physical f2 c.
Proof. intros (F & H) L. split; [lra|exact H]. Qed.
Lemma lorentz_anti f1 f2 c : physical f1 c -> f1 <= f2 ->
  val (calc_extinction_sphere_secondary_lorentz f2 c) <= val (calc_extinction_sphere_secondary_lorentz f1 c).
Proof.
  intros H L. assert (H2 := physical_le _ _ _ H L). unfold calc_extinction_sphere_secondary_lorentz.
  assert (T := lorentz_term_pos f1 c H). assert (W : 0 < x_wavelength c) by apply H. assert (F : 0 <= f1) by apply H.
  assert (S1 := lorentz_safe (x_cos c) (sec_x (lorentz_term c) f1 c) ltac:(apply H) ltac:(apply sec_x_pos; assumption)).
  assert (S2 := lorentz_safe (x_cos c) (sec_x (lorentz_term c) f2 c) ltac:(apply H) ltac:(apply sec_x_pos; try assumption; lra)).
  apply inv_sqrt_anti; [assert (D := den_ge1 _ _ _ _ S1); lra|]. apply den_mono; [exact S1|exact S2|apply sec_x_mono; assumption].
Qed.
Lemma gauss_anti f1 f2 c : physical f1 c -> f1 <= f2 -> x_cos c <= 8/10 ->
  calc_extinction_sphere_secondary_gauss f2 c <= calc_extinction_sphere_secondary_gauss f1 c.
Proof.
  intros H L C. assert (H2 := physical_le _ _ _ H L). unfold calc_extinction_sphere_secondary_gauss.
  assert (T := gauss_term_pos f1 c H). assert (W : 0 < x_wavelength c) by apply H. assert (F : 0 <= f1) by apply H.
  assert (X1 : 0 <= sec_x (gauss_term c) f1 c) by (apply sec_x_pos; assumption).
  assert (X2 : 0 <= sec_x (gauss_term c) f2 c) by (apply sec_x_pos; try assumption; lra).
  assert (S1 := gauss_safe _ _ X1 (gauss_safe8 _ _ X1 C)). assert (S2 := gauss_safe _ _ X2 (gauss_safe8 _ _ X2 C)).
  assert (D1 := den_ge1 _ _ _ _ S1). assert (D2 := den_ge1 _ _ _ _ S2).
  assert (A := inv_sqrt_anti _ _ (Rlt_le_trans _ _ _ Rlt_0_1 D1) (den_mono _ _ _ _ _ S1 S2 (sec_x_mono _ _ _ _ T L W))).
  destruct (inv_sqrt_ok _ D1) as (y1 & E1 & _). destruct (inv_sqrt_ok _ D2) as (y2 & E2 & _). rewrite E1, E2 in *. exact A.
Qed.
Lemma val_sphere m f_sq c : physical f_sq c -> - (67/100) <= x_cos c -> (m = M_gauss -> x_cos c <= 8/10) ->
  val (calc_extinction_sphere m f_sq c) = val (calc_extinction_sphere_primary f_sq c) *
    match m with M_gauss => calc_extinction_sphere_secondary_gauss f_sq c | M_lorentz => val (calc_extinction_sphere_secondary_lorentz f_sq c) | M_other => 1 end.
Proof.
  intros H C Cm. assert (C1 : x_cos c <= 1) by (apply H). assert (F : 0 <= f_sq) by (apply H).
  destruct (prim_range f_sq c F (conj C C1)) as (yp & E & P). unfold calc_extinction_sphere. rewrite E.
  destruct m; try reflexivity. destruct (lorentz_range f_sq c H) as (ys & E2 & G). rewrite E2. reflexivity.
Qed.
Lemma sphere_anti m f1 f2 c : physical f1 c -> f1 <= f2 -> - (67/100) <= x_cos c -> (m = M_gauss -> x_cos c <= 8/10) ->
  val (calc_extinction_sphere m f2 c) <= val (calc_extinction_sphere m f1 c).
Proof.
  intros H L C Cm. assert (H2 := physical_le _ _ _ H L). rewrite !val_sphere by assumption.
  assert (C1 : x_cos c <= 1) by (apply H). assert (F : 0 <= f1) by (apply H).
  assert (A := prim_anti f1 f2 c ltac:(lra) ltac:(lra)).
  destruct (prim_range f1 c F (conj C C1)) as (p1 & E1 & P1). destruct (prim_range f2 c ltac:(lra) (conj C C1)) as (p2 & E2 & P2).
  rewrite E1, E2 in *. cbn [val] in *.
  destruct m.
  - assert (G1 := gauss_range8 f1 c H (Cm eq_refl)). assert (G2 := gauss_range8 f2 c H2 (Cm eq_refl)). assert (G := gauss_anti f1 f2 c H L (Cm eq_refl)). nra.
  - destruct (lorentz_range f1 c H) as (s1 & S1 & R1). destruct (lorentz_range f2 c H2) as (s2 & S2 & R2). assert (G := lorentz_anti f1 f2 c H L).
    rewrite S1, S2 in *. cbn [val] in *. nra.
  - lra.
Qed.
(* corrected intensity y F^2 of the primary correction increases with F^2 *)
Lemma prim_int f1 f2 c : 0 <= f1 <= f2 -> - (67/100) <= x_cos c <= 1 ->
  f1 * val (calc_extinction_sphere_primary f1 c) <= f2 * val (calc_extinction_sphere_primary f2 c).
Proof.
  intros F C. unfold calc_extinction_sphere_primary.
  set (A := prim_A (x_cos c)). set (B := prim_B (x_cos c)).
  assert (S1 := prim_safe _ _ C (prim_x_pos f1 c ltac:(lra))). assert (S2 := prim_safe _ _ C (prim_x_pos f2 c ltac:(lra))).
  assert (D1 := den_ge1 _ _ _ _ S1). assert (D2 := den_ge1 _ _ _ _ S2). fold A B in D1, D2.
  apply inv_sqrt_int; try lra.
  set (g := (15/10) * Rsqr (x_wavelength c * x_radius c / x_volume c)).
  assert (G : 0 <= g) by (unfold g; assert (Q := Rle_0_sqr (x_wavelength c * x_radius c / x_volume c)); lra).
  assert (E : forall f, prim_x f c = g * f) by (intros; unfold prim_x, g; ring). rewrite !E in *.
  destruct G as [G|G].
  - assert (I := den_int 2 A B (g * f1) (g * f2) ltac:(nra) ltac:(lra) ltac:(unfold B, prim_B; nra) ltac:(unfold A, B, prim_A, prim_B; nra)).
    apply (Rmult_le_reg_l (g * g)); [nra|]. nra.
  - rewrite <- G, !Rmult_0_l. assert (f1 * f1 <= f2 * f2) by nra.
    assert (0 <= ext_den 2 A B 0) by (unfold ext_den, Rsqr; rewrite !Rmult_0_r; unfold Rdiv; lra). nra.
Qed.
(** refutations: strong reflections at high angle (primary) and at low angle (Gauss) *)
Lemma prim_nan : exists f_sq c, physical f_sq c /\ calc_extinction_sphere_primary f_sq c = None.
Proof.
  exists 6, (mkX 1 1 1 (-1) 1). split. { unfold physical; cbn; lra. }
  unfold calc_extinction_sphere_primary, inv_sqrt. destruct (Rlt_dec _ _) as [L|]; [exfalso|reflexivity].
  unfold ext_den, prim_A, prim_B, prim_x, Rsqr in L. cbn in L.
  assert (E : 1 + 2 * (15 / 10 * 6 * (1 * 1 / 1 * (1 * 1 / 1))) + (20 / 100 + 45 / 100 * -1) * (15 / 10 * 6 * (1 * 1 / 1 * (1 * 1 / 1)) * (15 / 10 * 6 * (1 * 1 / 1 * (1 * 1 / 1)))) /
   (1 + (22 / 100 - 12 / 100 * ((5 / 10 - -1) * ((5 / 10 - -1) * 1))) * (15 / 10 * 6 * (1 * 1 / 1 * (1 * 1 / 1)))) = 19 - (81/4) / (55/100)) by field.
  rewrite E in L. lra.
Qed.
(* x is proportional to F^2 *)
Lemma sec_x_scale term c x : 0 < x_radius c * mos_rad c -> 0 < term -> 0 < x_wavelength c -> 0 < x_volume c ->
  exists f, f * ((15/10) * x_wavelength c * Rsqr (x_wavelength c * x_radius c / x_volume c) * term) = x /\ sec_x term f c = x /\ (0 <= x -> 0 <= f).
Proof.
  intros P T W V. set (K := (15/10) * x_wavelength c * Rsqr (x_wavelength c * x_radius c / x_volume c) * term).
  assert (Rn : x_radius c <> 0) by (intros E; rewrite E in P; lra).
  assert (HK : 0 < K).
  { unfold K. apply Rmult_lt_0_compat; [|exact T]. apply Rmult_lt_0_compat; [lra|]. apply Rsqr_pos_lt. unfold Rdiv.
    apply Rmult_integral_contrapositive_currified; [apply Rmult_integral_contrapositive_currified; lra|apply Rinv_neq_0_compat; lra]. }
  exists (x / K). split; [field; lra|]. split.
  - unfold sec_x. destruct (Rlt_dec _ _); [|lra].
    replace (15 / 10 * (x / K) * x_wavelength c * (x_wavelength c * x_radius c / x_volume c)² * term) with (x / K * K) by (unfold K; ring). field. lra.
  - intros Hx. apply Rmult_le_pos; [exact Hx|]. left. apply Rinv_0_lt_compat. exact HK.
Qed.
Lemma gauss_nan : exists f1 f2 c, physical f1 c /\ f1 < f2 /\ calc_extinction_sphere_secondary_gauss f1 c < 1 /\
  calc_extinction_sphere_secondary_gauss f2 c = 1.
Proof.
  set (c := mkX 1 1 1 (9/10) 1).
  assert (P : 0 < x_radius c * mos_rad c). { unfold mos_rad, c. cbn. assert (Q := PI_RGT_0). apply Rmult_lt_0_compat; [lra|]. apply Rdiv_lt_0_compat; lra. }
  assert (T : 0 < gauss_term c).
  { unfold gauss_term. destruct (Rlt_dec _ _); [|lra]. apply Rdiv_lt_0_compat; [unfold c in P; cbn in P; unfold c; lra|]. apply gauss_root_pos; [exact P| |]; unfold c; cbn; lra. }
  destruct (sec_x_scale (gauss_term c) c 1 P T ltac:(cbn; lra) ltac:(cbn; lra)) as (f1 & Q1 & E1 & N1).
  destruct (sec_x_scale (gauss_term c) c 1000 P T ltac:(cbn; lra) ltac:(cbn; lra)) as (f2 & Q2 & E2 & N2).
  exists f1, f2, c. split. { unfold physical, c; cbn. assert (A := N1 ltac:(lra)). lra. }
  split. { clear - Q1 Q2 N1. set (K := 15 / 10 * _ * _ * _) in *. clearbody K. assert (0 < K -> f1 < f2) by (intros; nra).
    destruct (Rlt_dec 0 K); [auto|]. exfalso. assert (N := N1 ltac:(lra)). nra. }
  split.
  - unfold calc_extinction_sphere_secondary_gauss. rewrite E1. unfold inv_sqrt.
    assert (D : ext_den (212/100) (gauss_A (x_cos c)) (gauss_B (x_cos c)) 1 > 1).
    { unfold ext_den, gauss_A, gauss_B, Rsqr, c. cbn.
      assert (0 < (58 / 100 + 48 / 100 * (9 / 10) + 24 / 100 * (9 / 10 * (9 / 10))) * (1 * 1) / (1 + (2 / 100 - 25 / 1000 * (9 / 10)) * 1)) by (apply Rdiv_lt_0_compat; lra). lra. }
    destruct (Rlt_dec _ _); [|lra].
    assert (S : 1 < sqrt (ext_den (212/100) (gauss_A (x_cos c)) (gauss_B (x_cos c)) 1)) by (rewrite <- sqrt_1 at 1; apply sqrt_lt_1_alt; lra).
    apply (Rmult_lt_reg_r (sqrt (ext_den (212/100) (gauss_A (x_cos c)) (gauss_B (x_cos c)) 1))); [lra|].
    unfold Rdiv. rewrite Rmult_assoc, Rinv_l by lra. lra.
  - unfold calc_extinction_sphere_secondary_gauss. rewrite E2. unfold inv_sqrt. destruct (Rlt_dec _ _) as [L|]; [exfalso|reflexivity].
    unfold ext_den, gauss_A, gauss_B, Rsqr, c in L. cbn in L.
    replace ((58 / 100 + 48 / 100 * (9 / 10) + 24 / 100 * (9 / 10 * (9 / 10))) * (1000 * 1000) / (1 + (2 / 100 - 25 / 1000 * (9 / 10)) * 1000))
      with (- ((58 / 100 + 48 / 100 * (9 / 10) + 24 / 100 * (9 / 10 * (9 / 10))) * (1000 * 1000) / (15/10))) in L by field. lra.
Qed.
