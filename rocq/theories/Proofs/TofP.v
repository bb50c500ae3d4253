(** Proofs about the time-of-flight kernels. *)
From Coq Require Import Reals List Lra Psatz.
From Coquelicot Require Import Coquelicot.
From Verif Require Import Spec.Special Model.Tof Model.Profile Proofs.GaussIntP.
Import ListNotations.
Open Scope R_scope.

(* ---- erfc ---- *)
Lemma erf_G : forall x, erf x = 2 / sqrt PI * G x.
Proof. reflexivity. Qed.
Lemma sqrt_PI_pos : 0 < sqrt PI.
Proof. apply sqrt_lt_R0, PI_RGT_0. Qed.
Lemma erfc_derive : forall x, is_derive erfc x (- (2 / sqrt PI) * exp (- (x * x))).
Proof.
  intros x. unfold erfc. apply (is_derive_ext (fun x => 1 - 2 / sqrt PI * G x)); [intros; reflexivity|].
  evar (v : R). replace (- (2 / sqrt PI) * exp (- (x * x))) with v; [apply (is_derive_minus (fun _ => 1) (fun x => 2 / sqrt PI * G x))|].
  - apply is_derive_const.
  - apply (is_derive_scal G x (2 / sqrt PI)). apply G_derive.
  - unfold v, minus, plus, opp, zero, gs. simpl. ring.
Qed.
Lemma erfc_inf : is_lim erfc p_infty 0.
Proof.
  unfold erfc. apply (is_lim_ext (fun x => 1 - 2 / sqrt PI * G x)); [intros; reflexivity|].
  replace (Finite 0) with (Finite (1 - 2 / sqrt PI * (sqrt PI / 2))) by (f_equal; field; apply Rgt_not_eq, sqrt_PI_pos).
  apply is_lim_minus'; [apply is_lim_const|]. apply (is_lim_scal_l G (2 / sqrt PI) p_infty (sqrt PI / 2)). apply gauss_lim.
Qed.
Lemma erfc_minf : is_lim erfc m_infty 2.
Proof.
  unfold erfc. apply (is_lim_ext (fun x => 1 - 2 / sqrt PI * G x)); [intros; reflexivity|].
  replace (Finite 2) with (Finite (1 - 2 / sqrt PI * (- (sqrt PI / 2)))) by (f_equal; field; apply Rgt_not_eq, sqrt_PI_pos).
  apply is_lim_minus'; [apply is_lim_const|]. apply (is_lim_scal_l G (2 / sqrt PI) m_infty (- (sqrt PI / 2))). apply gauss_lim_minus.
Qed.
Lemma erfc_decreasing : forall x y, x < y -> erfc y < erfc x.
Proof.
  intros x y L. destruct (MVT_gen erfc x y (fun t => - (2 / sqrt PI) * exp (- (t * t)))) as (c & _ & E).
  - intros. apply erfc_derive.
  - intros t _. apply continuity_pt_filterlim. apply (ex_derive_continuous erfc). eexists. apply erfc_derive.
  - pose proof (exp_pos (- (c * c))). pose proof sqrt_PI_pos. assert (0 < 2 / sqrt PI) by (apply Rdiv_lt_0_compat; lra).
    assert (- (2 / sqrt PI) * exp (- (c * c)) < 0) by nra. nra.
Qed.
Lemma erfc_pos : forall x, 0 < erfc x.
Proof.
  intros x. apply (Rle_lt_trans _ (erfc (x + 1))); [|apply erfc_decreasing; lra].
  apply (is_lim_le_loc erfc (fun _ => erfc (x + 1)) p_infty 0 (erfc (x + 1))); [exists (x + 1); intros y L; left; apply erfc_decreasing; lra|apply erfc_inf|apply is_lim_const].
Qed.
(** erfc is the integral of the tail. *)
Lemma erfc_tail : forall x, is_RInt_gen (fun t => 2 / sqrt PI * exp (- (t * t))) (at_point x) (Rbar_locally p_infty) (erfc x).
Proof.
  intros x. assert (E : forall t, Derive (fun s => - erfc s) t = 2 / sqrt PI * exp (- (t * t))).
  { intros t. apply is_derive_unique. apply (is_derive_ext (fun s => opp (erfc s))); [reflexivity|].
    replace (2 / sqrt PI * exp (- (t * t))) with (opp (- (2 / sqrt PI) * exp (- (t * t)))) by (unfold opp; simpl; ring).
    apply (is_derive_opp erfc). apply erfc_derive. }
  apply (is_RInt_gen_ext (Derive (fun s => - erfc s))).
  - exists (fun _ => True) (fun _ => True); [unfold at_point; trivial|exists 0; trivial|]. intros a b _ _ z _. apply E.
  - replace (erfc x) with (0 - - erfc x) by ring. apply is_RInt_gen_Derive.
    + exists (fun _ => True) (fun _ => True); [unfold at_point; trivial|exists 0; trivial|]. intros a b _ _ z _.
      exists (opp (- (2 / sqrt PI) * exp (- (z * z)))). apply (is_derive_opp erfc). apply erfc_derive.
    + exists (fun _ => True) (fun _ => True); [unfold at_point; trivial|exists 0; trivial|]. intros a b _ _ z _.
      apply (continuous_ext (fun t => 2 / sqrt PI * exp (- (t * t)))); [intros; symmetry; apply E|].
      apply (ex_derive_continuous (fun t => 2 / sqrt PI * exp (- (t * t)))). auto_derive. exact I.
    + intros P HP. unfold at_point, filtermap. apply locally_singleton in HP. exact HP.
    + replace 0 with (- 0) by ring. exact (is_lim_opp erfc p_infty 0 erfc_inf).
Qed.
Lemma half_neg : forall (F f : R -> R) (a : R), (forall x, is_derive F x (f x)) -> (forall x, continuous f x) -> is_lim F m_infty a -> area_neg f (F 0 - a).
Proof.
  intros F f a D C A. assert (E : forall x, Derive F x = f x) by (intros; apply is_derive_unique, D).
  unfold area_neg, area_pos. apply (is_RInt_gen_ext (Derive F)).
  - exists (fun _ => True) (fun _ => True); [exists 0; trivial|unfold at_point; trivial|]. intros x y _ _ z _. apply E.
  - apply is_RInt_gen_Derive.
    + exists (fun _ => True) (fun _ => True); [exists 0; trivial|unfold at_point; trivial|]. intros x y _ _ z _. exists (f z). apply D.
    + exists (fun _ => True) (fun _ => True); [exists 0; trivial|unfold at_point; trivial|]. intros x y _ _ z _.
      apply (continuous_ext f); [intros; symmetry; apply E|apply C].
    + exact A.
    + intros P HP. unfold at_point, filtermap. apply locally_singleton in HP. exact HP.
Qed.
Lemma half_pos : forall (F f : R -> R) (b : R), (forall x, is_derive F x (f x)) -> (forall x, continuous f x) -> is_lim F p_infty b -> area_pos f (b - F 0).
Proof.
  intros F f b D C B. assert (E : forall x, Derive F x = f x) by (intros; apply is_derive_unique, D).
  unfold area_neg, area_pos. apply (is_RInt_gen_ext (Derive F)).
  - exists (fun _ => True) (fun _ => True); [unfold at_point; trivial|exists 0; trivial|]. intros x y _ _ z _. apply E.
  - apply is_RInt_gen_Derive.
    + exists (fun _ => True) (fun _ => True); [unfold at_point; trivial|exists 0; trivial|]. intros x y _ _ z _. exists (f z). apply D.
    + exists (fun _ => True) (fun _ => True); [unfold at_point; trivial|exists 0; trivial|]. intros x y _ _ z _.
      apply (continuous_ext f); [intros; symmetry; apply E|apply C].
    + intros P HP. unfold at_point, filtermap. apply locally_singleton in HP. exact HP.
    + exact B.
Qed.
Lemma sqrt2_pos : 0 < sqrt 2.
Proof. apply sqrt_lt_R0. lra. Qed.
Lemma lin_lim : forall a b s, 0 < s -> is_lim (fun t => (a - t) / s + b) m_infty p_infty /\ is_lim (fun t => (a + t) / s + b) p_infty p_infty /\
  is_lim (fun t => (a + t) / s + b) m_infty m_infty.
Proof.
  intros a b s S. split; [|split].
  - intros P [M HM]. exists (a - s * (M - b)). intros t L. apply HM.
    apply (Rmult_lt_reg_r s); [exact S|]. replace (((a - t) / s + b) * s) with (a - t + b * s) by (field; lra). lra.
  - intros P [M HM]. exists (s * (M - b) - a). intros t L. apply HM.
    apply (Rmult_lt_reg_r s); [exact S|]. replace (((a + t) / s + b) * s) with (a + t + b * s) by (field; lra). lra.
  - intros P [M HM]. exists (s * (M - b) - a). intros t L. apply HM.
    apply (Rmult_lt_reg_r s); [exact S|]. replace (((a + t) / s + b) * s) with (a + t + b * s) by (field; lra). lra.
Qed.
Lemma normal_cont : forall s, 0 < s -> forall k c x t, continuous (fun t => c * exp (k * t) * normal s (x - t)) t.
Proof.
  intros s S k c x t. apply (ex_derive_continuous (fun t => c * exp (k * t) * normal s (x - t))). unfold normal. auto_derive. repeat split; try (apply Rgt_not_eq; nra).
Qed.
(** the two halves of the convolution *)
Lemma conv_derive : forall c k s x, 0 < s -> forall t,
  is_derive (fun t => c / 2 * exp (5/10 * Rsqr k * Rsqr s + x * k) * erfc ((x + k * Rsqr s - t) / (s * sqrt 2))) t (c * exp (k * t) * normal s (x - t)).
Proof.
  intros c k s x S t. pose proof sqrt2_pos as S2. pose proof sqrt_PI_pos as SP.
  evar (v : R). replace (c * exp (k * t) * normal s (x - t)) with v.
  - apply (is_derive_scal (fun t => erfc ((x + k * Rsqr s - t) / (s * sqrt 2)))).
    apply (is_derive_comp erfc (fun t => (x + k * Rsqr s - t) / (s * sqrt 2))); [apply erfc_derive|].
    instantiate (1 := - / (s * sqrt 2)). auto_derive; [trivial|]. unfold Rdiv. ring.
  - unfold v, scal, mult. simpl. unfold mult. simpl. unfold normal.
    rewrite sqrt_mult by (try lra; left; apply PI_RGT_0).
    assert (E : exp (k * t) * exp (- ((x - t) * (x - t) / (2 * (s * s)))) =
                exp (5/10 * Rsqr k * Rsqr s + x * k) * exp (- ((x + k * Rsqr s - t) / (s * sqrt 2) * ((x + k * Rsqr s - t) / (s * sqrt 2))))).
    { rewrite <- !exp_plus. f_equal.
      replace ((x + k * Rsqr s - t) / (s * sqrt 2) * ((x + k * Rsqr s - t) / (s * sqrt 2))) with ((x + k * Rsqr s - t) * (x + k * Rsqr s - t) / (s * s * (sqrt 2 * sqrt 2))) by (field; lra).
      rewrite sqrt_sqrt by lra. unfold Rsqr. field. lra. }
    transitivity (c * (exp (k * t) * exp (- ((x - t) * (x - t) / (2 * (s * s))))) / (s * (sqrt 2 * sqrt PI))); [rewrite E|]; field; lra.
Qed.
Theorem jorgensen_convolution : forall alpha beta sigma x, 0 < alpha -> 0 < beta -> 0 < sigma ->
  back_to_back alpha beta (normal sigma) x (tof_Jorgensen alpha beta sigma x).
Proof.
  intros al be s x A B S. pose proof sqrt2_pos as S2. set (c := al * be / (al + be)).
  assert (SS : 0 < s * sqrt 2) by nra.
  set (Fn := fun t => c / 2 * exp (5/10 * Rsqr al * Rsqr s + x * al) * erfc ((x + al * Rsqr s - t) / (s * sqrt 2))).
  set (Fp := fun t => c / 2 * exp (5/10 * Rsqr (- be) * Rsqr s + x * (- be)) * (2 - erfc ((x + (- be) * Rsqr s - t) / (s * sqrt 2)))).
  exists (Fn 0 - 0), (c / 2 * exp (5/10 * Rsqr (- be) * Rsqr s + x * (- be)) * 0 - - (c / 2 * exp (5/10 * Rsqr (- be) * Rsqr s + x * (- be)) * erfc ((- x + be * Rsqr s) / (s * sqrt 2)))).
  (* erfc(-y) = 2 - erfc y *)
  assert (Sym : forall y, erfc (- y) = 2 - erfc y) by (intros y; unfold erfc; rewrite !erf_G, G_odd; ring).
  split; [|split].
  - apply (half_neg Fn).
    + intros t. apply conv_derive. exact S.
    + intros t. apply normal_cont. exact S.
    + replace (Finite 0) with (Rbar_mult (c / 2 * exp (5/10 * Rsqr al * Rsqr s + x * al)) 0) by (simpl; f_equal; ring).
      apply (is_lim_scal_l (fun t => erfc ((x + al * Rsqr s - t) / (s * sqrt 2)))).
      apply (is_lim_comp erfc (fun t => (x + al * Rsqr s - t) / (s * sqrt 2)) m_infty 0 p_infty); [apply erfc_inf| |exists 0; intros; discriminate].
      eapply is_lim_ext; [|apply (proj1 (lin_lim (x + al * Rsqr s) 0 (s * sqrt 2) SS))]. intros t. simpl. ring.
  - set (K := c / 2 * exp (5/10 * Rsqr (- be) * Rsqr s + x * (- be))).
    set (F := fun t => K * (- (2 - erfc ((x + (- be) * Rsqr s - t) / (s * sqrt 2))))).
    assert (F0 : F 0 = - (K * erfc ((- x + be * Rsqr s) / (s * sqrt 2)))).
    { unfold F. rewrite <- Sym. replace (- ((x + - be * Rsqr s - 0) / (s * sqrt 2))) with ((- x + be * Rsqr s) / (s * sqrt 2)) by (field; nra). ring. }
    rewrite <- F0. apply (half_pos F).
    + intros t. unfold F. pose proof (conv_derive c (- be) s x S t) as D. fold K in D.
      apply (is_derive_ext (fun t => K * erfc ((x + (- be) * Rsqr s - t) / (s * sqrt 2)) + (- (2 * K)))); [intros; match goal with |- ?a = ?b => change (@eq R a b) end; ring|].
      evar (v : R). match goal with |- is_derive _ _ ?w => replace w with v end; [apply (is_derive_plus (fun t => K * erfc ((x + (- be) * Rsqr s - t) / (s * sqrt 2))) (fun _ => - (2 * K))); [exact D|apply is_derive_const]|].
      unfold v, plus, zero. simpl. unfold c. ring.
    + intros t. pose proof (normal_cont s S (- be) c x t) as N. exact N.
    + replace (Finite (K * 0)) with (Rbar_mult K 0) by reflexivity.
      apply (is_lim_scal_l (fun t => - (2 - erfc ((x + (- be) * Rsqr s - t) / (s * sqrt 2)))) K p_infty 0).
      apply (is_lim_ext (fun t => - (erfc ((- x + be * Rsqr s + t) / (s * sqrt 2))))).
      { intros t. rewrite <- Sym. do 2 f_equal. field. nra. }
      replace (Finite 0) with (Rbar_opp 0) by (simpl; f_equal; ring). apply is_lim_opp.
      apply (is_lim_comp erfc (fun t => (- x + be * Rsqr s + t) / (s * sqrt 2)) p_infty 0 p_infty); [apply erfc_inf| |exists 0; intros; discriminate].
      eapply is_lim_ext; [|apply (proj1 (proj2 (lin_lim (- x + be * Rsqr s) 0 (s * sqrt 2) SS)))]. intros t. simpl. ring.
  - unfold Fn, tof_Jorgensen, calc_u, calc_v, calc_y, calc_z. cbv zeta.
    replace (al * s / sqrt 2 + x / (s * sqrt 2)) with ((x + al * Rsqr s - 0) / (s * sqrt 2)) by (unfold Rsqr; field; lra).
    replace (be * s / sqrt 2 - x / (s * sqrt 2)) with ((- x + be * Rsqr s) / (s * sqrt 2)) by (unfold Rsqr; field; lra).
    replace (5 / 10 * Rsqr (- be) * Rsqr s + x * - be) with (5 / 10 * Rsqr be * Rsqr s - x * be) by (unfold Rsqr; ring).
    unfold c. field. lra.
Qed.
(* ---- unit area ---- *)
Lemma exp_le : forall a b, a <= b -> exp a <= exp b.
Proof. intros a b [L|<-]; [left; apply exp_increasing; exact L|right; reflexivity]. Qed.
Lemma sqrt_PI_ge1 : 1 <= sqrt PI.
Proof. rewrite <- sqrt_1. apply sqrt_le_1_alt. pose proof PI2_1. lra. Qed.
Lemma erfc_bound : forall y, 1 <= y -> erfc y <= exp (- (y * y)).
Proof.
  set (f := fun y => exp (- (y * y)) - erfc y).
  assert (D : forall y, is_derive f y ((2 / sqrt PI - 2 * y) * exp (- (y * y)))).
  { intros y. unfold f. evar (v : R). match goal with |- is_derive _ _ ?w => replace w with v end.
    - apply (is_derive_minus (fun y => exp (- (y * y))) erfc); [|apply erfc_derive].
      instantiate (1 := - (2 * y) * exp (- (y * y))). auto_derive; [trivial|]. ring.
    - unfold v, minus, plus, opp. simpl. ring. }
  assert (Dec : forall x y, 1 <= x -> x < y -> f y <= f x).
  { intros x y Lx L. destruct (MVT_gen f x y (fun y => (2 / sqrt PI - 2 * y) * exp (- (y * y)))) as (c & Hc & E).
    - intros. apply D.
    - intros t _. apply continuity_pt_filterlim. apply (ex_derive_continuous f). eexists. apply D.
    - rewrite Rmin_left, Rmax_right in Hc by lra. pose proof (exp_pos (- (c * c))). pose proof sqrt_PI_ge1.
      assert (2 / sqrt PI <= 2). { apply (Rmult_le_reg_r (sqrt PI)); [lra|]. unfold Rdiv. rewrite Rmult_assoc, Rinv_l by lra. lra. }
      assert ((2 / sqrt PI - 2 * c) * exp (- (c * c)) <= 0) by nra. nra. }
  assert (Lim : is_lim f p_infty 0).
  { unfold f. replace (Finite 0) with (Finite (0 - 0)) by (f_equal; ring). apply is_lim_minus'; [|apply erfc_inf].
    apply (is_lim_le_le_loc (fun _ => 0) (fun x => / x)).
    - exists 0. intros x P. split; [left; apply exp_pos|apply (gs_small x P)].
    - apply is_lim_const.
    - apply GaussIntP.is_lim_inv. }
  intros y Ly. enough (0 <= f y) by (unfold f in *; lra).
  apply (is_lim_le_loc f (fun _ => f y) p_infty 0 (f y)); [exists y; intros x L; apply Dec; lra|exact Lim|apply is_lim_const].
Qed.
Definition half_peak (k s x : R) : R := exp (calc_u k s x) * erfc (calc_y k s x).
Lemma u_minus_y : forall k s x, 0 < s -> calc_u k s x - calc_y k s x * calc_y k s x = - (x * x / (2 * (s * s))).
Proof.
  intros k s x S. pose proof sqrt2_pos. unfold calc_u, calc_y.
  replace ((k * s / sqrt 2 + x / (s * sqrt 2)) * (k * s / sqrt 2 + x / (s * sqrt 2))) with ((k * s * s + x) * (k * s * s + x) / (s * s * (sqrt 2 * sqrt 2))) by (field; lra).
  rewrite sqrt_sqrt by lra. unfold Rsqr. field. lra.
Qed.
Lemma half_peak_derive : forall k s x, 0 < k -> 0 < s ->
  is_derive (fun x => / k * half_peak k s x - / k * erfc (x / (s * sqrt 2))) x (half_peak k s x).
Proof.
  intros k s x K S. pose proof sqrt2_pos as S2. pose proof sqrt_PI_pos as SP. unfold half_peak.
  assert (Dy : is_derive (calc_y k s) x (/ (s * sqrt 2))) by (unfold calc_y; auto_derive; [trivial|field; lra]).
  assert (Du : is_derive (calc_u k s) x k) by (unfold calc_u; auto_derive; [trivial|ring]).
  assert (De : is_derive (fun x => exp (calc_u k s x)) x (k * exp (calc_u k s x))).
  { apply (is_derive_comp exp (calc_u k s)); [apply is_derive_exp|exact Du]. }
  assert (Df : is_derive (fun x => erfc (calc_y k s x)) x (/ (s * sqrt 2) * (- (2 / sqrt PI) * exp (- (calc_y k s x * calc_y k s x))))).
  { apply (is_derive_comp erfc (calc_y k s)); [apply erfc_derive|exact Dy]. }
  assert (Dg : is_derive (fun x => erfc (x / (s * sqrt 2))) x (/ (s * sqrt 2) * (- (2 / sqrt PI) * exp (- (x / (s * sqrt 2) * (x / (s * sqrt 2))))))).
  { apply (is_derive_comp erfc (fun x => x / (s * sqrt 2))); [apply erfc_derive|]. auto_derive; [trivial|field; lra]. }
  evar (v : R). match goal with |- is_derive _ _ ?w => replace w with v end.
  - apply (is_derive_minus (fun x => / k * (exp (calc_u k s x) * erfc (calc_y k s x))) (fun x => / k * erfc (x / (s * sqrt 2)))).
    + apply (is_derive_scal (fun x => exp (calc_u k s x) * erfc (calc_y k s x))).
      apply (is_derive_mult (fun x => exp (calc_u k s x)) (fun x => erfc (calc_y k s x))); [exact De|exact Df|]. intros a b. apply Rmult_comm.
    + apply (is_derive_scal (fun x => erfc (x / (s * sqrt 2)))). exact Dg.
  - unfold v, minus, plus, opp, mult. simpl.
    assert (E : exp (calc_u k s x) * exp (- (calc_y k s x * calc_y k s x)) = exp (- (x / (s * sqrt 2) * (x / (s * sqrt 2))))).
    { rewrite <- exp_plus. f_equal. pose proof (u_minus_y k s x S).
      replace (x / (s * sqrt 2) * (x / (s * sqrt 2))) with (x * x / ((s * s) * (sqrt 2 * sqrt 2))) by (field; lra). rewrite sqrt_sqrt by lra.
      replace (x * x / (s * s * 2)) with (x * x / (2 * (s * s))) by (field; lra). lra. }
    rewrite <- E. field. lra.
Qed.
Lemma half_peak_lims : forall k s, 0 < k -> 0 < s -> is_lim (half_peak k s) p_infty 0 /\ is_lim (half_peak k s) m_infty 0.
Proof.
  intros k s K S. pose proof sqrt2_pos as S2. assert (SS : 0 < s * sqrt 2) by nra. split.
  - apply (is_lim_le_le_loc (fun _ => 0) (fun x => / (x * / (s * sqrt 2)))).
    + exists (s * sqrt 2). intros x L. unfold half_peak. assert (P : 0 < x * / (s * sqrt 2)) by (apply Rmult_lt_0_compat; [lra|apply Rinv_0_lt_compat; lra]).
      assert (Y : 1 <= calc_y k s x).
      { unfold calc_y. assert (0 < k * s / sqrt 2) by (apply Rdiv_lt_0_compat; nra).
        assert (1 <= x / (s * sqrt 2)); [|lra]. apply (Rmult_le_reg_r (s * sqrt 2)); [lra|]. unfold Rdiv. rewrite Rmult_assoc, Rinv_l by lra. lra. }
      pose proof (erfc_pos (calc_y k s x)). pose proof (exp_pos (calc_u k s x)). pose proof (erfc_bound _ Y).
      split; [apply Rmult_le_pos; lra|].
      apply (Rle_trans _ (exp (calc_u k s x) * exp (- (calc_y k s x * calc_y k s x)))); [apply Rmult_le_compat_l; lra|].
      rewrite <- exp_plus. replace (calc_u k s x + - (calc_y k s x * calc_y k s x)) with (- (x * / (s * sqrt 2) * (x * / (s * sqrt 2)))).
      * apply (gs_small _ P).
      * pose proof (u_minus_y k s x S) as U. unfold Rminus in U. rewrite U.
        replace (x * / (s * sqrt 2) * (x * / (s * sqrt 2))) with (x * x / ((s * s) * (sqrt 2 * sqrt 2))) by (field; lra). rewrite sqrt_sqrt by lra. field. lra.
    + apply is_lim_const.
    + apply (is_lim_comp (fun y => / y) (fun x => x * / (s * sqrt 2)) p_infty 0 p_infty); [apply GaussIntP.is_lim_inv| |exists 0; intros; discriminate].
      eapply is_lim_ext; [|apply (proj1 (proj2 (lin_lim 0 0 (s * sqrt 2) SS)))]. intros t. simpl. unfold Rdiv. ring.
  - apply (is_lim_le_le_loc (fun _ => 0) (fun x => exp (calc_u k s x) * 2)).
    + exists 0. intros x L. unfold half_peak. pose proof (erfc_pos (calc_y k s x)). pose proof (exp_pos (calc_u k s x)). split; [apply Rmult_le_pos; lra|].
      apply Rmult_le_compat_l; [lra|].
      apply (is_lim_le_loc (fun _ => erfc (calc_y k s x)) erfc m_infty (erfc (calc_y k s x)) 2); [|apply is_lim_const|apply erfc_minf].
      exists (calc_y k s x). intros y Ly. left. apply erfc_decreasing. exact Ly.
    + apply is_lim_const.
    + replace (Finite 0) with (Rbar_mult 0 2) by (simpl; f_equal; ring). apply (is_lim_scal_r (fun x => exp (calc_u k s x)) 2 m_infty 0).
      apply (is_lim_comp exp (calc_u k s) m_infty 0 m_infty); [apply is_lim_exp_m| |exists 0; intros; discriminate].
      unfold calc_u. intros P [M HM]. exists ((M - 5 / 10 * Rsqr k * Rsqr s) / k). intros t L. apply HM.
      apply (Rmult_lt_compat_r k) in L; [|exact K]. unfold Rdiv in L. rewrite Rmult_assoc, Rinv_l in L by lra. lra.
Qed.
Lemma jorgensen_halves : forall al be s x, tof_Jorgensen al be s x = 5/10 * al * be / (al + be) * (half_peak al s x + half_peak be s (- x)).
Proof.
  intros. unfold tof_Jorgensen, half_peak. cbv zeta.
  replace (calc_v be s x) with (calc_u be s (- x)) by (unfold calc_u, calc_v; ring). replace (calc_z be s x) with (calc_y be s (- x)) by (unfold calc_y, calc_z, Rdiv; ring). reflexivity.
Qed.
Lemma half_peak_area : forall k s, 0 < k -> 0 < s -> area (half_peak k s) (2 / k) /\ area (fun x => half_peak k s (- x)) (2 / k).
Proof.
  intros k s K S. pose proof sqrt2_pos as S2. assert (SS : 0 < s * sqrt 2) by nra. destruct (half_peak_lims k s K S) as [Lp Lm].
  set (F := fun x => / k * half_peak k s x - / k * erfc (x / (s * sqrt 2))).
  assert (D : forall x, is_derive F x (half_peak k s x)) by (intros; apply half_peak_derive; assumption).
  assert (C : forall x, continuous (half_peak k s) x).
  { intros x. apply (continuous_mult (fun x => exp (calc_u k s x)) (fun x => erfc (calc_y k s x))).
    - apply (ex_derive_continuous (fun x => exp (calc_u k s x))). unfold calc_u. auto_derive. trivial.
    - apply (continuous_comp (calc_y k s) erfc); [apply (ex_derive_continuous (calc_y k s)); unfold calc_y; auto_derive; trivial|apply (ex_derive_continuous erfc); eexists; apply erfc_derive]. }
  assert (Ep : is_lim (fun x => erfc (x / (s * sqrt 2))) p_infty 0).
  { apply (is_lim_comp erfc (fun x => x / (s * sqrt 2)) p_infty 0 p_infty); [apply erfc_inf| |exists 0; intros; discriminate].
    eapply is_lim_ext; [|apply (proj1 (proj2 (lin_lim 0 0 (s * sqrt 2) SS)))]. intros t. simpl. unfold Rdiv. ring. }
  assert (Em : is_lim (fun x => erfc (x / (s * sqrt 2))) m_infty 2).
  { apply (is_lim_comp erfc (fun x => x / (s * sqrt 2)) m_infty 2 m_infty); [apply erfc_minf| |exists 0; intros; discriminate].
    eapply is_lim_ext; [|apply (proj2 (proj2 (lin_lim 0 0 (s * sqrt 2) SS)))]. intros t. simpl. unfold Rdiv. ring. }
  assert (Fp : is_lim F p_infty 0).
  { unfold F. replace (Finite 0) with (Finite (/ k * 0 - / k * 0)) by (f_equal; ring). apply is_lim_minus'.
    - apply (is_lim_scal_l (half_peak k s) (/ k) p_infty 0 Lp).
    - apply (is_lim_scal_l (fun x => erfc (x / (s * sqrt 2))) (/ k) p_infty 0 Ep). }
  assert (Fm : is_lim F m_infty (- (2 / k))).
  { unfold F. replace (Finite (- (2 / k))) with (Finite (/ k * 0 - / k * 2)) by (f_equal; field; lra). apply is_lim_minus'.
    - apply (is_lim_scal_l (half_peak k s) (/ k) m_infty 0 Lm).
    - apply (is_lim_scal_l (fun x => erfc (x / (s * sqrt 2))) (/ k) m_infty 2 Em). }
  split.
  - replace (2 / k) with (0 - - (2 / k)) by ring. unfold area. apply (antiderivative_int F (half_peak k s) (- (2 / k)) 0); assumption.
  - replace (2 / k) with (2 / k - 0) by ring. unfold area. apply (antiderivative_int (fun x => - F (- x)) (fun x => half_peak k s (- x)) 0 (2 / k)).
    + intros x. evar (v : R). match goal with |- is_derive _ _ ?w => replace w with v end.
      * apply (is_derive_opp (fun x => F (- x))). apply (is_derive_comp F (fun x => - x)); [apply D|].
        instantiate (1 := -1). auto_derive; [trivial|ring].
      * unfold v, opp, scal. simpl. unfold mult. simpl. ring.
    + intros x. apply (continuous_comp (fun x => - x) (half_peak k s)); [|apply C]. apply (ex_derive_continuous (fun x : R => - x)); auto_derive; trivial.
    + replace (Finite 0) with (Rbar_opp 0) by (simpl; f_equal; ring). apply is_lim_opp.
      apply (is_lim_comp F (fun x => - x) m_infty 0 p_infty); [exact Fp| |exists 0; intros; discriminate].
      replace p_infty with (Rbar_opp m_infty) by reflexivity. apply is_lim_opp, is_lim_id.
    + replace (Finite (2 / k)) with (Rbar_opp (- (2 / k))) by (simpl; f_equal; ring). apply is_lim_opp.
      apply (is_lim_comp F (fun x => - x) p_infty (- (2 / k)) m_infty); [exact Fm| |exists 0; intros; discriminate].
      replace m_infty with (Rbar_opp p_infty) by reflexivity. apply is_lim_opp, is_lim_id.
Qed.
Lemma area_lin : forall f g v w a, area f v -> area g w -> area (fun x => a * (f x + g x)) (a * (v + w)).
Proof.
  intros f g v w a A B. unfold area in *. apply (is_RInt_gen_scal (fun x => f x + g x) a). apply (is_RInt_gen_plus f g); assumption.
Qed.
Theorem jorgensen_area : forall al be s, 0 < al -> 0 < be -> 0 < s -> area (tof_Jorgensen al be s) 1.
Proof.
  intros al be s A B S. destruct (half_peak_area al s A S) as [HA _]. destruct (half_peak_area be s B S) as [_ HB].
  pose proof (area_lin _ _ _ _ (5/10 * al * be / (al + be)) HA HB) as L.
  replace (5 / 10 * al * be / (al + be) * (2 / al + 2 / be)) with 1 in L by (field; lra).
  unfold area in *. eapply is_RInt_gen_ext; [|exact L]. exists (fun _ => True) (fun _ => True); [exists 0; trivial|exists 0; trivial|].
  intros x y _ _ z _. symmetry. apply jorgensen_halves.
Qed.
Theorem jorgensen_positive : forall al be s x, 0 < al -> 0 < be -> 0 < tof_Jorgensen al be s x.
Proof.
  intros. unfold tof_Jorgensen. cbv zeta. apply Rmult_lt_0_compat.
  - apply Rdiv_lt_0_compat; nra.
  - apply Rplus_lt_0_compat; (apply Rmult_lt_0_compat; [apply exp_pos|apply erfc_pos]).
Qed.
Theorem zcode_is_jorgensen : forall al be s x, 0 < s -> calc_e_beta_g x s al be = tof_Jorgensen al be s x.
Proof.
  intros al be s x S. pose proof sqrt2_pos. unfold calc_e_beta_g, tof_Jorgensen, z_n. cbv zeta.
  replace (z_u x s al) with (calc_u al s x) by (unfold z_u, calc_u, Rsqr; field). replace (z_v x s be) with (calc_v be s x) by (unfold z_v, calc_v, Rsqr; field).
  replace (z_y x s al) with (calc_y al s x) by (unfold z_y, calc_y, Rsqr; field; lra). replace (z_z x s be) with (calc_z be s x) by (unfold z_z, calc_z, Rsqr; field; lra). reflexivity.
Qed.
