(** The Gaussian integral, by the derivative of (int_0^x e^{-t^2} dt)^2 + int_0^1 e^{-x^2 (1 + t^2)} / (1 + t^2) dt. *)
From Coq Require Import Reals Lra.
From Coquelicot Require Import Coquelicot.
Open Scope R_scope.
Definition gs (t : R) : R := exp (- (t * t)).
Definition G (x : R) : R := RInt gs 0 x.
Definition kern (x t : R) : R := exp (- (x * x) * (1 + t * t)) / (1 + t * t).
Definition H (x : R) : R := RInt (fun t => kern x t) 0 1.
Lemma pos1 : forall t, 0 < 1 + t * t.
Proof. intros t. pose proof (Rle_0_sqr t). unfold Rsqr in *. lra. Qed.
Lemma gs_cont : forall t, continuous gs t.
Proof. intros t. apply (ex_derive_continuous gs). unfold gs. auto_derive. exact I. Qed.
Lemma gs_int : forall a b, ex_RInt gs a b.
Proof. intros a b. apply (ex_RInt_continuous gs). intros z _. apply gs_cont. Qed.
Lemma G_derive : forall x, is_derive G x (gs x).
Proof.
  intros x. unfold G. apply (is_derive_RInt gs (fun y => RInt gs 0 y) 0 x); [|apply gs_cont].
  exists (mkposreal 1 Rlt_0_1). intros y _. apply (RInt_correct gs 0 y). apply gs_int.
Qed.
Lemma kern_derive : forall x t, is_derive (fun u => kern u t) x (- (2 * x) * exp (- (x * x) * (1 + t * t))).
Proof. intros x t. pose proof (pos1 t). unfold kern. auto_derive; [lra|]. field. lra. Qed.
Lemma kern_Derive : forall x t, Derive (fun u => kern u t) x = - (2 * x) * exp (- (x * x) * (1 + t * t)).
Proof. intros x t. apply is_derive_unique. apply kern_derive. Qed.
Lemma kern_int : forall x a b, ex_RInt (fun t => kern x t) a b.
Proof. intros x a b. apply (ex_RInt_continuous (fun t => kern x t)). intros z _. apply (ex_derive_continuous (fun t => kern x t)). unfold kern. pose proof (pos1 z). auto_derive. lra. Qed.
Lemma H_derive : forall x, is_derive H x (- (2 * G x) * gs x).
Proof.
  intros x. evar (v : R). assert (D : is_derive H x v).
  - unfold H, v. apply (is_derive_RInt_param kern 0 1 x).
    + apply filter_forall. intros u t _. eexists. apply kern_derive.
    + intros t _. apply (continuity_2d_pt_ext (fun u v => - (2 * u) * exp (- (u * u) * (1 + v * v)))).
      { intros u w. symmetry. apply kern_Derive. }
      apply continuity_2d_pt_mult.
      * apply continuity_2d_pt_opp. apply continuity_2d_pt_mult; [apply continuity_2d_pt_const|apply continuity_2d_pt_id1].
      * apply (continuity_1d_2d_pt_comp exp (fun u v => - (u * u) * (1 + v * v))); [apply derivable_continuous_pt, derivable_pt_exp|].
        apply continuity_2d_pt_mult.
        -- apply continuity_2d_pt_opp, continuity_2d_pt_mult; apply continuity_2d_pt_id1.
        -- apply continuity_2d_pt_plus; [apply continuity_2d_pt_const|]. apply continuity_2d_pt_mult; apply continuity_2d_pt_id2.
    + apply filter_forall. intros u. apply kern_int.
  - assert (E : v = - (2 * G x) * gs x); [|rewrite <- E; exact D]. unfold v.
    transitivity (RInt (fun t => scal (- 2 * gs x) (x * gs (x * t))) 0 1).
    { apply RInt_ext. intros t _. rewrite kern_Derive. unfold scal, gs. simpl. unfold mult. simpl.
        replace (- (x * x) * (1 + t * t)) with (- (x * x) + - (x * t * (x * t))) by ring. rewrite exp_plus. ring. }
    etransitivity; [apply (RInt_scal (fun t => x * gs (x * t)) 0 1 (- 2 * gs x))|].
    2:{ assert (S : RInt (fun t => x * gs (x * t)) 0 1 = G x).
      { pose proof (RInt_comp_lin gs x 0 0 1) as L. unfold scal in L. simpl in L. unfold mult in L. simpl in L.
        unfold G. replace (RInt gs 0 x) with (RInt gs (x * 0 + 0) (x * 1 + 0)) by (f_equal; ring).
        rewrite <- L; [|apply gs_int]. apply RInt_ext. intros t _. rewrite Rplus_0_r. reflexivity. }
      rewrite S. unfold scal. simpl. unfold mult. simpl. ring. }
    apply (ex_RInt_continuous (fun t => x * gs (x * t))). intros z _. apply (ex_derive_continuous (fun t => x * gs (x * t))). unfold gs. auto_derive. exact I.
Qed.
Lemma H_0 : H 0 = PI / 4.
Proof.
  unfold H. rewrite <- atan_1. replace (atan 1) with (atan 1 - atan 0) by (rewrite atan_0; ring). apply is_RInt_unique.
  apply (is_RInt_ext (fun t => / (1 + Rsqr t))).
  { intros t _. unfold kern. replace (- (0 * 0) * (1 + t * t)) with 0 by ring. rewrite exp_0. unfold Rsqr, Rdiv. match goal with |- ?x = ?y => change (@eq R x y) end. ring. }
  apply (is_RInt_derive atan (fun t => / (1 + Rsqr t))).
  - intros x _. pose proof (is_derive_Reals atan x (/ (1 + Rsqr x))) as [_ E]. apply E. pose proof (derivable_pt_lim_atan x) as D. replace (/ (1 + Rsqr x)) with (/ (1 + x ^ 2)) by (unfold Rsqr; f_equal; ring). exact D.
  - intros x _. apply (ex_derive_continuous (fun t => / (1 + Rsqr t))). unfold Rsqr. pose proof (pos1 x). auto_derive. lra.
Qed.
Lemma square_sum : forall x, G x * G x + H x = PI / 4.
Proof.
  intros x. set (F := fun u => G u * G u + H u).
  assert (D : forall u, is_derive F u 0).
  { intros u. unfold F. evar (v : R). replace 0 with v; [apply (is_derive_plus (fun u => G u * G u) H)|].
    - apply (is_derive_mult G G); [apply G_derive|apply G_derive|]. intros a b. apply Rmult_comm.
    - apply H_derive.
    - unfold v, plus, mult. simpl. ring. }
  assert (E : F x = F 0).
  { destruct (Rtotal_order 0 x) as [L|[<-|L]]; [| reflexivity|].
    - destruct (MVT_gen F 0 x (fun _ => 0)) as (c & _ & E); [intros; apply D| |lra].
      intros y _. apply continuity_pt_filterlim. apply (ex_derive_continuous F). exists 0. apply D.
    - destruct (MVT_gen F x 0 (fun _ => 0)) as (c & _ & E); [intros; apply D| |lra].
      intros y _. apply continuity_pt_filterlim. apply (ex_derive_continuous F). exists 0. apply D. }
  unfold F in E. rewrite E, H_0. unfold G. rewrite RInt_point. unfold zero. simpl. ring.
Qed.
Lemma H_bound : forall x, 0 <= H x <= gs x.
Proof.
  intros x. unfold H. split.
  - apply RInt_ge_0; [lra|apply kern_int|]. intros t _. unfold kern. pose proof (exp_pos (- (x * x) * (1 + t * t))). pose proof (pos1 t). apply Rlt_le, Rdiv_lt_0_compat; assumption.
  - replace (gs x) with (RInt (fun _ => gs x) 0 1) by (rewrite RInt_const; unfold scal; simpl; unfold mult; simpl; ring).
    apply RInt_le; [lra|apply kern_int|apply ex_RInt_const|]. intros t _. unfold kern, gs. pose proof (pos1 t). pose proof (Rle_0_sqr t). unfold Rsqr in *.
    apply (Rmult_le_reg_r (1 + t * t)); [lra|]. unfold Rdiv. rewrite Rmult_assoc, Rinv_l, Rmult_1_r by lra.
    pose proof (exp_pos (- (x * x))).
    apply (Rle_trans _ (exp (- (x * x)))); [|nra].
    pose proof (Rle_0_sqr x). unfold Rsqr in *.
    assert (L : - (x * x) * (1 + t * t) <= - (x * x)) by nra. destruct L as [L|L]; [left; apply exp_increasing; exact L|right; rewrite L; reflexivity].
Qed.
Lemma gs_small : forall x, 0 < x -> gs x <= / x.
Proof.
  intros x P. unfold gs. rewrite exp_Ropp. apply Rinv_le_contravar; [exact P|]. pose proof (exp_ineq1_le (x * x)). nra.
Qed.
Lemma G_nonneg : forall x, 0 <= x -> 0 <= G x.
Proof. intros x P. unfold G. apply RInt_ge_0; [exact P|apply gs_int|]. intros t _. left. apply exp_pos. Qed.
Lemma is_lim_inv : is_lim (fun x => / x) p_infty 0.
Proof. apply (is_lim_inv (fun x => x) p_infty p_infty); [apply is_lim_id|discriminate]. Qed.
Theorem gauss_lim : is_lim G p_infty (sqrt PI / 2).
Proof.
  assert (L : is_lim (fun x => sqrt (PI / 4 - H x)) p_infty (sqrt (PI / 4))).
  { apply (is_lim_comp_continuous (fun x => PI / 4 - H x) sqrt p_infty (PI / 4)).
    - replace (Finite (PI / 4)) with (Rbar_minus (PI / 4) 0) by (simpl; f_equal; ring). apply is_lim_minus'; [apply is_lim_const|].
      apply (is_lim_le_le_loc (fun _ => 0) (fun x => / x) H p_infty 0).
      + exists 0. intros x P. destruct (H_bound x). pose proof (gs_small x P). lra.
      + apply is_lim_const.
      + apply is_lim_inv.
    - apply continuity_pt_filterlim. apply continuity_pt_sqrt. pose proof PI_RGT_0. lra. }
  assert (S : sqrt (PI / 4) = sqrt PI / 2).
  { rewrite sqrt_div_alt by lra. f_equal. replace 4 with (2 * 2) by ring. apply sqrt_square. lra. }
  rewrite <- S. apply (is_lim_ext_loc (fun x => sqrt (PI / 4 - H x))); [|exact L].
  exists 0. intros x P. rewrite <- (square_sum x). replace (G x * G x + H x - H x) with (G x * G x) by ring. apply sqrt_square. apply G_nonneg. lra.
Qed.
Lemma G_odd : forall x, G (- x) = - G x.
Proof.
  intros x. unfold G. replace (- x) with (-1 * x + 0) by ring. replace (RInt gs 0 (-1 * x + 0)) with (RInt gs (-1 * 0 + 0) (-1 * x + 0)) by (f_equal; ring).
  rewrite <- RInt_comp_lin by apply gs_int.
  transitivity (RInt (fun t => scal (-1) (gs t)) 0 x); [apply RInt_ext; intros t _; unfold gs, scal; simpl; unfold mult; simpl; f_equal; f_equal; ring|].
  etransitivity; [apply (RInt_scal gs 0 x (-1)); apply gs_int|]. unfold scal. simpl. unfold mult. simpl. ring.
Qed.
Lemma gauss_lim_minus : is_lim G m_infty (- (sqrt PI / 2)).
Proof.
  apply (is_lim_ext (fun x => - G (- x))); [intros x; rewrite G_odd; ring|].
  apply (is_lim_opp (fun x => G (- x)) m_infty (sqrt PI / 2)).
  apply (is_lim_comp G (fun x => - x) m_infty (sqrt PI / 2) p_infty); [apply gauss_lim| |].
  - replace p_infty with (Rbar_opp m_infty) by reflexivity. apply is_lim_opp. apply is_lim_id.
  - exists 0. intros y _. discriminate.
Qed.
(** Improper integrals by antiderivatives. *)
Theorem antiderivative_int : forall (F f : R -> R) (a b : R), (forall x, is_derive F x (f x)) -> (forall x, continuous f x) ->
  is_lim F m_infty a -> is_lim F p_infty b -> is_RInt_gen f (Rbar_locally m_infty) (Rbar_locally p_infty) (b - a).
Proof.
  intros F f a b D C A B.
  assert (E : forall x, Derive F x = f x) by (intros; apply is_derive_unique, D).
  apply (is_RInt_gen_ext (Derive F)).
  - exists (fun _ => True) (fun _ => True); [exists 0; trivial|exists 0; trivial|]. intros x y _ _ z _. apply E.
  - apply is_RInt_gen_Derive.
    + exists (fun _ => True) (fun _ => True); [exists 0; trivial|exists 0; trivial|]. intros x y _ _ z _. exists (f z). apply D.
    + exists (fun _ => True) (fun _ => True); [exists 0; trivial|exists 0; trivial|]. intros x y _ _ z _.
      apply (continuous_ext f); [intros; symmetry; apply E|apply C].
    + exact A.
    + exact B.
Qed.
