From Coq Require Import Reals Lra Psatz Bool.
From Coquelicot Require Import Coquelicot.
From Verif Require Import Spec.Lin3 Model.FlipRatio Model.PowderInt Spec.Intens Spec.Powder Proofs.FlipRatioP.
Open Scope R_scope.

(** ** averages of trigonometric polynomials of degree two *)
Lemma trig_avg A B C D E F :
  powder_average (fun t => A + B * cos t + C * sin t + D * Rsqr (cos t) + E * Rsqr (sin t) + F * (cos t * sin t)) = A + (D + E) / 2.
Proof.
  assert (P := PI_RGT_0).
  set (g := fun t => A * t + B * sin t - C * cos t + D * (t / 2 + sin t * cos t / 2) + E * (t / 2 - sin t * cos t / 2) + F * (Rsqr (sin t) / 2)).
  assert (I : is_RInt (fun t => A + B * cos t + C * sin t + D * Rsqr (cos t) + E * Rsqr (sin t) + F * (cos t * sin t)) 0 (2 * PI)
                (minus (g (2 * PI)) (g 0))).
  { apply (is_RInt_derive g).
    - intros x _. unfold g, Rsqr. auto_derive; [exact I|].
      assert (S := sin2_cos2 x). unfold Rsqr in S.
      assert (cos x * cos x = 1 - sin x * sin x) by lra. field [H].
    - intros x _. unfold Rsqr. apply (ex_derive_continuous (V := R_NormedModule)). auto_derive. exact I. }
  apply (is_RInt_unique (V := R_CompleteNormedModule)) in I. unfold powder_average. rewrite I. unfold g, minus, plus, opp; cbn.
  rewrite sin_2PI, cos_2PI, sin_0, cos_0. unfold Rsqr. field. lra.
Qed.
Definition deg2 (G : R -> R -> R) : Prop := forall c s,
  G c s = G 0 0 + (G 1 0 - G (-1) 0) / 2 * c + (G 0 1 - G 0 (-1)) / 2 * s + ((G 1 0 + G (-1) 0) / 2 - G 0 0) * Rsqr c
    + ((G 0 1 + G 0 (-1)) / 2 - G 0 0) * Rsqr s
    + (G 1 1 - G 1 0 - G 0 1 + G 0 0) * (c * s).
Lemma avg_deg2 G : deg2 G -> powder_average (fun t => G (cos t) (sin t)) = (G 1 0 + G (-1) 0 + G 0 1 + G 0 (-1)) / 4.
Proof.
  intros H.
  transitivity (powder_average (fun t => G 0 0 + (G 1 0 - G (-1) 0) / 2 * cos t + (G 0 1 - G 0 (-1)) / 2 * sin t
    + ((G 1 0 + G (-1) 0) / 2 - G 0 0) * Rsqr (cos t) + ((G 0 1 + G 0 (-1)) / 2 - G 0 0) * Rsqr (sin t)
    + (G 1 1 - G 1 0 - G 0 1 + G 0 0) * (cos t * sin t))).
  - unfold powder_average. f_equal. apply RInt_ext. intros x _. apply H.
  - rewrite trig_avg. field.
Qed.
Definition crystallite_cs (e : env) (alpha c s : R) (m : V3 R -> ix -> cx) : arg :=
  let n := mkV (sin alpha * c) (sin alpha * s) (cos alpha) in
  mkArg (e Pol) (e Flip) (e (Fn Re), e (Fn Im)) (vec3 (m n)) n None.
(** intensity of a crystallite: |N|^2 + |M|^2 + 2 p Re(N* M.n) + p chiral *)
Definition simple (p : R) (e : env) (M : ix -> cx) (n : V3 R) : R :=
  (Rsqr (e (Fn Re)) + Rsqr (e (Fn Im))) +
  (Rsqr (fst (M X1)) + Rsqr (snd (M X1)) + Rsqr (fst (M X2)) + Rsqr (snd (M X2)) + Rsqr (fst (M X3)) + Rsqr (snd (M X3))) +
  p * (2 * (v_1 n * (e (Fn Re) * fst (M X1) + e (Fn Im) * snd (M X1)) + v_2 n * (e (Fn Re) * fst (M X2) + e (Fn Im) * snd (M X2)) +
            v_3 n * (e (Fn Re) * fst (M X3) + e (Fn Im) * snd (M X3)))) +
  p * (2 * (v_1 n * (snd (M X2) * fst (M X3) - fst (M X2) * snd (M X3)) + v_2 n * (snd (M X3) * fst (M X1) - fst (M X3) * snd (M X1)) +
            v_3 n * (snd (M X1) * fst (M X2) - fst (M X1) * snd (M X2)))).
Definition nn (alpha c s : R) : V3 R := mkV (sin alpha * c) (sin alpha * s) (cos alpha).
Definition G_ (p : env -> R) e alpha (m : V3 R -> ix -> cx) c s := simple (p e) e (m (nn alpha c s)) (nn alpha c s).
Definition pu (e : env) := e Pol.
Definition pd (e : env) := - (e Pol * (2 * e Flip - 1)).
Lemma ip_simple e alpha c s m : ip (calc_iint (mkF false false false false) (crystallite_cs e alpha c s m)) = G_ pu e alpha m c s.
Proof.
  rewrite ip_form. unfold form, fp, fm, fx, ch, fz, crystallite_cs, vec3, y_of, G_, simple, pu, nn.
  cbn [a_fm a_fn a_bp a_fe a_axis a_ext fst snd v_1 v_2 v_3]. unfold Rsqr. field.
Qed.
Lemma im_simple e alpha c s m : im (calc_iint (mkF false false false false) (crystallite_cs e alpha c s m)) = G_ pd e alpha m c s.
Proof.
  rewrite im_form. unfold form, fp, fm, fx, ch, fz, crystallite_cs, vec3, y_of, G_, simple, pd, nn.
  cbn [a_fm a_fn a_bp a_fe a_axis a_ext fst snd v_1 v_2 v_3]. unfold Rsqr. field.
Qed.
(** products of linear forms in c, s *)
Definition lin (g : R -> R -> R) : Prop := exists a b d, forall c s, g c s = a + b * c + d * s.
Definition quad (g : R -> R -> R) : Prop := exists A B C D E F, forall c s, g c s = A + B * c + C * s + D * Rsqr c + E * Rsqr s + F * (c * s).
Lemma quad_deg G : quad G -> deg2 G.
Proof. intros (A & B & C & D & E & F & H) c s. rewrite !H. unfold Rsqr. field. Qed.
Lemma quad_c x : quad (fun _ _ => x). Proof. exists x, 0, 0, 0, 0, 0. intros; ring. Qed.
Lemma quad_add f g : quad f -> quad g -> quad (fun c s => f c s + g c s).
Proof. intros (A & B & C & D & E & F & H) (A' & B' & C' & D' & E' & F' & H'). exists (A+A'), (B+B'), (C+C'), (D+D'), (E+E'), (F+F'). intros. rewrite H, H'. ring. Qed.
Lemma quad_sub f g : quad f -> quad g -> quad (fun c s => f c s - g c s).
Proof. intros (A & B & C & D & E & F & H) (A' & B' & C' & D' & E' & F' & H'). exists (A-A'), (B-B'), (C-C'), (D-D'), (E-E'), (F-F'). intros. rewrite H, H'. ring. Qed.
Lemma quad_scal k f : quad f -> quad (fun c s => k * f c s).
Proof. intros (A & B & C & D & E & F & H). exists (k*A), (k*B), (k*C), (k*D), (k*E), (k*F). intros. rewrite H. ring. Qed.
Lemma quad_ll f g : lin f -> lin g -> quad (fun c s => f c s * g c s).
Proof. intros (a & b & d & H) (a' & b' & d' & H'). exists (a*a'), (a*b'+b*a'), (a*d'+d*a'), (b*b'), (d*d'), (b*d'+d*b'). intros. rewrite H, H'. unfold Rsqr. ring. Qed.
Lemma quad_lin f : lin f -> quad f.
Proof. intros (a & b & d & H). exists a, b, d, 0, 0, 0. intros. rewrite H. ring. Qed.
Lemma quad_sqr f : lin f -> quad (fun c s => Rsqr (f c s)).
Proof. intros H. unfold Rsqr. apply quad_ll; assumption. Qed.
Lemma quad_ext f g : (forall c s, f c s = g c s) -> quad f -> quad g.
Proof. intros H (A & B & C & D & E & F & K). exists A, B, C, D, E, F. intros. rewrite <- H. apply K. Qed.
Lemma lin_c x : lin (fun _ _ => x). Proof. exists x, 0, 0. intros; ring. Qed.
Lemma lin_add f g : lin f -> lin g -> lin (fun c s => f c s + g c s).
Proof. intros (a & b & d & H) (a' & b' & d' & H'). exists (a+a'), (b+b'), (d+d'). intros. rewrite H, H'. ring. Qed.
Lemma lin_scal k f : lin f -> lin (fun c s => k * f c s).
Proof. intros (a & b & d & H). exists (k*a), (k*b), (k*d). intros. rewrite H. ring. Qed.
Lemma lin_scal_r k f : lin f -> lin (fun c s => f c s * k).
Proof. intros (a & b & d & H). exists (k*a), (k*b), (k*d). intros. rewrite H. ring. Qed.
(** M with linear first components and a third one which is constant *)
Lemma G_quad p e alpha (m : V3 R -> ix -> cx) z :
  (forall i, i <> X3 -> lin (fun c s => fst (m (nn alpha c s) i)) /\ lin (fun c s => snd (m (nn alpha c s) i))) ->
  (forall n, m n X3 = z) -> quad (G_ p e alpha m).
Proof.
  intros H Z. destruct (H X1 ltac:(discriminate)) as (A1 & B1), (H X2 ltac:(discriminate)) as (A2 & B2).
  unfold G_, simple. cbn [nn v_1 v_2 v_3].
  assert (C1 : lin (fun c s => sin alpha * c)) by (exists 0, (sin alpha), 0; intros; ring).
  assert (C2 : lin (fun c s => sin alpha * s)) by (exists 0, 0, (sin alpha); intros; ring).
  apply quad_ext with (f := fun c s => (Rsqr (e (Fn Re)) + Rsqr (e (Fn Im))) +
  (Rsqr (fst (m (nn alpha c s) X1)) + Rsqr (snd (m (nn alpha c s) X1)) + Rsqr (fst (m (nn alpha c s) X2)) + Rsqr (snd (m (nn alpha c s) X2)) + (Rsqr (fst z) + Rsqr (snd z))) +
  p e * (2 * ((sin alpha * c) * (e (Fn Re) * fst (m (nn alpha c s) X1) + e (Fn Im) * snd (m (nn alpha c s) X1)) + (sin alpha * s) * (e (Fn Re) * fst (m (nn alpha c s) X2) + e (Fn Im) * snd (m (nn alpha c s) X2)) +
            cos alpha * (e (Fn Re) * fst z + e (Fn Im) * snd z))) +
  p e * (2 * ((sin alpha * c) * (snd (m (nn alpha c s) X2) * fst z + fst (m (nn alpha c s) X2) * (- snd z)) + (sin alpha * s) * (fst (m (nn alpha c s) X1) * snd z + (snd (m (nn alpha c s) X1) * (- fst z))) +
            cos alpha * (snd (m (nn alpha c s) X1) * fst (m (nn alpha c s) X2) - fst (m (nn alpha c s) X1) * snd (m (nn alpha c s) X2))))).
  { intros c s. rewrite !Z. ring. }
  repeat first [apply quad_c|apply quad_sub|apply quad_add|apply quad_sqr; assumption|apply quad_scal|apply quad_ll];
   repeat first [assumption|apply lin_add|apply lin_scal|apply lin_scal_r].
Qed.
Lemma induced_lin e alpha i : i <> X3 ->
  lin (fun c s => fst (induced e (nn alpha c s) i)) /\ lin (fun c s => snd (induced e (nn alpha c s) i)).
Proof.
  destruct i; intros H; try congruence; cbn; split.
  - exists (e Field * (cos alpha * e (Sg X1 X3 Re))), (e Field * (sin alpha * e (Sg X1 X1 Re))), (e Field * (sin alpha * e (Sg X1 X2 Re))); intros; ring.
  - exists (e Field * (cos alpha * e (Sg X1 X3 Im))), (e Field * (sin alpha * e (Sg X1 X1 Im))), (e Field * (sin alpha * e (Sg X1 X2 Im))); intros; ring.
  - exists (e Field * (cos alpha * e (Sg X2 X3 Re))), (e Field * (sin alpha * e (Sg X2 X1 Re))), (e Field * (sin alpha * e (Sg X2 X2 Re))); intros; ring.
  - exists (e Field * (cos alpha * e (Sg X2 X3 Im))), (e Field * (sin alpha * e (Sg X2 X1 Im))), (e Field * (sin alpha * e (Sg X2 X2 Im))); intros; ring.
Qed.
Lemma para_deg p e a : deg2 (G_ p e a (para e)).
Proof. apply quad_deg. apply G_quad with (0,0); [intros i; apply induced_lin|reflexivity]. Qed.
Lemma ord_deg p e a : deg2 (G_ p e a (ord e)).
Proof. apply quad_deg. apply G_quad with (ordered e X3); [intros i _; split; unfold ord; apply lin_c|reflexivity]. Qed.
Lemma mix_deg p e a : deg2 (G_ p e a (mix e)).
Proof.
  apply quad_deg. apply G_quad with (cadd (0,0) (ordered e X3)); [|reflexivity].
  intros i H. destruct (induced_lin e a i H) as (A & B). split; cbn; apply lin_add; try assumption; apply lin_c.
Qed.
Lemma avg_plus_4 e a m : deg2 (G_ pu e a m) ->
  avg_plus e a m = (G_ pu e a m 1 0 + G_ pu e a m (-1) 0 + G_ pu e a m 0 1 + G_ pu e a m 0 (-1)) / 4.
Proof.
  intros D. rewrite <- (avg_deg2 _ D). unfold avg_plus, powder_average. f_equal. apply RInt_ext. intros x _. apply (ip_simple e a (cos x) (sin x) m).
Qed.
Lemma avg_minus_4 e a m : deg2 (G_ pd e a m) ->
  avg_minus e a m = (G_ pd e a m 1 0 + G_ pd e a m (-1) 0 + G_ pd e a m 0 1 + G_ pd e a m 0 (-1)) / 4.
Proof.
  intros D. rewrite <- (avg_deg2 _ D). unfold avg_minus, powder_average. f_equal. apply RInt_ext. intros x _. apply (im_simple e a (cos x) (sin x) m).
Qed.
Ltac four D := first [rewrite (avg_plus_4 _ _ _ (D pu _ _))|rewrite (avg_minus_4 _ _ _ (D pd _ _))];
  unfold G_, simple, pu, pd, nn, para, ord, mix, induced, ordered, cadd, cscale; cbn [fst snd v_1 v_2 v_3]; unfold Rsqr.
Ltac terms := unfold pip, pim, calc_powder_iint_1d_para, calc_powder_iint_1d_ordered, calc_powder_iint_2d_para, calc_powder_iint_2d_ordered, calc_powder_iint_2d_mix,
  calc_m_sq_sin_sq_para, calc_m_sq_cos_sq_para, calc_cross_term_para, calc_chiral_term_cos_sin_sq_para, calc_chiral_term_cos_cube_para,
  calc_cross_term_ordered, calc_chiral_term_ordered, calc_m_sq_mix, calc_chiral_term_sin_sq_mix, calc_chiral_term_cos_sq_mix, fm_sq, abs_sq;
  cbn [fst snd]; unfold Rsqr.
Ltac trig a := let S := fresh in assert (S : cos a * cos a = 1 - sin a * sin a) by (assert (T := sin2_cos2 a); unfold Rsqr in T; lra);
  generalize dependent (cos a); generalize dependent (sin a); intros.
Section Avg.
Variable e : env.
Let al := e Alpha.
Lemma avg_para_plus f : balanced e -> pip (calc_powder_iint_2d_para f e) = avg_plus e al (para e).
Proof. unfold balanced. intros B. four para_deg. terms. assert (B2 : e (Sg X1 X2 Re) * e (Sg X1 X2 Re) = e (Sg X2 X1 Re) * e (Sg X2 X1 Re) + e (Sg X2 X1 Im) * e (Sg X2 X1 Im) - e (Sg X1 X2 Im) * e (Sg X1 X2 Im)) by (unfold Rsqr in B; lra). clear B. fold al. trig al. field [B2 H]. Qed.
Lemma avg_para_minus f : balanced e -> pim (calc_powder_iint_2d_para f e) = avg_minus e al (para e).
Proof. unfold balanced. intros B. four para_deg. terms. assert (B2 : e (Sg X1 X2 Re) * e (Sg X1 X2 Re) = e (Sg X2 X1 Re) * e (Sg X2 X1 Re) + e (Sg X2 X1 Im) * e (Sg X2 X1 Im) - e (Sg X1 X2 Im) * e (Sg X1 X2 Im)) by (unfold Rsqr in B; lra). clear B. fold al. trig al. field [B2 H]. Qed.
Lemma avg_ord_plus f : pip (calc_powder_iint_2d_ordered f e) = avg_plus e al (ord e).
Proof. four ord_deg. terms. fold al. trig al. field [H]. Qed.
Lemma avg_ord_minus f : pim (calc_powder_iint_2d_ordered f e) = avg_minus e al (ord e).
Proof. four ord_deg. terms. fold al. trig al. field [H]. Qed.
Lemma avg_mix_plus : balanced e -> fst (calc_powder_iint_2d_mix e) = avg_plus e al (mix e).
Proof. unfold balanced. intros B. four mix_deg. terms. assert (B2 : e (Sg X1 X2 Re) * e (Sg X1 X2 Re) = e (Sg X2 X1 Re) * e (Sg X2 X1 Re) + e (Sg X2 X1 Im) * e (Sg X2 X1 Im) - e (Sg X1 X2 Im) * e (Sg X1 X2 Im)) by (unfold Rsqr in B; lra). clear B. fold al. trig al. field [B2 H]. Qed.
End Avg.
Section Mix.
Variable e : env.
Let al := e Alpha.
Definition term_m2 (e : env) : R := fst (calc_chiral_term_sin_sq_mix false false e).
Definition term_m3 (e : env) : R := fst (calc_chiral_term_cos_sq_mix false false e).
Lemma avg_mix_minus_err : balanced e -> snd (calc_powder_iint_2d_mix e) =
  avg_minus e al (mix e) - 2 * (e Pol * (2 * e Flip - 1)) * e Field * term_m3 e * Rsqr (sin al).
Proof. unfold balanced. intros B. four mix_deg. unfold term_m3. terms. assert (B2 : e (Sg X1 X2 Re) * e (Sg X1 X2 Re) = e (Sg X2 X1 Re) * e (Sg X2 X1 Re) + e (Sg X2 X1 Im) * e (Sg X2 X1 Im) - e (Sg X1 X2 Im) * e (Sg X1 X2 Im)) by (unfold Rsqr in B; lra). clear B. fold al. trig al. field [B2 H]. Qed.
End Mix.
Lemma at_90 e m : e Alpha = PI / 2 -> cos (e Alpha) = 0 /\ sin (e Alpha) = 1 /\ avg_plus e (PI/2) m = avg_plus e (e Alpha) m /\ avg_minus e (PI/2) m = avg_minus e (e Alpha) m.
Proof. intros ->. rewrite cos_PI2, sin_PI2. auto. Qed.
Lemma para_1d_2d f e : e Alpha = PI / 2 -> pip (calc_powder_iint_1d_para f e) = pip (calc_powder_iint_2d_para f e) /\ pim (calc_powder_iint_1d_para f e) = pim (calc_powder_iint_2d_para f e).
Proof. intros H. destruct (at_90 e (para e) H) as (C & S & _). terms. rewrite C, S. split; ring. Qed.
Lemma ord_1d_2d g h f e : e Alpha = PI / 2 -> fst (calc_powder_iint_1d_ordered g h e) = pip (calc_powder_iint_2d_ordered f e) /\ fst (calc_powder_iint_1d_ordered g h e) = pim (calc_powder_iint_2d_ordered f e).
Proof. intros H. destruct (at_90 e (para e) H) as (C & S & _). terms. rewrite C. split; ring. Qed.
Lemma mix_1d_2d f e p m d d' : e Alpha = PI / 2 -> calc_powder_iint_1d_mix f e = Some (p, m, d, d') ->
  p = fst (calc_powder_iint_2d_mix e) /\
  m = snd (calc_powder_iint_2d_mix e) + 2 * (e Pol * (2 * e Flip - 1)) * e Field * (term_m2 e + term_m3 e).
Proof.
  intros H E. destruct (at_90 e (para e) H) as (C & S & _). unfold calc_powder_iint_1d_mix in E.
  destruct (calc_powder_iint_1d_para f e) as [[[pp pm] d1] d2] eqn:P.
  assert (P1 : pp = pip (calc_powder_iint_1d_para f e)) by (rewrite P; reflexivity).
  assert (P2 : pm = pim (calc_powder_iint_1d_para f e)) by (rewrite P; reflexivity). clear P.
  destruct (calc_chiral_term_sin_sq_mix (pf_sg f) (pf_fm f) e) as [m2 dm2] eqn:Q.
  assert (Q1 : m2 = term_m2 e) by (apply (f_equal fst) in Q; exact (eq_sym Q)). clear Q.
  destruct (pf_flip f || pf_field f); [discriminate|].
  assert (p = pp + fm_sq e + e Pol * e Field * m2) by congruence.
  assert (m = pm + fm_sq e + e Pol * (2 * e Flip - 1) * e Field * m2) by congruence.
  subst p m pp pm m2. unfold term_m2, term_m3. terms. rewrite C, S. split; ring.
Qed.
Definition at90 (e : env) : env := with_ e Alpha (PI / 2).
Lemma at90_other e v : v <> Alpha -> at90 e v = e v. Proof. unfold at90, with_. destruct v; try reflexivity. congruence. Qed.
Lemma avg_env e m a : (forall n i, m (at90 e) n i = m e n i) -> avg_plus (at90 e) a (m (at90 e)) = avg_plus e a (m e) /\ avg_minus (at90 e) a (m (at90 e)) = avg_minus e a (m e).
Proof.
  intros H. assert (E : forall phi, crystallite (at90 e) a phi (m (at90 e)) = crystallite e a phi (m e)).
  { intros phi. unfold crystallite, vec3. rewrite !H. reflexivity. }
  unfold avg_plus, avg_minus, powder_average. split; f_equal; apply RInt_ext; intros x _; rewrite E; reflexivity.
Qed.
Lemma avg_1d_para f e : balanced e -> pip (calc_powder_iint_1d_para f e) = avg_plus e (PI/2) (para e) /\ pim (calc_powder_iint_1d_para f e) = avg_minus e (PI/2) (para e).
Proof.
  intros B. assert (A : at90 e Alpha = PI/2) by reflexivity.
  destruct (para_1d_2d f (at90 e) A) as (E1 & E2). rewrite (avg_para_plus (at90 e) f B) in E1. rewrite (avg_para_minus (at90 e) f B) in E2.
  rewrite A in E1, E2. destruct (avg_env e para (PI/2) (fun _ _ => eq_refl)) as (X & Y). rewrite X in E1. rewrite Y in E2. split; assumption.
Qed.
Lemma avg_1d_ord g h e : fst (calc_powder_iint_1d_ordered g h e) = avg_plus e (PI/2) (ord e) /\ fst (calc_powder_iint_1d_ordered g h e) = avg_minus e (PI/2) (ord e).
Proof.
  assert (A : at90 e Alpha = PI/2) by reflexivity. set (f := mkPF false false false false false false).
  destruct (ord_1d_2d g h f (at90 e) A) as (E1 & E2). rewrite (avg_ord_plus (at90 e) f) in E1. rewrite (avg_ord_minus (at90 e) f) in E2.
  rewrite A in E1, E2. destruct (avg_env e ord (PI/2) (fun _ _ => eq_refl)) as (X & Y). rewrite X in E1. rewrite Y in E2. split; assumption.
Qed.
Lemma mix_env f e p m d d' : calc_powder_iint_1d_mix f e = Some (p, m, d, d') -> exists d1 d2, calc_powder_iint_1d_mix f (at90 e) = Some (p, m, d1, d2).
Proof.
  unfold calc_powder_iint_1d_mix. destruct (pf_flip f || pf_field f); [discriminate|].
  intros H. eexists _, _. apply (f_equal (fun o => match o with Some (a, b, _, _) => Some (a, b) | None => None end)) in H.
  unfold calc_powder_iint_1d_para, calc_m_sq_sin_sq_para, calc_cross_term_para, calc_chiral_term_sin_sq_mix in *.
  assert (E : forall (a b a' b' : R) (x y : pdict), Some (a, b) = Some (a', b') -> Some (a, b, x, y) = Some (a', b', x, y)) by (intros; congruence).
  apply E. exact H.
Qed.
Lemma avg_1d_mix f e p m d d' : balanced e -> calc_powder_iint_1d_mix f e = Some (p, m, d, d') ->
  p = avg_plus e (PI/2) (mix e) /\ m = avg_minus e (PI/2) (mix e) + 2 * (e Pol * (2 * e Flip - 1)) * e Field * term_m2 e.
Proof.
  intros B H. destruct (mix_env _ _ _ _ _ _ H) as (d1 & d2 & H').
  assert (A : at90 e Alpha = PI/2) by reflexivity.
  destruct (mix_1d_2d _ _ _ _ _ _ A H') as (E1 & E2). rewrite (avg_mix_plus (at90 e) B) in E1. rewrite (avg_mix_minus_err (at90 e) B) in E2.
  rewrite A in E1, E2. destruct (avg_env e mix (PI/2) (fun _ _ => eq_refl)) as (X & Y). rewrite X in E1. rewrite Y, sin_PI2 in E2.
  split; [assumption|]. rewrite E2.
  change (term_m2 (at90 e)) with (term_m2 e). change (term_m3 (at90 e)) with (term_m3 e). rewrite !at90_other by discriminate. unfold Rsqr. ring.
Qed.
Definition env_of (l : var -> option R) (d : R) : env := fun v => match l v with Some x => x | None => d end.
Lemma unbalanced_ex : exists e f, pip (calc_powder_iint_2d_para f e) <> avg_plus e (e Alpha) (para e).
Proof.
  exists (fun v => match v with Sg X2 X1 Re => 1 | Field => 1 | Alpha => PI / 2 | _ => 0 end), (mkPF false false false false false false).
  four para_deg. terms. cbn [v_1]. rewrite cos_PI2, sin_PI2. lra.
Qed.
Lemma mix_minus_ex : exists e, balanced e /\ snd (calc_powder_iint_2d_mix e) <> avg_minus e (e Alpha) (mix e).
Proof.
  exists (fun v => match v with Sg X2 X3 Re => 1 | Fm X1 Im => 1 | Field => 1 | Pol => 1 | Flip => 1 | Alpha => PI / 2 | _ => 0 end).
  split; [reflexivity|]. rewrite avg_mix_minus_err by reflexivity. unfold term_m3. terms. rewrite sin_PI2. lra.
Qed.
Lemma mix_1d_minus_ex : exists e p m d d', balanced e /\ calc_powder_iint_1d_mix (mkPF false false false false false false) e = Some (p, m, d, d') /\ m <> avg_minus e (PI/2) (mix e).
Proof.
  set (e := fun v => match v with Sg X1 X2 Re => 1 | Sg X2 X1 Re => -1 | Fm X3 Im => 1 | Field => 1 | Pol => 1 | Flip => 1 | _ => 0 end).
  assert (B : balanced e) by (unfold balanced, e, Rsqr; lra).
  destruct (calc_powder_iint_1d_mix (mkPF false false false false false false) e) as [[[[p m] d] d']|] eqn:E; [|exfalso; revert E; unfold calc_powder_iint_1d_mix; cbn; discriminate].
  exists e, p, m, d, d'. split; [exact B|]. split; [exact E|]. destruct (avg_1d_mix _ _ _ _ _ _ B E) as (_ & ->). unfold term_m2. terms. unfold e. lra.
Qed.
