From Coq Require Import Reals Lra Psatz Bool List.
From Coquelicot Require Import Coquelicot.
From Verif Require Import Spec.Lin3 Model.FlipRatio Model.PowderInt Spec.Intens Spec.Powder Proofs.PowderIntP.
Open Scope R_scope.

Lemma right_none q e d : right_but (fun _ => false) q e d -> right q e d.
Proof. intros H v x E. apply H; [exact E|reflexivity]. Qed.
Lemma der_eq (g : R -> R) (x d1 d2 : R) : is_derive g x d1 -> d1 = d2 -> is_derive g x d2.
Proof. intros H <-. exact H. Qed.
Ltac opent := unfold pip, pim, pdp, pdm, calc_powder_iint_1d_para, calc_powder_iint_1d_ordered, calc_powder_iint_2d_para, calc_powder_iint_2d_ordered,
  calc_m_sq_sin_sq_para, calc_m_sq_cos_sq_para, calc_cross_term_para, calc_chiral_term_cos_sin_sq_para, calc_chiral_term_cos_cube_para,
  calc_cross_term_ordered, calc_chiral_term_ordered, calc_m_sq_mix, calc_chiral_term_sin_sq_mix, calc_chiral_term_cos_sq_mix, fm_sq, abs_sq.
Ltac fin := first [exact I | reflexivity | (let t := fresh in intros t; reflexivity)].
Ltac der := 
  match goal with
  | H : None = Some _ |- _ => discriminate H
  | H : true = false |- _ => discriminate H
  | H : Some ?y = Some ?x |- is_derive _ _ ?x => let E := fresh in assert (E : x = y) by congruence; rewrite E; clear H E x;
      unfold with_; cbn [same andb fst snd];
      eapply der_eq; [auto_derive; [exact I|reflexivity]|unfold Rsqr, Rdiv; field]
  end.
Ltac flags := repeat match goal with |- context [when ?b _] => is_var b; destruct b end.
Ltac flagsP := repeat match goal with f : pflags |- _ => destruct f as [[] [] [] [] [] []] end.
Ltac cases := intros v x H X; destruct v as [p|i j p|i p| | | |]; try destruct p; try destruct i; try destruct j;
  try discriminate X; clear X; cbn in H; try discriminate H.
Ltac go := opent; flags; cases; der.
Section T.
Variables (g h : bool) (e : env).
Lemma d_p1 : right (fun e => fst (calc_m_sq_sin_sq_para g e)) e (snd (calc_m_sq_sin_sq_para g e)).
Proof. apply right_none. go. Qed.
Lemma d_p2 : right (fun e => fst (calc_m_sq_cos_sq_para g e)) e (snd (calc_m_sq_cos_sq_para g e)).
Proof. apply right_none. go. Qed.
Lemma d_p3 : right (fun e => fst (calc_cross_term_para g h e)) e (snd (calc_cross_term_para g h e)).
Proof. apply right_none. go. Qed.
Lemma d_p4 : right (fun e => fst (calc_chiral_term_cos_sin_sq_para g e)) e (snd (calc_chiral_term_cos_sin_sq_para g e)).
Proof. apply right_none. go. Qed.
Lemma d_p5 : right (fun e => fst (calc_chiral_term_cos_cube_para g e)) e (snd (calc_chiral_term_cos_cube_para g e)).
Proof. apply right_none. go. Qed.
Lemma d_o1 : right (fun e => fst (calc_cross_term_ordered g h e)) e (snd (calc_cross_term_ordered g h e)).
Proof. apply right_none. go. Qed.
Lemma d_o2 : right (fun e => fst (calc_chiral_term_ordered g e)) e (snd (calc_chiral_term_ordered g e)).
Proof. apply right_none. go. Qed.
Lemma d_m1 : right_but (same (Fm X2 Im)) (fun e => fst (calc_m_sq_mix g h e)) e (snd (calc_m_sq_mix g h e)).
Proof. go. Qed.
Lemma d_m2 : right_but (same (Fm X3 Im)) (fun e => fst (calc_chiral_term_sin_sq_mix g h e)) e (snd (calc_chiral_term_sin_sq_mix g h e)).
Proof. go. Qed.
Lemma d_m3 : right_but sig_13_23 (fun e => fst (calc_chiral_term_cos_sq_mix g h e)) e (snd (calc_chiral_term_cos_sq_mix g h e)).
Proof. go. Qed.
Lemma d_1d_ord : right (fun e => fst (calc_powder_iint_1d_ordered g h e)) e (snd (calc_powder_iint_1d_ordered g h e)).
Proof. apply right_none. go. Qed.
End T.

Section I.
Variable e : env.
Lemma d_1d_para f : right (fun e => pip (calc_powder_iint_1d_para f e)) e (pdp (calc_powder_iint_1d_para f e)) /\
  right (fun e => pim (calc_powder_iint_1d_para f e)) e (pdm (calc_powder_iint_1d_para f e)).
Proof. destruct f as [a b c d k l]. split; apply right_none; opent; cbn [pf_fn pf_sg pf_pol pf_flip]; destruct a, c, d; try destruct k; cases; der. Qed.
Lemma d_2d_para f : right (fun e => pip (calc_powder_iint_2d_para f e)) e (pdp (calc_powder_iint_2d_para f e)) /\
  right (fun e => pim (calc_powder_iint_2d_para f e)) e (pdm (calc_powder_iint_2d_para f e)).
Proof. destruct f as [a b c d k l]. split; apply right_none; opent; cbn [pf_fn pf_sg pf_pol pf_flip]; destruct a, d; try destruct k; cases; der. Qed.
Lemma d_2d_ord f : right_but (fun v => match v with Fn _ => true | _ => false end) (fun e => pip (calc_powder_iint_2d_ordered f e)) e (pdp (calc_powder_iint_2d_ordered f e)) /\
  right_but (fun v => match v with Fn _ | Flip => true | _ => false end) (fun e => pim (calc_powder_iint_2d_ordered f e)) e (pdm (calc_powder_iint_2d_ordered f e)).
Proof. destruct f as [a b c d k l]. split; opent; cbn [pf_fn pf_sg pf_pol pf_flip]; destruct a, d; try destruct k; cases; der. Qed.
Lemma mix_1d_none f : pf_flip f = true \/ pf_field f = true -> calc_powder_iint_1d_mix f e = None.
Proof.
  intros H. unfold calc_powder_iint_1d_mix. assert (E : pf_flip f || pf_field f = true) by (destruct H as [-> | ->]; [reflexivity|apply orb_true_r]).
  destruct (calc_powder_iint_1d_para f e) as [[[? ?] ?] ?], (calc_chiral_term_sin_sq_mix (pf_sg f) (pf_fm f) e). rewrite E. reflexivity.
Qed.
Lemma d_1d_mix f : pf_flip f = false -> pf_field f = false ->
  exists d d', (forall e', mix1 f e' <> None) /\ calc_powder_iint_1d_mix f e = Some (mixp f e, mixm f e, d, d') /\
    right_but (same (Fm X3 Im)) (mixp f) e d /\ right_but (same (Fm X3 Im)) (mixm f) e d'.
Proof.
  destruct f as [a b c d k l]. cbn. intros -> ->.
  eexists _, _. split; [intros e'; discriminate|]. split; [reflexivity|].
  unfold mixp, mixm, mix1, calc_powder_iint_1d_mix. 
  split; opent; cbn [pf_fn pf_sg pf_pol pf_flip pf_fm pf_field orb]; destruct a, b, c, d; cases; der.
Qed.
End I.
(** wrong entries *)
Lemma der_ne (q : R -> R) (x d1 d2 : R) : is_derive q x d1 -> d1 <> d2 -> ~ is_derive q x d2.
Proof. intros A N B. apply N. rewrite <- (is_derive_unique _ _ _ A), <- (is_derive_unique _ _ _ B). reflexivity. Qed.
Ltac wrong v := let H := fresh in intros H; specialize (H v _ eq_refl); revert H; opent; unfold with_; cbn [same andb fst snd];
  eapply der_ne; [auto_derive; [exact I|reflexivity]|unfold Rsqr, at_; cbn].
Lemma w_m1 g e : e (Sg X1 X3 Im) <> e (Sg X2 X3 Im) -> ~ right (fun e => fst (calc_m_sq_mix g true e)) e (snd (calc_m_sq_mix g true e)).
Proof. intros N. destruct g; wrong (Fm X2 Im); lra. Qed.
Lemma w_m2 g e : e (Sg X2 X1 Re) <> 0 -> ~ right (fun e => fst (calc_chiral_term_sin_sq_mix g true e)) e (snd (calc_chiral_term_sin_sq_mix g true e)).
Proof. intros N. destruct g; wrong (Fm X3 Im); lra. Qed.
Lemma w_m3 h e i p : i <> X3 -> e (Fm i p) <> 0 -> ~ right (fun e => fst (calc_chiral_term_cos_sq_mix true h e)) e (snd (calc_chiral_term_cos_sq_mix true h e)).
Proof.
  intros I N. destruct i; [| |congruence]; destruct p, h.
  1,2: wrong (Sg X2 X3 Im); lra. 1,2: wrong (Sg X2 X3 Re); lra. 1,2: wrong (Sg X1 X3 Im); lra. 1,2: wrong (Sg X1 X3 Re); lra.
Qed.
Lemma w_2d_ord_fn f e p : pf_fn f = true -> e (Fm X3 p) <> 0 -> e Pol <> 0 -> cos (e Alpha) <> 0 ->
  ~ right (fun e => pip (calc_powder_iint_2d_ordered f e)) e (pdp (calc_powder_iint_2d_ordered f e)).
Proof.
  destruct f as [a b c d k l]. cbn. intros -> N1 N2 N3 H.
  assert (N : e Pol * (2 * e (Fm X3 p)) * cos (e Alpha) <> 0) by (repeat apply Rmult_integral_contrapositive_currified; assumption || lra).
  revert H. destruct d, p.
  1,3: wrong (Fn Re); intros E; apply N; cbn in E; lra. all: wrong (Fn Im); intros E; apply N; cbn in E; lra.
Qed.
Lemma w_2d_ord_flip f e : pf_flip f = true -> e Pol <> 0 -> cos (e Alpha) <> 0 ->
  fst (calc_cross_term_ordered false false e) + fst (calc_chiral_term_ordered false e) <> 0 ->
  ~ right (fun e => pim (calc_powder_iint_2d_ordered f e)) e (pdm (calc_powder_iint_2d_ordered f e)).
Proof.
  destruct f as [a b c d k l]. cbn [pf_flip]. intros -> N1 N2 N3 H.
  assert (N := Rmult_integral_contrapositive_currified _ _ (Rmult_integral_contrapositive_currified _ _ N1 N3) N2).
  revert H N. destruct d; intros H N; revert H; wrong Flip; intros E; apply N; revert E; opent; cbn [fst snd]; lra.
Qed.
(** requested entries are present *)
Lemma present_para g h e i j p :
  snd (calc_m_sq_sin_sq_para true e) (Sg i j p) <> None /\ snd (calc_m_sq_cos_sq_para true e) (Sg i j p) <> None /\
  snd (calc_cross_term_para g true e) (Sg i j p) <> None /\ snd (calc_cross_term_para true h e) (Fn p) <> None /\
  snd (calc_chiral_term_cos_sin_sq_para true e) (Sg i j p) <> None /\ snd (calc_chiral_term_cos_cube_para true e) (Sg i j p) <> None.
Proof. repeat split; destruct p; try destruct g; try destruct h; discriminate. Qed.
Lemma present_mix g h e i j p :
  snd (calc_cross_term_ordered g true e) (Fm i p) <> None /\ snd (calc_cross_term_ordered true h e) (Fn p) <> None /\
  snd (calc_chiral_term_ordered true e) (Fm i p) <> None /\
  snd (calc_m_sq_mix true h e) (Sg i j p) <> None /\ snd (calc_m_sq_mix g true e) (Fm i p) <> None /\
  snd (calc_chiral_term_sin_sq_mix true h e) (Sg i j p) <> None /\ snd (calc_chiral_term_sin_sq_mix g true e) (Fm i p) <> None /\
  snd (calc_chiral_term_cos_sq_mix true h e) (Sg i j p) <> None /\ snd (calc_chiral_term_cos_sq_mix g true e) (Fm i p) <> None.
Proof. repeat split; destruct p; try destruct g; try destruct h; discriminate. Qed.
Lemma present_iint f e i j p (d : pdict) :
  In d (pdp (calc_powder_iint_1d_para f e) :: pdm (calc_powder_iint_1d_para f e) :: nil) ->
  (pf_fn f = true -> d (Fn p) <> None) /\ (pf_sg f = true -> d (Sg i j p) <> None) /\ (pf_pol f = true -> d Pol <> None) /\
  (pf_flip f = true -> pdm (calc_powder_iint_1d_para f e) Flip <> None).
Proof. destruct f as [[] b [] [] [] l]; intros [<-|[<-|[]]]; repeat split; cbn; intros; destruct p; discriminate. Qed.
Lemma mix_no_imag f e p m d d' : calc_powder_iint_1d_mix f e = Some (p, m, d, d') -> d (Fn Im) = None /\ d' (Fn Im) = None.
Proof.
  destruct f as [a b c g k l]. unfold calc_powder_iint_1d_mix. cbn. destruct (k || l); [discriminate|]. intros H.
  match type of H with Some (_, _, ?x, ?y) = _ => assert (d = x) by congruence; assert (d' = y) by congruence end.
  subst. split; destruct a, b, c, g; reflexivity.
Qed.
