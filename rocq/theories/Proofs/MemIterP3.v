(** The iteration of the density reconstruction (C105). *)
From Coq Require Import Reals Lra Lia String Bool List ZArith.
From Verif Require Import Spec.Lin3 Spec.Density Model.Mem Model.FlipRatio Model.MemFourier Model.MemIter Spec.Intens Spec.MemSpec Proofs.MemP.
Import ListNotations.
Open Scope list_scope.
Open Scope R_scope.

Lemma accept_cases : forall cur prev lam, 
  (mem_accept cur prev lam = (cur, 103 / 100 * lam) /\ (forall b, prev = Some b -> ev_c cur <= ev_c b)) \/
  (exists b, prev = Some b /\ ev_c b < ev_c cur /\ mem_accept cur prev lam = (b, 5 / 10 * lam)).
Proof.
  intros cur [b|] lam; unfold mem_accept.
  - destruct (Rlt_dec (ev_c b) (ev_c cur)) as [L|L]; [right; exists b; repeat split; exact L|left; split; [reflexivity|intros b' E; injection E as <-; lra]].
  - left. split; [reflexivity|discriminate].
Qed.
Lemma loop_facts : forall p fuel d prev lam b tried, mem_loop p fuel d prev lam = Some (b, tried) ->
  (prev = Some b \/ exists d0, In d0 tried /\ b = evaluate p d0) /\
  (forall e, prev = Some e -> ev_c b <= ev_c e) /\ (forall d0, In d0 tried -> ev_c b <= ev_c (evaluate p d0)) /\
  (exists rest, tried = d :: rest) /\ (length tried <= S fuel)%nat /\
  ((length tried < S fuel)%nat -> ev_c b <= pa_desired p \/ exists a r, (a + r)%nat = length tried /\ lam * (103 / 100) ^ a * (5 / 10) ^ r < pa_lambda_min p).
Proof.
  intros p. induction fuel as [|fuel IH]; intros d prev lam b tried H; cbn [mem_loop] in H;
  destruct (accept_cases (evaluate p d) prev lam) as [[EA HA]|(b0 & EP & HL & EA)]; rewrite EA in H.
  - injection H as <- <-. repeat split; [right; exists d; split; [left|]; reflexivity|exact HA|intros d0 [<-|[]]; lra|exists []; reflexivity|cbn; lia|cbn; lia].
  - injection H as <- <-. repeat split; [left; exact EP|intros e E; rewrite EP in E; injection E as <-; lra|intros d0 [<-|[]]; lra|exists []; reflexivity|cbn; lia|cbn; lia].
  - destruct (Rlt_dec (103 / 100 * lam) (pa_lambda_min p)) as [L|L]; [|destruct (Rle_dec (ev_c (evaluate p d)) (pa_desired p)) as [D|D]]; cbn [orb] in H.
    + injection H as <- <-. repeat split; [right; exists d; split; [left|]; reflexivity|exact HA|intros d0 [<-|[]]; lra|exists []; reflexivity|cbn; lia|].
      intros _. right. exists 1%nat, 0%nat. split; [reflexivity|]. cbn. lra.
    + injection H as <- <-. repeat split; [right; exists d; split; [left|]; reflexivity|exact HA|intros d0 [<-|[]]; lra|exists []; reflexivity|cbn; lia|].
      intros _. left. exact D.
    + destruct (mem_next p _ _) as [d'|]; [|discriminate H]. destruct (mem_loop p fuel d' _ _) as [[b1 t1]|] eqn:EL; [|discriminate H]. injection H as <- <-.
      destruct (IH _ _ _ _ _ EL) as (I1 & I2 & I3 & (rest & I4) & I5 & I6).
      repeat split.
      * right. destruct I1 as [I1|(d0 & I & E)]; [injection I1 as <-; exists d; split; [left; reflexivity|reflexivity]|exists d0; split; [right; exact I|exact E]].
      * intros e E. pose proof (HA e E). pose proof (I2 _ eq_refl). lra.
      * intros d0 [<-|I]; [exact (I2 _ eq_refl)|exact (I3 d0 I)].
      * exists t1. reflexivity.
      * cbn [length]. lia.
      * intros Q. cbn [length] in Q. destruct I6 as [I6|(a & r & E & I6)]; [lia|left; exact I6|]. right. exists (S a), r. split; [cbn [length plus]; rewrite E; reflexivity|].
        rewrite <- tech_pow_Rmult. lra.
  - destruct (Rlt_dec (5 / 10 * lam) (pa_lambda_min p)) as [L|L]; [|destruct (Rle_dec (ev_c b0) (pa_desired p)) as [D|D]]; cbn [orb] in H.
    + injection H as <- <-. repeat split; [left; exact EP|intros e E; rewrite EP in E; injection E as <-; lra|intros d0 [<-|[]]; lra|exists []; reflexivity|cbn; lia|].
      intros _. right. exists 0%nat, 1%nat. split; [reflexivity|]. cbn. lra.
    + injection H as <- <-. repeat split; [left; exact EP|intros e E; rewrite EP in E; injection E as <-; lra|intros d0 [<-|[]]; lra|exists []; reflexivity|cbn; lia|].
      intros _. left. exact D.
    + destruct (mem_next p _ _) as [d'|]; [|discriminate H]. destruct (mem_loop p fuel d' _ _) as [[b1 t1]|] eqn:EL; [|discriminate H]. injection H as <- <-.
      destruct (IH _ _ _ _ _ EL) as (I1 & I2 & I3 & (rest & I4) & I5 & I6).
      repeat split.
      * destruct I1 as [I1|(d0 & I & E)]; [left; rewrite EP; exact I1|right; exists d0; split; [right; exact I|exact E]].
      * intros e E. rewrite EP in E. injection E as <-. exact (I2 _ eq_refl).
      * intros d0 [<-|I]; [pose proof (I2 _ eq_refl); lra|exact (I3 d0 I)].
      * exists t1. reflexivity.
      * cbn [length]. lia.
      * intros Q. cbn [length] in Q. destruct I6 as [I6|(a & r & E & I6)]; [lia|left; exact I6|]. right. exists a, (S r). split; [cbn [length plus]; rewrite <- E; lia|].
        rewrite <- (tech_pow_Rmult (5 / 10) r). lra.
Qed.
Lemma best_of_tried : forall p iteration_max prior lambda b tried, mem_run p iteration_max prior lambda = Some (b, tried) ->
  (exists rest, tried = prior :: rest) /\ (exists d, In d tried /\ b = evaluate p d) /\ (forall d, In d tried -> ev_c b <= ev_c (evaluate p d)).
Proof.
  intros p n prior lam b tried H. destruct (loop_facts _ _ _ _ _ _ _ H) as (I1 & I2 & I3 & I4 & I5 & I6). split; [exact I4|]. split; [|exact I3].
  destruct I1 as [I1|I1]; [discriminate I1|exact I1].
Qed.
Lemma stops : forall p iteration_max prior lambda b tried, mem_run p iteration_max prior lambda = Some (b, tried) ->
  (length tried <= Nat.max 1 iteration_max)%nat /\
  ((length tried < iteration_max)%nat -> ev_c b <= pa_desired p \/
     exists better worse, (better + worse)%nat = length tried /\ lambda * (103 / 100) ^ better * (5 / 10) ^ worse < pa_lambda_min p).
Proof.
  intros p n prior lam b tried H. destruct (loop_facts _ _ _ _ _ _ _ H) as (I1 & I2 & I3 & I4 & I5 & I6). split; [lia|]. intros L. apply I6. lia.
Qed.

(** ** the densities stay normalised *)
Lemma clip_nonneg : forall x, 0 <= clip x.
Proof. intros x. unfold clip. destruct (Rlt_dec 0 x); lra. Qed.
Lemma row_proper : forall p lam row der out, sensible p -> length row = length (pa_mult p) -> length der = length (pa_mult p) -> next_col p lam row der = Some out -> proper_row p out.
Proof.
  intros p lam row der out (V & N & M & _) L1 L2 H. unfold next_col in H. set (hh := moved_col p lam row der) in *.
  assert (LH : length hh = length (pa_mult p)) by (unfold hh, moved_col; rewrite map_length, !combine_length; lia).
  assert (PH : forall x, In x hh -> 0 <= x) by (intros x Hx; unfold hh, moved_col in Hx; apply in_map_iff in Hx as (y & <- & _); apply clip_nonneg).
  destruct (Req_EM_T (col_sum p hh) 0) as [E|E]; [discriminate H|]. injection H as <-.
  assert (NZ : integral (pa_volume p) (pa_number p) hh (pa_mult p) <> 0).
  { rewrite integral_eq. unfold col_sum in E. apply Rmult_integral_contrapositive. split; [exact E|]. apply Rgt_not_eq, Rdiv_lt_0_compat; assumption. }
  split; [|split].
  - unfold renorm_col_row. rewrite map_length. exact LH.
  - intros x Hx. apply (col_nonneg [hh] (pa_mult p) (pa_volume p) (pa_number p) N V) with (row := renorm_col_row hh (pa_mult p) (pa_volume p) (pa_number p)).
    + apply List.Forall_forall. intros m Hm. left. exact (M m Hm).
    + intros row0 y [<-|[]] Hy. exact (PH y Hy).
    + left. reflexivity.
    + exact Hx.
  - apply renorm_col_integral; [lra|lra|exact NZ].
Qed.
Lemma set_set : forall r (l : list R) pts, length l = length pts -> set_density r (set_density l pts) = set_density r pts.
Proof.
  unfold set_density. intros r l pts. revert r l. induction pts as [|q pts IH]; intros [|x r] [|y l] E; try discriminate E; try reflexivity. cbn. f_equal. apply IH. injection E as E. exact E.
Qed.
Lemma set_in : forall (l : list R) pts q, length l = length pts -> In q pts -> exists x, In x (set_density l pts) /\ mp_label x = mp_label q.
Proof.
  unfold set_density. intros l pts. revert l. induction pts as [|p pts IH]; intros [|y l] q E H; try discriminate E; [destruct H|]. destruct H as [<-|H].
  - eexists. split; [left; reflexivity|reflexivity].
  - injection E as E. destruct (IH l q E H) as (x & Hx & Ex). exists x. split; [right; exact Hx|exact Ex].
Qed.
Lemma chi_proper : forall p lam row der out, sensible p -> length row = length (pa_points p) -> length der = length (pa_points p) -> next_chi p lam row der = Some out ->
  length out = length (pa_points p) /\ (forall x, In x out -> 0 <= x) /\
  forall q, In q (pa_points p) -> atom_integral (pa_volume p) (pa_number p) (mp_label q) (set_density out (pa_points p)) = 1.
Proof.
  intros p lam row der out (V & N & _ & M) L1 L2 H. unfold next_chi in H. cbv zeta in H. set (hh := moved_chi p lam row der) in *.
  assert (LH : length hh = length (pa_points p)) by (unfold hh, moved_chi; rewrite map_length, !combine_length; lia).
  assert (PH : forall x, In x hh -> 0 <= x) by (intros x Hx; unfold hh, moved_chi in Hx; apply in_map_iff in Hx as (y & <- & _); apply clip_nonneg).
  clearbody hh. set (l := set_density hh (pa_points p)) in *.
  assert (LL : length l = length (pa_points p)) by (unfold l, set_density; rewrite map_length, combine_length; lia).
  destruct (existsb _ l) eqn:E; [discriminate H|]. injection H as <-.
  assert (NZ : forall x, In x l -> chi_sum l (mp_label x) <> 0).
  { intros x Hx Z. apply Bool.not_true_iff_false in E. apply E. apply existsb_exists. exists x. split; [exact Hx|]. destruct (Req_EM_T _ 0); [reflexivity|contradiction]. }
  assert (P : forall x, In x l -> 0 <= mp_density x /\ 0 <= mp_mult x /\ 0 < mp_amult x).
  { intros x Hx. unfold l, set_density in Hx. apply in_map_iff in Hx as ([y q] & <- & Hy). cbn. destruct (M q (in_combine_r _ _ _ _ Hy)). split; [exact (PH y (in_combine_l _ _ _ _ Hy))|]. lra. }
  repeat split.
  - rewrite chi_eq, map_length. exact LL.
  - apply chi_nonneg; assumption.
  - intros q Hq. rewrite <- (set_set _ hh (pa_points p) LH). fold l. apply chi_out_integral; [lra|lra|]. rewrite atom_integral_m_at.
    destruct (set_in hh (pa_points p) q LH Hq) as (x & Hx & Ex). rewrite <- Ex. apply Rmult_integral_contrapositive. split; [exact (NZ x Hx)|]. apply Rgt_not_eq, Rdiv_lt_0_compat; assumption.
Qed.
Lemma next_proper : forall p lam d d', sensible p -> proper p d -> mem_next p lam (evaluate p d) = Some d' -> proper p d'.
Proof.
  intros p lam [[a b] c] d' S [PC PX] H. unfold mem_next in H. cbn [evaluate ev_d ev_dcol ev_dchi fst snd] in H. cbn [fst snd] in *.
  destruct (pa_on_col p) eqn:OC.
  - destruct (PC eq_refl) as [[La Pa] [Lb Pb]].
    destruct (next_col p lam a _) as [a'|] eqn:Ea; [|discriminate H]. destruct (next_col p lam b _) as [b'|] eqn:Eb; [|discriminate H].
    apply row_proper in Ea; [|exact S|exact La|rewrite !map_length, seq_length; exact La]. apply row_proper in Eb; [|exact S|exact Lb|rewrite !map_length, seq_length; exact La].
    destruct (pa_on_chi p) eqn:OX.
    + destruct (PX eq_refl) as [Lc Pc]. destruct (next_chi p lam c _) as [c'|] eqn:Ec; [|discriminate H]. injection H as <-.
      apply chi_proper in Ec; [|exact S|exact Lc|rewrite map_length, seq_length; exact Lc]. split; intros _; cbn [fst snd]; [split; assumption|exact Ec].
    + injection H as <-. split; [intros _; cbn [fst snd]; split; assumption|rewrite OX; discriminate].
  - destruct (pa_on_chi p) eqn:OX.
    + destruct (PX eq_refl) as [Lc Pc]. destruct (next_chi p lam c _) as [c'|] eqn:Ec; [|discriminate H]. injection H as <-.
      apply chi_proper in Ec; [|exact S|exact Lc|rewrite map_length, seq_length; exact Lc]. split; [rewrite OC; discriminate|intros _; exact Ec].
    + injection H as <-. split; [rewrite OC; discriminate|rewrite OX; discriminate].
Qed.
Lemma loop_proper : forall p, sensible p -> forall fuel d prev lam b tried, proper p d -> (forall e, prev = Some e -> exists d0, proper p d0 /\ e = evaluate p d0) ->
  mem_loop p fuel d prev lam = Some (b, tried) -> (forall d0, In d0 tried -> proper p d0) /\ proper p (ev_d b).
Proof.
  intros p S. induction fuel as [|fuel IH]; intros d prev lam b tried PD PP H; cbn [mem_loop] in H.
  - destruct (accept_cases (evaluate p d) prev lam) as [[EA HA]|(b0 & EP & HL & EA)]; rewrite EA in H; injection H as <- <-.
    + split; [intros d0 [<-|[]]; exact PD|exact PD].
    + split; [intros d0 [<-|[]]; exact PD|]. destruct (PP b0 EP) as (d0 & P0 & ->). exact P0.
  - destruct (mem_accept (evaluate p d) prev lam) as [best lam'] eqn:EA.
    assert (PB : exists d0, proper p d0 /\ best = evaluate p d0).
    { destruct (accept_cases (evaluate p d) prev lam) as [[EA' HA]|(b0 & EP & HL & EA')]; rewrite EA' in EA; injection EA as <- _; [exists d; split; [exact PD|reflexivity]|exact (PP b0 EP)]. }
    destruct (_ || _) in H.
    + injection H as <- <-. split; [intros d0 [<-|[]]; exact PD|]. destruct PB as (d0 & P0 & ->). exact P0.
    + destruct (mem_next p lam' best) as [d'|] eqn:EN; [|discriminate H]. destruct (mem_loop p fuel d' (Some best) lam') as [[b1 t1]|] eqn:EL; [|discriminate H]. injection H as <- <-.
      assert (PD' : proper p d') by (destruct PB as (d0 & P0 & ->); exact (next_proper p lam' d0 d' S P0 EN)).
      assert (PB' : forall e, Some best = Some e -> exists d0, proper p d0 /\ e = evaluate p d0) by (intros e E; injection E as <-; exact PB).
      destruct (IH d' (Some best) lam' b1 t1 PD' PB' EL) as [I1 I2].
      split; [intros d0 [<-|I]; [exact PD|exact (I1 d0 I)]|exact I2].
Qed.
Lemma stays_proper : forall p iteration_max prior lambda b tried, sensible p -> proper p prior -> mem_run p iteration_max prior lambda = Some (b, tried) ->
  (forall d, In d tried -> proper p d) /\ proper p (ev_d b).
Proof. intros p n prior lam b tried S P H. apply (loop_proper p S (Nat.pred n) prior None lam b tried P); [discriminate|exact H]. Qed.

(** ** sigma of the asymmetry *)
Lemma asymmetry_sigma : forall r s, 0 <= r -> 0 < s ->
  fst (exp_value_sigma true r s) = (r - 1) / (r + 1) /\
  (snd (exp_value_sigma true r s) = 2 * s / Rsqr (r + 1) <-> r = 1) /\
  (r < 1 -> snd (exp_value_sigma true r s) < 2 * s / Rsqr (r + 1)) /\ (1 < r -> 2 * s / Rsqr (r + 1) < snd (exp_value_sigma true r s)).
Proof.
  intros r s Hr Hs. unfold exp_value_sigma. cbn [fst snd].
  assert (Q : sqrt 2 * s * sqrt (Rsqr r + 1) / Rsqr (r + 1) = s / Rsqr (r + 1) * sqrt (2 * (Rsqr r + 1))).
  { rewrite sqrt_mult; [unfold Rdiv; ring|lra|pose proof (Rle_0_sqr r); lra]. }
  rewrite Q. assert (K : 0 < s / Rsqr (r + 1)) by (apply Rdiv_lt_0_compat; [exact Hs|apply Rlt_0_sqr; lra]).
  replace (2 * s / Rsqr (r + 1)) with (s / Rsqr (r + 1) * 2) by (unfold Rdiv; ring). set (k := s / Rsqr (r + 1)) in *. clearbody k.
  assert (T : sqrt 4 = 2) by (replace 4 with (2 * 2) by ring; apply sqrt_square; lra).
  split; [reflexivity|]. split; [split|split].
  - intros E. apply (Rmult_eq_reg_l k) in E; [|lra]. assert (E' : sqrt (2 * (Rsqr r + 1)) = sqrt 4) by (rewrite T; exact E). clear E. rename E' into E. apply sqrt_inj in E; [|pose proof (Rle_0_sqr r); lra|lra]. unfold Rsqr in E. assert ((r - 1) * (r + 1) = 0) by lra. apply Rmult_integral in H as [H|H]; lra.
  - intros ->. f_equal. transitivity (sqrt 4); [|exact T]. f_equal. unfold Rsqr. ring.
  - intros L. apply Rmult_lt_compat_l; [exact K|]. apply Rlt_le_trans with (sqrt 4); [|rewrite T; apply Rle_refl]. pose proof (Rle_0_sqr r). assert (r * r < 1) by nra. apply sqrt_lt_1; unfold Rsqr in *; lra.
  - intros L. apply Rmult_lt_compat_l; [exact K|]. apply Rle_lt_trans with (sqrt 4); [rewrite T; apply Rle_refl|]. pose proof (Rle_0_sqr r). assert (1 < r * r) by nra. apply sqrt_lt_1; unfold Rsqr in *; lra.
Qed.
