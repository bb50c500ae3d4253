(** Proofs about Slater orbitals: the integrals of r^k exp(-z r) sin(Q r) / Q. *)
From Coq Require Import Reals List Arith Lia Lra.
From Coquelicot Require Import Coquelicot.
From Verif Require Import Spec.SlaterSpec Model.Slater.
Import ListNotations.
Open Scope R_scope.

Section kernel.
Context (z Q : R) (Hz : 0 < z).
Definition dd := Q ^ 2 + z ^ 2.
Lemma dd_pos : 0 < dd.
Proof. unfold dd. pose proof (pow2_ge_0 Q). assert (0 < z ^ 2) by (apply pow_lt; exact Hz). lra. Qed.
Definition sq (r : R) : R := if Req_EM_T Q 0 then r else sin (Q * r) / Q.
Definition cq (r : R) : R := cos (Q * r).
Lemma sq_derive : forall r : R, is_derive sq r (cq r).
Proof.
  intros r. unfold sq, cq. destruct (Req_EM_T Q 0) as [E|E].
  - rewrite E, Rmult_0_l, cos_0. apply (@is_derive_id R_AbsRing).
  - auto_derive; [exact Logic.I|]. field. exact E.
Qed.
Lemma cq_derive : forall r : R, is_derive cq r (- Q ^ 2 * sq r).
Proof.
  intros r. unfold sq, cq. destruct (Req_EM_T Q 0) as [E|E].
  - rewrite E. apply (is_derive_ext (fun _ => 1)); [intros t; rewrite Rmult_0_l, cos_0; reflexivity|].
    replace (- 0 ^ 2 * r) with 0 by ring. apply (@is_derive_const R_AbsRing R_NormedModule 1 r).
  - auto_derive; [exact Logic.I|]. field. exact E.
Qed.
Lemma ex_s : forall r, ex_derive sq r. Proof. intros r. exists (cq r). apply sq_derive. Qed.
Lemma ex_c : forall r, ex_derive cq r. Proof. intros r. exists (- Q ^ 2 * sq r). apply cq_derive. Qed.
Lemma D_s : forall r, Derive sq r = cq r. Proof. intros r. apply is_derive_unique, sq_derive. Qed.
Lemma D_c : forall r, Derive cq r = - Q ^ 2 * sq r. Proof. intros r. apply is_derive_unique, cq_derive. Qed.
Lemma sq_0 : sq 0 = 0.
Proof. unfold sq. destruct (Req_EM_T Q 0); [reflexivity|]. rewrite Rmult_0_r, sin_0. field. assumption. Qed.
Lemma cq_0 : cq 0 = 1.
Proof. unfold cq. rewrite Rmult_0_r, cos_0. reflexivity. Qed.

(** antiderivatives *)
Fixpoint FK (k : nat) (r : R) : R * R :=
  match k with
  | O => (exp (- z * r) * (- z * sq r - cq r) / dd, exp (- z * r) * (Q ^ 2 * sq r - z * cq r) / dd)
  | S j => (r ^ S j * exp (- z * r) * (- z * sq r - cq r) / dd + INR (S j) * (z * fst (FK j r) + snd (FK j r)) / dd,
            r ^ S j * exp (- z * r) * (Q ^ 2 * sq r - z * cq r) / dd + INR (S j) * (z * snd (FK j r) - Q ^ 2 * fst (FK j r)) / dd)
  end.
Lemma base_derive : forall (k : nat) (r : R),
  is_derive (fun t : R => t ^ S k * exp (- z * t) * (- z * sq t - cq t) / dd) r (r ^ S k * exp (- z * r) * sq r - INR (S k) * (z * (r ^ k * exp (- z * r) * sq r) + r ^ k * exp (- z * r) * cq r) / dd) /\
  is_derive (fun t : R => t ^ S k * exp (- z * t) * (Q ^ 2 * sq t - z * cq t) / dd) r (r ^ S k * exp (- z * r) * cq r - INR (S k) * (z * (r ^ k * exp (- z * r) * cq r) - Q ^ 2 * (r ^ k * exp (- z * r) * sq r)) / dd).
Proof.
  intros k r. pose proof dd_pos as D. split; auto_derive; try (repeat split; try apply ex_s; try apply ex_c; fail).
  - rewrite (Derive_ext (fun x => sq x) sq), (Derive_ext (fun x => cq x) cq), D_s, D_c by reflexivity. replace (Q ^ 2) with (dd - z ^ 2) by (unfold dd; ring). try (replace (Q * (Q * 1)) with (dd - z ^ 2) by (unfold dd; ring)).
    rewrite <- !tech_pow_Rmult. change (Init.Nat.pred (S k)) with k. change (match k with 0%nat => 1 | S _ => INR k + 1 end) with (INR (S k)). generalize (INR (S k)) (r ^ k) (sq r) (cq r). intros. field. lra.
  - rewrite (Derive_ext (fun x => sq x) sq), (Derive_ext (fun x => cq x) cq), D_s, D_c by reflexivity. replace (Q ^ 2) with (dd - z ^ 2) by (unfold dd; ring). try (replace (Q * (Q * 1)) with (dd - z ^ 2) by (unfold dd; ring)).
    rewrite <- !tech_pow_Rmult. change (Init.Nat.pred (S k)) with k. change (match k with 0%nat => 1 | S _ => INR k + 1 end) with (INR (S k)). generalize (INR (S k)) (r ^ k) (sq r) (cq r). intros. field. lra.
Qed.
Lemma zero_derive : forall r : R,
  is_derive (fun t : R => exp (- z * t) * (- z * sq t - cq t) / dd) r (exp (- z * r) * sq r) /\
  is_derive (fun t : R => exp (- z * t) * (Q ^ 2 * sq t - z * cq t) / dd) r (exp (- z * r) * cq r).
Proof.
  intros r. pose proof dd_pos as D. split; auto_derive; try (repeat split; try apply ex_s; try apply ex_c; fail).
  - rewrite (Derive_ext (fun x => sq x) sq), (Derive_ext (fun x => cq x) cq), D_s, D_c by reflexivity. replace (Q ^ 2) with (dd - z ^ 2) by (unfold dd; ring). try (replace (Q * (Q * 1)) with (dd - z ^ 2) by (unfold dd; ring)). field. lra.
  - rewrite (Derive_ext (fun x => sq x) sq), (Derive_ext (fun x => cq x) cq), D_s, D_c by reflexivity. replace (Q ^ 2) with (dd - z ^ 2) by (unfold dd; ring). try (replace (Q * (Q * 1)) with (dd - z ^ 2) by (unfold dd; ring)). field. lra.
Qed.
Lemma FK_derive : forall (k : nat) (r : R),
  is_derive (fun t : R => fst (FK k t)) r (r ^ k * exp (- z * r) * sq r) /\ is_derive (fun t : R => snd (FK k t)) r (r ^ k * exp (- z * r) * cq r).
Proof.
  pose proof dd_pos as D. induction k as [|k IH]; intros r.
  - cbn [FK fst snd pow]. rewrite !Rmult_1_l. apply zero_derive.
  - destruct (IH r) as [A B]. destruct (base_derive k r) as [A' B']. cbn [FK fst snd]. split.
    + replace (r ^ S k * exp (- z * r) * sq r) with
        ((r ^ S k * exp (- z * r) * sq r - INR (S k) * (z * (r ^ k * exp (- z * r) * sq r) + r ^ k * exp (- z * r) * cq r) / dd) + INR (S k) / dd * (z * (r ^ k * exp (- z * r) * sq r) + r ^ k * exp (- z * r) * cq r)) by (field; lra).
      apply (is_derive_ext (fun t : R => t ^ S k * exp (- z * t) * (- z * sq t - cq t) / dd + INR (S k) / dd * (z * fst (FK k t) + snd (FK k t)))); [intros t; match goal with |- @eq _ ?a ?b => change (@eq R a b) end; unfold Rdiv; ring|].
      apply @is_derive_plus; [exact A'|]. apply (is_derive_scal (fun t : R => z * fst (FK k t) + snd (FK k t))). apply @is_derive_plus; [apply (is_derive_scal (fun t : R => fst (FK k t))); exact A|exact B].
    + replace (r ^ S k * exp (- z * r) * cq r) with
        ((r ^ S k * exp (- z * r) * cq r - INR (S k) * (z * (r ^ k * exp (- z * r) * cq r) - Q ^ 2 * (r ^ k * exp (- z * r) * sq r)) / dd) + INR (S k) / dd * (z * (r ^ k * exp (- z * r) * cq r) + - Q ^ 2 * (r ^ k * exp (- z * r) * sq r))) by (field; lra).
      apply (is_derive_ext (fun t : R => t ^ S k * exp (- z * t) * (Q ^ 2 * sq t - z * cq t) / dd + INR (S k) / dd * (z * snd (FK k t) + - Q ^ 2 * fst (FK k t)))); [intros t; match goal with |- @eq _ ?a ?b => change (@eq R a b) end; unfold Rdiv; ring|].
      apply @is_derive_plus; [exact B'|]. apply (is_derive_scal (fun t : R => z * snd (FK k t) + - Q ^ 2 * fst (FK k t))). apply @is_derive_plus; [apply (is_derive_scal (fun t : R => snd (FK k t))); exact B|apply (is_derive_scal (fun t : R => fst (FK k t))); exact A].
Qed.
End kernel.

(** r^k exp(-z r) tends to 0 *)
Lemma lim_1 : forall z, 0 < z -> is_lim (fun r => r * exp (- z * r)) p_infty 0.
Proof.
  intros z Hz. apply (is_lim_ext (fun r => (- / z) * ((- z * r) * exp (- z * r)))); [intros r; field; lra|].
  replace (Finite 0) with (Rbar_mult (- / z) 0) by (cbn; f_equal; ring). apply is_lim_scal_l.
  apply (is_lim_comp (fun y => y * exp y) (fun r => - z * r) p_infty 0 m_infty); [apply is_lim_mul_exp_m| |exists 0; intros; discriminate].
  replace m_infty with (Rbar_mult (- z) p_infty). { apply is_lim_scal_l. apply is_lim_id. }
  cbn. destruct (Rle_dec 0 (- z)); [exfalso; lra|reflexivity].
Qed.
Lemma lim_0 : forall z, 0 < z -> is_lim (fun r => exp (- z * r)) p_infty 0.
Proof.
  intros z Hz. apply (is_lim_comp exp (fun r => - z * r) p_infty 0 m_infty); [apply is_lim_exp_m| |exists 0; intros; discriminate].
  replace m_infty with (Rbar_mult (- z) p_infty). { apply is_lim_scal_l. apply is_lim_id. }
  cbn. destruct (Rle_dec 0 (- z)); [exfalso; lra|reflexivity].
Qed.
Lemma lim_k : forall k z, 0 < z -> is_lim (fun r => r ^ k * exp (- z * r)) p_infty 0.
Proof.
  induction k as [|k IH]; intros z Hz.
  - apply (is_lim_ext (fun r => exp (- z * r))); [intros r; cbn; ring|]. apply lim_0, Hz.
  - apply (is_lim_ext (fun r => (r * exp (- (z / 2) * r)) * (r ^ k * exp (- (z / 2) * r)))).
    + intros r. replace (- z * r) with (- (z / 2) * r + - (z / 2) * r) by field. rewrite exp_plus. cbn [pow]. ring.
    + replace (Finite 0) with (Rbar_mult 0 0) by (cbn; f_equal; ring). apply is_lim_mult; [apply lim_1; lra|apply IH; lra|exact Logic.I].
Qed.
Lemma lim_bound : forall (f g : R -> R), (forall r, 0 <= r -> Rabs (f r) <= g r) -> is_lim g p_infty 0 -> is_lim f p_infty 0.
Proof.
  intros f g H G. apply (is_lim_le_le_loc (fun r => - g r) g); [|replace (Finite 0) with (Rbar_opp 0) by (cbn; f_equal; ring); apply is_lim_opp; exact G|exact G].
  exists 0. intros r Hr. specialize (H r (Rlt_le _ _ Hr)). apply Rabs_le_between in H. exact H.
Qed.
Lemma sq_bound : forall Q r, 0 <= r -> Rabs (sq Q r) <= r.
Proof.
  intros Q r H. unfold sq. destruct (Req_EM_T Q 0) as [E|E]; [rewrite Rabs_pos_eq by exact H; lra|].
  assert (S : forall x, Rabs (sin x) <= Rabs x).
  { intros x. destruct (Rtotal_order x 0) as [X|[X|X]].
    - rewrite <- (Rabs_Ropp x), <- (Rabs_Ropp (sin x)), <- sin_neg. rewrite (Rabs_pos_eq (- x)) by lra. apply Rabs_le. split.
      + pose proof (SIN_bound (- x)). destruct (Rle_dec PI (- x)); [pose proof PI_RGT_0; pose proof PI2_1; lra|]. assert (0 < sin (- x)) by (apply sin_gt_0; lra). lra.
      + apply Rlt_le, sin_lt_x. lra.
    - rewrite X, sin_0. lra.
    - rewrite (Rabs_pos_eq x) by lra. apply Rabs_le. split.
      + pose proof (SIN_bound x). destruct (Rle_dec PI x); [pose proof PI_RGT_0; pose proof PI2_1; lra|]. assert (0 < sin x) by (apply sin_gt_0; lra). lra.
      + apply Rlt_le, sin_lt_x. lra. }
  unfold Rdiv. rewrite Rabs_mult, Rabs_inv. apply (Rmult_le_reg_r (Rabs Q)); [apply Rabs_pos_lt, E|]. rewrite Rmult_assoc, Rinv_l by (apply Rabs_no_R0, E).
  rewrite Rmult_1_r. eapply Rle_trans; [apply S|]. rewrite Rabs_mult, (Rabs_pos_eq r) by exact H. lra.
Qed.
Lemma cq_bound : forall Q r, Rabs (cq Q r) <= 1.
Proof. intros. unfold cq. apply Rabs_le. apply COS_bound. Qed.
Lemma lin_lim : forall (f g : R -> R) a b, is_lim f p_infty 0 -> is_lim g p_infty 0 -> is_lim (fun r => a * f r + b * g r) p_infty 0.
Proof.
  intros f g a b F G. replace (Finite 0) with (Rbar_plus (Rbar_mult a 0) (Rbar_mult b 0)) by (cbn; f_equal; ring).
  eapply is_lim_plus; [apply is_lim_scal_l; exact F|apply is_lim_scal_l; exact G|].
  unfold is_Rbar_plus. cbn. f_equal.
Qed.
Lemma lead_lim : forall (z Q a b : R) k, 0 < z -> is_lim (fun r => r ^ k * exp (- z * r) * (a * sq Q r + b * cq Q r)) p_infty 0.
Proof.
  intros z Q a b k Hz. apply (lim_bound _ (fun r => Rabs a * (r ^ S k * exp (- z * r)) + Rabs b * (r ^ k * exp (- z * r)))).
  - intros r H. rewrite Rabs_mult. assert (P : 0 <= r ^ k * exp (- z * r)) by (apply Rmult_le_pos; [apply pow_le, H|apply Rlt_le, exp_pos]). rewrite (Rabs_pos_eq _ P).
    replace (Rabs a * (r ^ S k * exp (- z * r)) + Rabs b * (r ^ k * exp (- z * r))) with (r ^ k * exp (- z * r) * (Rabs a * r + Rabs b * 1)) by (cbn [pow]; ring).
    apply Rmult_le_compat_l; [exact P|]. eapply Rle_trans; [apply Rabs_triang|]. rewrite !Rabs_mult. apply Rplus_le_compat; (apply Rmult_le_compat_l; [apply Rabs_pos|]); [apply sq_bound, H|apply cq_bound].
  - apply lin_lim; apply lim_k; exact Hz.
Qed.
Lemma FK_lim : forall z Q, 0 < z -> forall k, is_lim (fun r => fst (FK z Q k r)) p_infty 0 /\ is_lim (fun r => snd (FK z Q k r)) p_infty 0.
Proof.
  intros z Q Hz. pose proof (dd_pos z Q Hz) as D. induction k as [|k [A B]].
  - cbn [FK fst snd]. split.
    + apply (is_lim_ext (fun r => r ^ 0 * exp (- z * r) * (- z / dd z Q * sq Q r + - 1 / dd z Q * cq Q r))); [intros r; cbn [pow]; field; lra|]. apply lead_lim, Hz.
    + apply (is_lim_ext (fun r => r ^ 0 * exp (- z * r) * (Q ^ 2 / dd z Q * sq Q r + - z / dd z Q * cq Q r))); [intros r; cbn [pow]; field; lra|]. apply lead_lim, Hz.
  - cbn [FK fst snd]. split.
    + apply (is_lim_ext (fun r => 1 * (r ^ S k * exp (- z * r) * (- z / dd z Q * sq Q r + - 1 / dd z Q * cq Q r)) + INR (S k) / dd z Q * (z * fst (FK z Q k r) + 1 * snd (FK z Q k r)))); [intros r; field; lra|].
      apply lin_lim; [apply lead_lim, Hz|apply lin_lim; assumption].
    + apply (is_lim_ext (fun r => 1 * (r ^ S k * exp (- z * r) * (Q ^ 2 / dd z Q * sq Q r + - z / dd z Q * cq Q r)) + INR (S k) / dd z Q * (z * snd (FK z Q k r) + - Q ^ 2 * fst (FK z Q k r)))); [intros r; field; lra|].
      apply lin_lim; [apply lead_lim, Hz|apply lin_lim; assumption].
Qed.
(** the values of the integrals *)
Fixpoint sc (z Q : R) (k : nat) : R * R :=
  match k with
  | O => (1 / dd z Q, z / dd z Q)
  | S j => (INR (S j) * (z * fst (sc z Q j) + snd (sc z Q j)) / dd z Q, INR (S j) * (z * snd (sc z Q j) - Q ^ 2 * fst (sc z Q j)) / dd z Q)
  end.
Lemma FK_0 : forall z Q, 0 < z -> forall k, fst (FK z Q k 0) = - fst (sc z Q k) /\ snd (FK z Q k 0) = - snd (sc z Q k).
Proof.
  intros z Q Hz. pose proof (dd_pos z Q Hz) as D. induction k as [|k [A B]].
  - cbn [FK sc fst snd]. rewrite sq_0, cq_0, Rmult_0_r, exp_0. split; field; lra.
  - cbn [FK sc fst snd]. rewrite A, B, pow_i by lia. split; field; lra.
Qed.
Lemma sc_step : forall z Q, 0 < z -> forall k, fst (sc z Q (S (S k))) = (2 * z * INR (S (S k)) * fst (sc z Q (S k)) - INR (S (S k)) * INR (S k) * fst (sc z Q k)) / dd z Q.
Proof. intros z Q Hz k. pose proof (dd_pos z Q Hz) as D. cbn [sc fst snd]. unfold dd in *. field. lra. Qed.

(** functions with an antiderivative that vanishes at infinity *)
Definition good (g : R -> R) (v : R) : Prop :=
  exists F : R -> R, (forall r : R, is_derive F r (g r)) /\ (forall r : R, continuous g r) /\ is_lim F p_infty 0 /\ F 0 = - v.
Lemma good_RInt : forall g v, good g v -> exists F : R -> R, is_lim F p_infty 0 /\ F 0 = - v /\ forall b, is_RInt g 0 b (F b - F 0).
Proof.
  intros g v (F & D & C & L & Z). exists F. split; [exact L|]. split; [exact Z|]. intros b.
  apply (is_RInt_derive F g 0 b); intros x _; [apply D|apply C].
Qed.
Lemma good_integral : forall g v, good g v -> integral g v.
Proof.
  intros g v H. destruct (good_RInt g v H) as (F & L & Z & I). split.
  - intros b. exists (F b - F 0). apply I.
  - apply (is_lim_ext (fun b => F b + v)); [intros b; rewrite (is_RInt_unique _ _ _ _ (I b)), Z; ring|].
    eapply is_lim_plus; [exact L|apply is_lim_const|]. unfold is_Rbar_plus. cbn. f_equal. f_equal. ring.
Qed.
Lemma good_ext : forall g h v, (forall r, g r = h r) -> good g v -> good h v.
Proof.
  intros g h v E (F & D & C & L & Z). exists F. split; [intros r; rewrite <- E; apply D|]. split; [|split; [exact L|exact Z]].
  intros r. apply (continuous_ext g); [exact E|apply C].
Qed.
Lemma good_scal : forall c g v, good g v -> good (fun r => c * g r) (c * v).
Proof.
  intros c g v (F & D & C & L & Z). exists (fun r => c * F r). split; [intros r; apply (is_derive_scal F); apply D|].
  split; [intros r; apply (continuous_ext (fun x : R => mult c (g x))); [intros t; reflexivity|apply (continuous_mult (fun _ => c) g r); [apply continuous_const|apply C]]|]. split; [|rewrite Z; ring]. replace (Finite 0) with (Rbar_mult c 0) by (cbn; f_equal; ring). apply is_lim_scal_l. exact L.
Qed.
Lemma good_plus : forall g h v w, good g v -> good h w -> good (fun r => g r + h r) (v + w).
Proof.
  intros g h v w (F & D & C & L & Z) (F' & D' & C' & L' & Z'). exists (fun r => F r + F' r).
  split; [intros r; apply @is_derive_plus; [apply D|apply D']|]. split; [intros r; apply (continuous_plus g h); [apply C|apply C']|].
  split; [|rewrite Z, Z'; ring]. eapply is_lim_plus; [exact L|exact L'|]. unfold is_Rbar_plus. cbn. f_equal. f_equal. ring.
Qed.
Lemma good_zero : good (fun _ => 0) 0.
Proof.
  exists (fun _ => 0). split; [intros r; apply (@is_derive_const R_AbsRing R_NormedModule 0 r)|]. split; [intros r; apply continuous_const|].
  split; [apply is_lim_const|ring].
Qed.
Lemma good_sum : forall (A : Type) (L : list A) (g : A -> R -> R) (v : A -> R), (forall p, In p L -> good (g p) (v p)) ->
  good (fun r => sum (map (fun p => g p r) L)) (sum (map v L)).
Proof.
  induction L as [|p L IH]; intros g v H; [apply good_zero|]. cbn [map sum fold_right]. apply good_plus; [apply H; left; reflexivity|].
  apply IH. intros q I. apply H. right. exact I.
Qed.
Lemma good_kernel : forall k z Q, 0 < z -> good (fun r => r ^ k * exp (- z * r) * sq Q r) (fst (sc z Q k)).
Proof.
  intros k z Q Hz. exists (fun r => fst (FK z Q k r)). split; [intros r; apply (FK_derive z Q Hz k r)|]. split; [|split; [apply (FK_lim z Q Hz k)|apply (FK_0 z Q Hz k)]].
  intros r. apply (ex_derive_continuous (fun r => r ^ k * exp (- z * r) * sq Q r)). auto_derive. apply ex_s.
Qed.

(** the loops of calc_transs *)
Lemma set_same : forall a k v, set_at a k v k = v.
Proof. intros. unfold set_at. rewrite Nat.eqb_refl. reflexivity. Qed.
Lemma set_other : forall a k v j, j <> k -> set_at a k v j = a j.
Proof. intros a k v j H. unfold set_at. destruct (Nat.eqb_spec j k); [contradiction|reflexivity]. Qed.
Lemma inner_ok : forall z Q, 0 < z -> forall count nx a, (1 <= nx)%nat -> (forall k, (1 <= k <= nx)%nat -> a k = fst (sc z Q (k - 1))) ->
  forall k, (1 <= k <= nx + count)%nat -> inner 0 (2 * z) (Q ^ 2 + z ^ 2) nx count a k = fst (sc z Q (k - 1)).
Proof.
  intros z Q Hz. induction count as [|c IH]; intros nx a N H k K; [apply H; lia|]. cbn [inner]. apply IH; [lia| |lia]. clear k K. intros k K.
  destruct (Nat.eq_dec k (nx + 1)) as [->|E].
  - rewrite set_same. replace (nx + 1 - 1)%nat with nx by lia. pose proof (dd_pos z Q Hz) as D. fold (dd z Q).
    destruct nx as [|[|m]]; [lia| |].
    + rewrite (H 1%nat) by lia. cbn [sc fst snd Nat.sub INR]. field. lra.
    + rewrite (H (S (S m))) by lia. replace (S (S m) - 1)%nat with (S m) by lia. rewrite (H (S m)) by lia. replace (S m - 1)%nat with m by lia. rewrite sc_step by exact Hz.
      replace (INR 0) with 0 by reflexivity. rewrite (S_INR (S m)). field. lra.
  - rewrite set_other by lia. apply H. lia.
Qed.
Lemma turns_some : forall nn tz ts d turns l a k, exists r, turns_from nn tz ts d l turns (a, Some k) = Some r /\ List.length r = turns.
Proof.
  induction turns as [|t IH]; intros l a k; [exists []; split; reflexivity|]. cbn [turns_from outer]. set (a1 := if (l + 1 =? 1)%nat then a else _).
  assert (E : exists k', match (nn - (l + 1))%nat with 0%nat => Some k | S _ => Some nn end = Some k') by (destruct (nn - (l + 1))%nat; eexists; reflexivity).
  destruct E as [k' E]. rewrite E. cbn [fst snd]. destruct (IH (S l) (inner l tz d (l + 1) (nn - (l + 1)) a1) k') as [r [R1 R2]]. rewrite R1. eexists. split; [reflexivity|]. cbn. rewrite R2. reflexivity.
Qed.
Lemma transs_head : forall l_max nn z s, (2 <= nn)%nat -> 0 < z -> exists r, calc_transs l_max nn z s = Some (fst (sc z (4 * PI * s) (nn - 1)) :: r) /\ List.length r = l_max.
Proof.
  intros l_max nn z s N Hz. unfold calc_transs. rewrite (Nat.add_1_r l_max). cbn [turns_from outer Nat.add Nat.eqb]. destruct (nn - 1)%nat as [|c] eqn:C; [lia|].
  cbn [snd fst]. destruct (turns_some nn (2 * z) (4 * PI) ((4 * PI * s) ^ 2 + z ^ 2) l_max 1 (inner 0 (2 * z) ((4 * PI * s) ^ 2 + z ^ 2) 1 (S c) (set_at (fun _ => 0) 1 (1 / ((4 * PI * s) ^ 2 + z ^ 2)))) nn) as [r [R1 R2]].
  rewrite R1. exists r. split; [|exact R2]. f_equal. f_equal. rewrite (inner_ok z (4 * PI * s) Hz (S c) 1).
  - rewrite C. reflexivity.
  - lia.
  - intros k K. replace k with 1%nat by lia. rewrite set_same. reflexivity.
  - lia.
Qed.
(** l >= nn: no turn of the inner loop, and the number read has been set to zero *)
Lemma turns_zero : forall nn tz ts d turns l a, (nn < l)%nat -> a nn = 0 -> exists r, turns_from nn tz ts d l turns (a, Some nn) = Some r /\ forall i, nth i r 0 = 0.
Proof.
  induction turns as [|t IH]; intros l a L A; [exists []; split; [reflexivity|intros [|i]; reflexivity]|]. cbn [turns_from outer].
  replace (nn - (l + 1))%nat with 0%nat by lia. cbn [inner fst snd]. destruct (Nat.eqb_spec (l + 1) 1) as [E|E]; [lia|].
  set (a1 := set_at _ _ _). assert (Z : a1 nn = 0) by (unfold a1; rewrite !set_other by lia; exact A). destruct (IH (S l) a1) as [r [R1 R2]]; [lia|exact Z|]. rewrite R1. exists (a1 nn :: r).
  split; [reflexivity|]. intros [|i]; [exact Z|apply R2].
Qed.
Lemma turns_reach : forall nn tz ts d turns l a, (2 <= nn)%nat -> (1 <= l <= nn)%nat -> exists r, turns_from nn tz ts d l turns (a, Some nn) = Some r /\ forall i, (nn <= l + i)%nat -> nth i r 0 = 0.
Proof.
  induction turns as [|t IH]; intros l a N L; [exists []; split; [reflexivity|intros [|i] _; reflexivity]|]. cbn [turns_from outer].
  destruct (Nat.eqb_spec (l + 1) 1) as [E|E]; [lia|]. set (a1 := set_at _ _ _).
  assert (I3 : match (nn - (l + 1))%nat with 0%nat => Some nn | S _ => Some nn end = Some nn) by (destruct (nn - (l + 1))%nat; reflexivity). rewrite I3. cbn [fst snd].
  destruct (Nat.eq_dec l nn) as [->|F].
  - replace (nn - (nn + 1))%nat with 0%nat by lia. cbn [inner]. assert (Z : a1 nn = 0) by (unfold a1; replace (nn + 1 - 1)%nat with nn by lia; apply set_same).
    destruct (turns_zero nn tz ts d t (S nn) a1) as [r [R1 R2]]; [lia|exact Z|]. rewrite R1. eexists. split; [reflexivity|]. intros [|i] _; [exact Z|apply R2].
  - destruct (IH (S l) (inner l tz d (l + 1) (nn - (l + 1)) a1)) as [r [R1 R2]]; [exact N|lia|]. rewrite R1. eexists. split; [reflexivity|]. intros [|i] H; [lia|]. apply R2. lia.
Qed.
Lemma transs_high : forall l_max nn z s, (2 <= nn)%nat -> exists r, calc_transs l_max nn z s = Some r /\ List.length r = (l_max + 1)%nat /\ forall i, (nn <= i)%nat -> nth i r 0 = 0.
Proof.
  intros l_max nn z s N. unfold calc_transs. rewrite (Nat.add_1_r l_max). cbn [turns_from outer Nat.add Nat.eqb]. destruct (nn - 1)%nat as [|c] eqn:C; [lia|].
  cbn [snd fst]. set (a := inner 0 _ _ _ _ _). destruct (turns_reach nn (2 * z) (4 * PI) ((4 * PI * s) ^ 2 + z ^ 2) l_max 1 a) as [r [R1 R2]]; [lia|lia|].
  destruct (turns_some nn (2 * z) (4 * PI) ((4 * PI * s) ^ 2 + z ^ 2) l_max 1 a nn) as [r' [R1' R2']]. rewrite R1 in R1'. injection R1' as <-. rewrite R1. eexists. split; [reflexivity|]. split; [cbn; lia|].
  intros [|i] H; [lia|]. apply R2. lia.
Qed.

(** sums over the pairs *)
Lemma add_up_ok : forall (A : Type) (L : list A) (f : A -> R) (g : A -> option (list R)) (h : A -> nat -> R) m (sel : nat -> Prop),
  (forall p, In p L -> exists r, g p = Some r /\ List.length r = m /\ forall i, sel i -> nth i r 0 = h p i) ->
  exists r, add_up (map (fun p => (f p, g p)) L) (repeat 0 m) = Some r /\ List.length r = m /\ forall i, (i < m)%nat -> sel i -> nth i r 0 = sum (map (fun p => f p * h p i) L).
Proof.
  induction L as [|p L IH]; intros f g h m sel H.
  - exists (repeat 0 m). split; [reflexivity|]. split; [apply repeat_length|]. intros i I _. cbn. rewrite nth_repeat. reflexivity.
  - destruct (H p) as (r & R1 & R2 & R3); [left; reflexivity|]. destruct (IH f g h m sel) as (s & S1 & S2 & S3); [intros q I; apply H; right; exact I|].
    cbn [map add_up]. rewrite R1, S1. eexists. split; [reflexivity|]. split; [rewrite map_length, combine_length, R2, S2; apply Nat.min_id|]. intros i I J.
    rewrite (nth_indep _ 0 (f p * fst (0, 0) + snd (0, 0))) by (rewrite map_length, combine_length, R2, S2, Nat.min_id; exact I).
    rewrite (map_nth (fun q => f p * fst q + snd q)), combine_nth by congruence. cbn [fst snd sum fold_right map]. rewrite (R3 i J), (S3 i I J). reflexivity.
Qed.
Lemma sum_cons : forall y l, sum (y :: l) = y + sum l.
Proof. reflexivity. Qed.
Lemma sum_mult : forall l x, x * sum l = sum (map (fun y => x * y) l).
Proof. induction l as [|y l IH]; intros x; [apply Rmult_0_r|]. cbn [map]. rewrite !sum_cons, <- IH. ring. Qed.
Lemma sum_app : forall l m, sum (l ++ m) = sum l + sum m.
Proof. induction l as [|y l IH]; intros m; [symmetry; apply Rplus_0_l|]. cbn [app]. rewrite !sum_cons, IH. ring. Qed.
Lemma sum_prod : forall (A : Type) (f g : A -> R) (L M : list A), sum (map f L) * sum (map g M) = sum (map (fun p => f (fst p) * g (snd p)) (list_prod L M)).
Proof.
  intros A f g. induction L as [|a L IH]; intros M; [apply Rmult_0_l|]. cbn [list_prod map]. rewrite map_app, sum_app, <- IH, map_map, sum_cons.
  cbn [fst snd]. rewrite Rmult_plus_distr_r, sum_mult, map_map. reflexivity.
Qed.
Definition term (bohr kappa : R) (o : slater) (r : R) : R :=
  let '(c, n, z) := o in c * coeff_norm bohr kappa o * r ^ (n - 1) * exp (- zeta_ang bohr kappa o * r).
Lemma radial_sum : forall bohr kappa (orb : list slater) r, bohr <> 0 -> radial (stretched (kappa / bohr) orb) r = sum (map (fun o => term bohr kappa o r) orb).
Proof.
  intros bohr kappa orb r B. induction orb as [|[[c n] z] orb IH]; [reflexivity|]. cbn [stretched map radial sum fold_right term]. fold (sum (map (fun o => term bohr kappa o r) orb)).
  rewrite <- IH. unfold stretched. f_equal. unfold coeff_norm, zeta_ang. replace (kappa / bohr * z) with (kappa * z / bohr) by (field; exact B). replace (5 / 10) with (/ 2) by field. reflexivity.
Qed.
Lemma density_is : forall r (orb : list slater) kappa, calc_rho_normalized r orb kappa = radial (stretched (kappa / (52918 / 100000)) orb) r.
Proof. intros. rewrite radial_sum by lra. unfold calc_rho_normalized. reflexivity. Qed.
Lemma sinc_sq : forall Q r, r * sinc (Q * r) = sq Q r.
Proof.
  intros Q r. unfold sinc, sq. destruct (Req_EM_T Q 0) as [E|E].
  - rewrite E, Rmult_0_l. destruct (Req_EM_T 0 0); [ring|contradiction].
  - destruct (Req_EM_T (Q * r) 0) as [F|F].
    + assert (r = 0) by (apply Rmult_integral in F; destruct F; [contradiction|assumption]). subst r. rewrite Rmult_0_r, sin_0. field. exact E.
    + field. split; [exact E|]. intros H. apply F. rewrite H. ring.
Qed.
Definition bohr : R := 529177 / 1000000.
Lemma zeta_pos : forall kappa o, 0 < kappa -> proper o -> 0 < zeta_ang bohr kappa o.
Proof. intros kappa [[c n] z] K [_ Z]. cbn. unfold bohr. apply Rdiv_lt_0_compat; [apply Rmult_lt_0_compat; assumption|lra]. Qed.
Lemma in_prod_proper : forall (orb : list slater) (p : slater * slater), List.Forall proper orb -> In p (list_prod orb orb) -> proper (fst p) /\ proper (snd p).
Proof. intros orb [a b] F I. apply in_prod_iff in I. rewrite List.Forall_forall in F. split; apply F; apply I. Qed.
Definition pair_value (kappa s : R) (p : slater * slater) : R :=
  fst (sc (zeta_ang bohr kappa (fst p) + zeta_ang bohr kappa (snd p)) (4 * PI * s) (snd (fst (fst p)) + snd (fst (snd p)) - 1)).
Lemma jl_head : forall (orb : list slater) kappa s l_max, List.Forall proper orb -> 0 < kappa ->
  exists rest, calc_jl s orb kappa l_max = Some (sum (map (fun p => pair_coeff kappa p * pair_value kappa s p) (list_prod orb orb)) :: rest) /\ List.length rest = l_max.
Proof.
  intros orb kappa s l_max F K. unfold calc_jl, calc_jl_per_2sthovll.
  destruct (add_up_ok (slater * slater) (list_prod orb orb) (pair_coeff kappa) (pair_transs l_max kappa s) (fun p _ => pair_value kappa s p) (l_max + 1) (fun i => i = 0%nat)) as (r & R1 & R2 & R3).
  - intros p I. destruct (in_prod_proper orb p F I) as [P1 P2]. unfold pair_transs. pose proof (zeta_pos kappa _ K P1). pose proof (zeta_pos kappa _ K P2).
    assert (N1 : (1 <= snd (fst (fst p)))%nat) by (destruct p as [[[c n] z] o]; apply P1). assert (N2 : (1 <= snd (fst (snd p)))%nat) by (destruct p as [o [[c n] z]]; apply P2).
    fold bohr. destruct (transs_head l_max (snd (fst (fst p)) + snd (fst (snd p))) (zeta_ang bohr kappa (fst p) + zeta_ang bohr kappa (snd p)) s) as [q [Q1 Q2]]; [exact (Nat.add_le_mono 1 _ 1 _ N1 N2)|apply Rplus_lt_0_compat; assumption|].
    eexists. split; [exact Q1|]. split; [cbn; lia|]. intros i ->. reflexivity.
  - rewrite R1. specialize (R3 0%nat). destruct r as [|x r]; [cbn in R2; lia|]. rewrite (Nat.add_1_r l_max). cbn [seq combine map fst snd pow]. rewrite Rmult_1_r.
    rewrite <- R3 by (try reflexivity; lia). eexists. split; [reflexivity|]. rewrite map_length, combine_length, seq_length. cbn in R2. lia.
Qed.
Definition weight (kappa s : R) (orb : list slater) (r : R) : R := r ^ 2 * Rsqr (radial (stretched (kappa / (529177 / 1000000)) orb) r) * sinc (4 * PI * s * r).
Lemma weight_good : forall (orb : list slater) kappa s, List.Forall proper orb -> 0 < kappa -> good (weight kappa s orb) (sum (map (fun p => pair_coeff kappa p * pair_value kappa s p) (list_prod orb orb))).
Proof.
  intros orb kappa s F K. apply (good_ext (fun r => sum (map (fun p => (fun r => pair_coeff kappa p * (r ^ (snd (fst (fst p)) + snd (fst (snd p)) - 1) * exp (- (zeta_ang bohr kappa (fst p) + zeta_ang bohr kappa (snd p)) * r) * sq (4 * PI * s) r)) r) (list_prod orb orb)))).
  - intros r. unfold weight. rewrite radial_sum by lra. unfold Rsqr. rewrite sum_prod. match goal with |- _ = ?a * sum ?m * ?x => replace (a * sum m * x) with (a * x * sum m) by ring end. rewrite sum_mult, map_map. f_equal. apply map_ext_in.
    intros p I. destruct (in_prod_proper orb p F I) as [P1 P2]. destruct p as [[[c1 n1] z1] [[c2 n2] z2]]. destruct P1 as [N1 _], P2 as [N2 _]. cbn [fst snd] in *. unfold term, pair_coeff. cbn [fst snd]. fold bohr.
    destruct n1 as [|a]; [lia|]. destruct n2 as [|b]; [lia|]. replace (S a + S b - 1)%nat with (a + b + 1)%nat by lia. replace (S a - 1)%nat with a by lia. replace (S b - 1)%nat with b by lia.
    rewrite <- (sinc_sq (4 * PI * s) r), !pow_add, Rmult_assoc. rewrite Ropp_plus_distr, Rmult_plus_distr_r, exp_plus. cbn [pow].
    generalize (coeff_norm bohr kappa (c1, S a, z1)) (coeff_norm bohr kappa (c2, S b, z2)) (exp (- zeta_ang bohr kappa (c1, S a, z1) * r)) (exp (- zeta_ang bohr kappa (c2, S b, z2) * r)) (sinc (4 * PI * s * r)).
    intros. rewrite ?Rmult_assoc. ring.
  - apply good_sum. intros p I. destruct (in_prod_proper orb p F I) as [P1 P2]. apply good_scal, good_kernel. pose proof (zeta_pos kappa _ K P1). pose proof (zeta_pos kappa _ K P2). apply Rplus_lt_0_compat; assumption.
Qed.
Lemma j0_integral : forall (orb : list slater) kappa s l_max, List.Forall proper orb -> 0 < kappa -> exists j0 rest, calc_jl s orb kappa l_max = Some (j0 :: rest) /\ List.length rest = l_max /\
  integral (fun r => r ^ 2 * Rsqr (radial (stretched (kappa / (529177 / 1000000)) orb) r) * sinc (4 * PI * s * r)) j0.
Proof.
  intros orb kappa s l_max F K. destruct (jl_head orb kappa s l_max F K) as [rest [E L]]. eexists. exists rest. split; [exact E|]. split; [exact L|]. apply good_integral, weight_good; assumption.
Qed.

(** sin(theta)/lambda = 0 *)
Lemma sc_zero : forall z, 0 < z -> forall k, fst (sc z 0 k) = INR (fact (k + 1)) / z ^ (k + 2) /\ snd (sc z 0 k) = INR (fact k) / z ^ (k + 1).
Proof.
  intros z Hz. assert (D : dd z 0 = z * z) by (unfold dd; ring). induction k as [|k [A B]].
  - cbn [sc fst snd]. rewrite D. cbn [Nat.add fact]. cbn [Nat.mul Nat.add INR pow]. split; field; lra.
  - cbn [sc fst snd]. rewrite A, B, D.
    assert (P : z ^ k <> 0) by (apply pow_nonzero; lra). pose proof (INR_fact_neq_0 k) as N.
    replace (S k + 1)%nat with (S (S k)) by lia. replace (S k + 2)%nat with (S (S (S k))) by lia. replace (k + 2)%nat with (S (S k)) by lia. replace (k + 1)%nat with (S k) by lia.
    rewrite <- !tech_pow_Rmult, (fact_simpl (S k)), (fact_simpl k), !mult_INR, !S_INR. split; field; repeat split; try exact P; lra.
Qed.
Lemma norm_square : forall kappa n z, 0 < kappa -> 0 < z ->
  coeff_norm bohr kappa (1, n, z) * coeff_norm bohr kappa (1, n, z) = (2 * zeta_ang bohr kappa (1, n, z)) ^ (2 * n + 1) / INR (fact (2 * n)).
Proof.
  intros kappa n z K Z. assert (P : 0 < zeta_ang bohr kappa (1, n, z)) by (cbn; unfold bohr; apply Rdiv_lt_0_compat; [apply Rmult_lt_0_compat; assumption|lra]).
  unfold coeff_norm at 1 2. set (x := zeta_ang bohr kappa (1, n, z)) in *. assert (N : 0 < INR (fact (2 * n))) by apply INR_fact_lt_0.
  replace (Rpower (2 * x) (INR n + 5 / 10) / sqrt (INR (fact (2 * n))) * (Rpower (2 * x) (INR n + 5 / 10) / sqrt (INR (fact (2 * n))))) with
    (Rpower (2 * x) (INR n + 5 / 10) * Rpower (2 * x) (INR n + 5 / 10) / (sqrt (INR (fact (2 * n))) * sqrt (INR (fact (2 * n))))) by (field; apply Rgt_not_eq, sqrt_lt_R0; exact N).
  rewrite sqrt_sqrt by lra. rewrite <- Rpower_plus. replace (INR n + 5 / 10 + (INR n + 5 / 10)) with (INR (2 * n + 1)) by (rewrite plus_INR, mult_INR; cbn [INR]; lra).
  rewrite Rpower_pow by lra. reflexivity.
Qed.
Lemma normalised : forall kappa n z l_max, (1 <= n)%nat -> 0 < z -> 0 < kappa -> exists rest, calc_jl 0 [(1, n, z)] kappa l_max = Some (1 :: rest).
Proof.
  intros kappa n z l_max N Z K. destruct (jl_head [(1, n, z)] kappa 0 l_max) as [rest [E _]]; [constructor; [split; assumption|constructor]|exact K|]. rewrite E. exists rest. f_equal. f_equal.
  cbn [list_prod map app sum fold_right]. unfold pair_coeff, pair_value. cbn [fst snd]. fold bohr. rewrite norm_square by assumption. rewrite Rmult_0_r.
  assert (P : 0 < zeta_ang bohr kappa (1, n, z)) by (cbn; unfold bohr; apply Rdiv_lt_0_compat; [apply Rmult_lt_0_compat; assumption|lra]).
  destruct (sc_zero (zeta_ang bohr kappa (1, n, z) + zeta_ang bohr kappa (1, n, z))) with (k := (n + n - 1)%nat) as [A _]; [lra|]. rewrite A.
  replace (n + n - 1 + 1)%nat with (2 * n)%nat by lia. replace (n + n - 1 + 2)%nat with (2 * n + 1)%nat by lia.
  replace (zeta_ang bohr kappa (1, n, z) + zeta_ang bohr kappa (1, n, z)) with (2 * zeta_ang bohr kappa (1, n, z)) by ring. field. split; [apply pow_nonzero; lra|apply INR_fact_neq_0].
Qed.
Lemma sinc_le : forall x, Rabs (sinc x) <= 1.
Proof.
  intros x. unfold sinc. destruct (Req_EM_T x 0) as [E|E]; [rewrite Rabs_R1; lra|].
  assert (P : forall y, 0 < y -> Rabs (sin y / y) <= 1).
  { intros y Y. pose proof (sq_bound 1 y (Rlt_le _ _ Y)) as B. unfold sq in B. destruct (Req_EM_T 1 0); [lra|]. rewrite Rmult_1_l, Rdiv_1 in B.
    unfold Rdiv. rewrite Rabs_mult, Rabs_inv, (Rabs_pos_eq y) by lra. apply (Rmult_le_reg_r y); [exact Y|]. rewrite Rmult_assoc, Rinv_l, Rmult_1_r, Rmult_1_l by lra. exact B. }
  destruct (Rtotal_order x 0) as [X|[X|X]]; [|contradiction|apply P; exact X].
  replace (sin x / x) with (sin (- x) / (- x)) by (rewrite sin_neg; field; exact E). apply P. lra.
Qed.
Lemma sinc_0 : forall s r, s = 0 -> sinc (4 * PI * s * r) = 1.
Proof. intros s r ->. rewrite Rmult_0_r, Rmult_0_l. unfold sinc. destruct (Req_EM_T 0 0); [reflexivity|contradiction]. Qed.
Lemma j0_bounded : forall (orb : list slater) kappa s l_max js rs jz rz, List.Forall proper orb -> 0 < kappa -> calc_jl s orb kappa l_max = Some (js :: rs) -> calc_jl 0 orb kappa l_max = Some (jz :: rz) ->
  Rabs js <= jz.
Proof.
  intros orb kappa s l_max js rs jz rz F K E1 E2. destruct (jl_head orb kappa s l_max F K) as [r1 [H1 _]]. destruct (jl_head orb kappa 0 l_max F K) as [r2 [H2 _]].
  rewrite E1 in H1. rewrite E2 in H2. injection H1 as I1 _. injection H2 as I2 _.
  destruct (good_integral _ _ (weight_good orb kappa s F K)) as [X1 L1]. destruct (good_integral _ _ (weight_good orb kappa 0 F K)) as [X2 L2].
  rewrite <- I1 in L1. rewrite <- I2 in L2.
  assert (B : forall x, - weight kappa 0 orb x <= weight kappa s orb x <= weight kappa 0 orb x).
  { intros x. unfold weight. rewrite (sinc_0 0) by reflexivity. rewrite Rmult_1_r. set (w := x ^ 2 * Rsqr _). assert (W : 0 <= w) by (apply Rmult_le_pos; [apply pow2_ge_0|apply Rle_0_sqr]).
    pose proof (sinc_le (4 * PI * s * x)) as S. apply Rabs_le_between in S. split; nra. }
  assert (U : Rbar_le js jz).
  { apply (is_lim_le_loc (fun b => RInt (weight kappa s orb) 0 b) (fun b => RInt (weight kappa 0 orb) 0 b) p_infty); [|exact L1|exact L2].
    exists 0. intros b Hb. apply RInt_le; [lra|apply X1|apply X2|intros x _; apply B]. }
  assert (W : Rbar_le (- jz) js).
  { apply (is_lim_le_loc (fun b => - RInt (weight kappa 0 orb) 0 b) (fun b => RInt (weight kappa s orb) 0 b) p_infty); [|apply (is_lim_opp _ _ jz); exact L2|exact L1].
    exists 0. intros b Hb. rewrite <- (RInt_opp (weight kappa 0 orb)) by apply X2. apply RInt_le; [lra|apply (ex_RInt_opp (weight kappa 0 orb)), X2|apply X1|intros x _; apply B]. }
  cbn in U, W. apply Rabs_le. split; assumption.
Qed.
Lemma high_order : forall (orb : list slater) kappa s l_max l, List.Forall proper orb -> (l <= l_max)%nat -> (forall c n z c' n' z', In (c, n, z) orb -> In (c', n', z') orb -> (n + n' <= l)%nat) ->
  exists r, calc_jl s orb kappa l_max = Some r /\ nth l r 0 = 0.
Proof.
  intros orb kappa s l_max l F L H. unfold calc_jl, calc_jl_per_2sthovll.
  destruct (add_up_ok (slater * slater) (list_prod orb orb) (pair_coeff kappa) (pair_transs l_max kappa s) (fun _ _ => 0) (l_max + 1) (fun i => i = l)) as (r & R1 & R2 & R3).
  - intros p I. destruct (in_prod_proper orb p F I) as [P1 P2]. destruct p as [[[c n] z] [[c' n'] z']]. destruct P1 as [N1 _], P2 as [N2 _]. unfold pair_transs. cbn [fst snd].
    destruct (transs_high l_max (n + n') (zeta_ang (529177 / 1000000) kappa (c, n, z) + zeta_ang (529177 / 1000000) kappa (c', n', z')) s) as (q & Q1 & Q2 & Q3); [lia|].
    exists q. split; [exact Q1|]. split; [exact Q2|]. intros i ->. apply Q3. apply in_prod_iff in I. apply (H c n z c' n' z'); apply I.
  - rewrite R1. eexists. split; [reflexivity|]. specialize (R3 l). rewrite (nth_indep _ 0 (fst (0, 0%nat) * (2 * s) ^ snd (0, 0%nat))) by (rewrite map_length, combine_length, seq_length, R2, Nat.min_id; lia).
    rewrite (map_nth (fun p => fst p * (2 * s) ^ snd p)), combine_nth by (rewrite seq_length; exact R2). cbn [fst snd]. rewrite R3 by (try reflexivity; lia).
    replace (sum (map (fun p => pair_coeff kappa p * 0) (list_prod orb orb))) with 0; [ring|]. clear R1 R3. induction (list_prod orb orb) as [|p M IH]; [reflexivity|]. cbn [map]. rewrite sum_cons, <- IH. ring.
Qed.
Lemma proper_met : List.Forall proper [(1 / 4, 3%nat, 41 / 10); (3 / 10, 3%nat, 6)] /\ 0 < 1.
Proof. split; [|lra]. repeat constructor; lra. Qed.
Lemma high_met : List.Forall proper [(1, 1%nat, 1)] /\ (2 <= 5)%nat /\ (forall c n z c' n' z', In (c, n, z) [(1, 1%nat, 1)] -> In (c', n', z') [(1, 1%nat, 1)] -> (n + n' <= 2)%nat).
Proof. split; [repeat constructor; lra|]. split; [lia|]. intros c n z c' n' z' [E|[]] [E'|[]]. injection E as _ <- _. injection E' as _ <- _. lia. Qed.
