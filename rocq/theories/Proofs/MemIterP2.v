(** The gradient of the deviation with respect to the densities (C105). *)
From Coq Require Import Reals Lra Lia String Bool List.
From Coquelicot Require Import Coquelicot.
From Verif Require Import Spec.Lin3 Spec.Scatter Spec.Density Model.Mem Model.FlipRatio Model.MemFourier Model.MemIter Spec.Intens Spec.MemSpec Proofs.FlipRatioP Proofs.FlipRatioDerivP Proofs.MemIterP.
Import ListNotations.
Open Scope list_scope.
Open Scope R_scope.

Lemma model_fst : forall asym r v, fst (refl_model asym r v) =
  if asym then fst (calc_asymmetry_by_iint (ip (calc_iint ffm (arg_of r v))) (im (calc_iint ffm (arg_of r v))) None)
  else fst (calc_flip_ratio_by_iint (ip (calc_iint ffm (arg_of r v))) (im (calc_iint ffm (arg_of r v))) None).
Proof.
  intros asym r v. unfold refl_model, ip, im, ffm, arg_of. destruct (calc_iint _ _) as [[[a b] c] d]. destruct asym; reflexivity.
Qed.
Lemma model_snd : forall asym r v m, snd (refl_model asym r v) m =
  let d := if asym then snd (calc_asymmetry_by_iint (ip (calc_iint ffm (arg_of r v))) (im (calc_iint ffm (arg_of r v))) None)
  else snd (calc_flip_ratio_by_iint (ip (calc_iint ffm (arg_of r v))) (im (calc_iint ffm (arg_of r v))) None) in
  d_plus d * slope (dp (calc_iint ffm (arg_of r v))) m + d_minus d * slope (dm (calc_iint ffm (arg_of r v))) m.
Proof.
  intros asym r v [[m1 n1] [m2 n2] [m3 n3]]. unfold refl_model, ip, im, dp, dm, ffm, arg_of, slope. destruct (calc_iint _ _) as [[[a b] c] d].
  destruct asym; unfold calc_asymmetry_by_iint, calc_flip_ratio_by_iint; cbn [fst snd d_plus d_minus v_1 v_2 v_3]; cbv zeta; ring.
Qed.
Lemma ratio_chain : forall (P M : R -> R) t p' m', M t <> 0 -> is_derive P t p' -> is_derive M t m' ->
  is_derive (fun t => fst (calc_flip_ratio_by_iint (P t) (M t) None)) t
   (let d := snd (calc_flip_ratio_by_iint (P t) (M t) None) in d_plus d * p' + d_minus d * m').
Proof.
  intros P M t p' m' N HP HM. unfold calc_flip_ratio_by_iint. cbn [fst snd d_plus d_minus]. cbv zeta.
  assert (N' : M t + 0 <> 0) by (intros E; apply N; lra).
  eapply is_derive_eq; [auto_derive; [repeat split; [eexists; exact HP|eexists; exact HM|exact N']|reflexivity]|].
  replace (Derive (fun x => P x) t) with p' by (symmetry; apply is_derive_unique; exact HP).
  replace (Derive (fun x => M x) t) with m' by (symmetry; apply is_derive_unique; exact HM). field. intros E; apply N; lra.
Qed.
Lemma asym_chain : forall (P M : R -> R) t p' m', P t + M t <> 0 -> is_derive P t p' -> is_derive M t m' ->
  is_derive (fun t => fst (calc_asymmetry_by_iint (P t) (M t) None)) t
   (let d := snd (calc_asymmetry_by_iint (P t) (M t) None) in d_plus d * p' + d_minus d * m').
Proof.
  intros P M t p' m' N HP HM. unfold calc_asymmetry_by_iint. cbn [fst snd d_plus d_minus]. cbv zeta.
  assert (N' : P t + M t + 0 <> 0) by (intros E; apply N; lra).
  eapply is_derive_eq; [auto_derive; [repeat split; [eexists; exact HP|eexists; exact HM|eexists; exact HP|eexists; exact HM|exact N']|reflexivity]|].
  replace (Derive (fun x => P x) t) with p' by (symmetry; apply is_derive_unique; exact HP).
  replace (Derive (fun x => M x) t) with m' by (symmetry; apply is_derive_unique; exact HM). unfold Rsqr. field. intros E; apply N; lra.
Qed.
Definition ratio_ok (asym : bool) (r : mrefl) (v : V3 cx) : Prop :=
  if asym then ip (calc_iint ffm (arg_of r v)) + im (calc_iint ffm (arg_of r v)) <> 0 else im (calc_iint ffm (arg_of r v)) <> 0.
Lemma model_along : forall asym r f m (t : R), good_ext (mr_ext r) -> unit_axis (mr_axis r) -> ratio_ok asym r (along f m t) ->
  is_derive (fun t => fst (refl_model asym r (along f m t))) t (snd (refl_model asym r (along f m t)) m).
Proof.
  intros asym r f m t G U K. rewrite model_snd. pose proof (ip_along r f m t G U) as HP. pose proof (im_along r f m t G U) as HM.
  unfold ratio_ok in K. destruct asym; cbv zeta.
  - eapply is_derive_ext; [intros s; symmetry; apply model_fst|]. cbv iota.
    exact (asym_chain (fun t => ip (calc_iint ffm (arg_of r (along f m t)))) (fun t => im (calc_iint ffm (arg_of r (along f m t)))) t _ _ K HP HM).
  - eapply is_derive_ext; [intros s; symmetry; apply model_fst|]. cbv iota.
    exact (ratio_chain (fun t => ip (calc_iint ffm (arg_of r (along f m t)))) (fun t => im (calc_iint ffm (arg_of r (along f m t)))) t _ _ K HP HM).
Qed.

(** ** sums *)
Lemma sum_d : forall (A : Type) (g : A -> R -> R) (g' : A -> R) (t : R) l, (forall a, In a l -> is_derive (g a) t (g' a)) ->
  is_derive (fun t => asum (map (fun a => g a t) l)) t (asum (map g' l)).
Proof.
  intros A g g' t. induction l as [|a l IH]; intros H.
  - unfold asum; cbn [map fold_right]. exact (@is_derive_const R_AbsRing R_NormedModule 0 t).
  - unfold asum. cbn [map fold_right]. apply (is_derive_plus (g a) (fun t => asum (map (fun a => g a t) l)) t (g' a)); [apply H; left; reflexivity|].
    apply IH. intros b Hb. apply H. right. exact Hb.
Qed.
Definition vscale (k : R) (v : V3 C) : V3 C := mkV (Cmult (RtoC k) (v_1 v)) (Cmult (RtoC k) (v_2 v)) (Cmult (RtoC k) (v_3 v)).
Lemma slope_scale : forall d k v, slope d (vscale k v) = k * slope d v.
Proof. intros d k [[a b] [c e] [f g]]. unfold slope, vscale, Cmult, RtoC. cbn. ring. Qed.
Lemma model_scale : forall asym r v k m, snd (refl_model asym r v) (vscale k m) = k * snd (refl_model asym r v) m.
Proof. intros. rewrite !model_snd. cbv zeta. rewrite !slope_scale. ring. Qed.
(** A family of densities whose structure factors are linear in the parameter. *)
Lemma cost_d : forall p (dd : R -> dens) (t : R) (coef : mrefl -> V3 C), regular p (dd t) ->
  (forall r, In r (pa_refl p) -> exists f, forall s, f_m_perp_of (pa_plus p) (pa_minus p) r (dd s) = along f (coef r) s) ->
  is_derive (fun s => ev_c (evaluate p (dd s))) t
   (-2 / INR (List.length (pa_refl p)) * asum (map (fun r => diff_value p (dd t) r / mr_sigma r * snd (refl_model (pa_asym p) r (f_m_perp_of (pa_plus p) (pa_minus p) r (dd t))) (coef r)) (pa_refl p))).
Proof.
  intros p dd t coef Rg L. unfold evaluate. cbn [ev_c]. set (N := INR (List.length (pa_refl p))).
  set (g' := fun r => -2 * (diff_value p (dd t) r / mr_sigma r * snd (refl_model (pa_asym p) r (f_m_perp_of (pa_plus p) (pa_minus p) r (dd t))) (coef r))).
  assert (S : is_derive (fun s => asum (map (fun r => Rsqr (diff_value p (dd s) r)) (pa_refl p))) t (asum (map g' (pa_refl p)))).
  { apply (sum_d _ (fun r s => Rsqr (diff_value p (dd s) r)) g' t). intros r Hr. destruct (L r Hr) as (f & F). destruct (Rg r Hr) as (G & U & K).
    unfold g', diff_value. rewrite F in *. set (m := coef r) in *.
    assert (K' : ratio_ok (pa_asym p) r (along f m t)) by (unfold ratio_ok; destruct (pa_asym p); exact K).
    pose proof (model_along (pa_asym p) r f m t G U K') as D. set (h := fun s => fst (refl_model (pa_asym p) r (along f m s))) in *.
    apply is_derive_ext with (f := fun s => Rsqr ((mr_exp r - h s) / mr_sigma r)); [intros s; rewrite F; reflexivity|].
    change (fst (refl_model (pa_asym p) r (along f m t))) with (h t). set (h' := snd (refl_model (pa_asym p) r (along f m t)) m) in *.
    unfold Rsqr, Rdiv. eapply is_derive_eq; [auto_derive; [repeat split; eexists; exact D|reflexivity]|].
    replace (Derive (fun x => h x) t) with h' by (symmetry; apply is_derive_unique; exact D). ring. }
  eapply is_derive_eq.
  - apply is_derive_ext with (f := fun s => / N * asum (map (fun r => Rsqr (diff_value p (dd s) r)) (pa_refl p))); [intros s; exact (Rmult_comm _ _)|].
    apply (is_derive_scal _ _ (/ N)). exact S.
  - unfold g', Rdiv. replace (asum (map _ (pa_refl p))) with (-2 * asum (map (fun r => diff_value p (dd t) r / mr_sigma r * snd (refl_model (pa_asym p) r (f_m_perp_of (pa_plus p) (pa_minus p) r (dd t))) (coef r)) (pa_refl p))).
    + unfold Rdiv. ring.
    + clear. unfold asum. induction (pa_refl p) as [|r l IH]; [cbn; ring|]. cbn [map fold_right]. rewrite <- IH. unfold Rdiv. ring.
Qed.

(** ** the structure factors are linear in each density *)
Lemma chi_lin : forall l row j (t : R) i, (j < length l)%nat ->
  f_m_perp_chi (with_nth l j t) row i = Cplus (f_m_perp_chi (with_nth l j 0) row i) (Cmult (RtoC t) (vget (nth j row zero3) i)).
Proof.
  unfold f_m_perp_chi. induction l as [|x l IH]; intros row j t i H; [cbn in H; lia|].
  destruct row as [|v row].
  - destruct j; cbn [with_nth combine map csum fold_right nth]; replace (vget zero3 i) with (RtoC 0) by (destruct i; reflexivity); ring.
  - destruct j as [|j]; cbn [with_nth combine map csum fold_right nth fst snd].
    + ring.
    + change (fold_right Cplus (RtoC 0)) with csum. rewrite (IH row j t i) by (cbn in H; lia). ring.
Qed.
Lemma col_lin1 : forall a b plus minus row j (t : R) i, (j < length a)%nat -> length a = length b ->
  f_m_perp_col plus minus (combine (with_nth a j t) b) row i = Cplus (f_m_perp_col plus minus (combine (with_nth a j 0) b) row i) (Cmult (RtoC t) (vget (vscale plus (nth j row zero3)) i)).
Proof.
  unfold f_m_perp_col. induction a as [|x a IH]; intros [|y b] plus minus row j t i H E; try discriminate E; [cbn in H; lia|].
  destruct row as [|v row].
  - destruct j; cbn [with_nth combine map csum fold_right nth]; replace (vget (vscale plus zero3) i) with (RtoC 0) by (destruct i; unfold vscale, zero3; cbn [vget v_1 v_2 v_3]; ring); ring.
  - assert (V : forall k, vget (vscale plus (nth k (v :: row) zero3)) i = Cmult (RtoC plus) (vget (nth k (v :: row) zero3) i)) by (intros k; destruct i; reflexivity).
    rewrite V. destruct j as [|j]; cbn [with_nth combine map csum fold_right nth fst snd].
    + rewrite !RtoC_plus, !RtoC_mult. ring.
    + change (fold_right Cplus (RtoC 0)) with csum. rewrite (IH b plus minus row j t i) by (cbn in H, E; lia).
      replace (vget (vscale plus (nth j row zero3)) i) with (Cmult (RtoC plus) (vget (nth j row zero3) i)) by (destruct i; reflexivity). ring.
Qed.
Lemma col_lin2 : forall a b plus minus row j (t : R) i, (j < length b)%nat -> length a = length b ->
  f_m_perp_col plus minus (combine a (with_nth b j t)) row i = Cplus (f_m_perp_col plus minus (combine a (with_nth b j 0)) row i) (Cmult (RtoC t) (vget (vscale minus (nth j row zero3)) i)).
Proof.
  unfold f_m_perp_col. induction a as [|x a IH]; intros [|y b] plus minus row j t i H E; try discriminate E; [cbn in H; lia|].
  destruct row as [|v row].
  - destruct j; cbn [with_nth combine map csum fold_right nth]; replace (vget (vscale minus zero3) i) with (RtoC 0) by (destruct i; unfold vscale, zero3; cbn [vget v_1 v_2 v_3]; ring); ring.
  - assert (V : forall k, vget (vscale minus (nth k (v :: row) zero3)) i = Cmult (RtoC minus) (vget (nth k (v :: row) zero3) i)) by (intros k; destruct i; reflexivity).
    rewrite V. destruct j as [|j]; cbn [with_nth combine map csum fold_right nth fst snd].
    + rewrite !RtoC_plus, !RtoC_mult. ring.
    + change (fold_right Cplus (RtoC 0)) with csum. rewrite (IH b plus minus row j t i) by (cbn in H, E; lia).
      replace (vget (vscale minus (nth j row zero3)) i) with (Cmult (RtoC minus) (vget (nth j row zero3) i)) by (destruct i; reflexivity). ring.
Qed.
Lemma along_of : forall (u : R -> V3 cx) m, (forall s i, vget (u s) i = Cplus (vget (u 0) i) (Cmult (RtoC s) (vget m i))) -> exists f, forall s, u s = along f m s.
Proof.
  intros u m H. exists (u 0). intros s. pose proof (H s X1) as H1. pose proof (H s X2) as H2. pose proof (H s X3) as H3. destruct (u s) as [a b c], (u 0) as [[x1 y1] [x2 y2] [x3 y3]], m as [[p1 q1] [p2 q2] [p3 q3]].
  cbn [vget v_1 v_2 v_3] in *. unfold along. cbn [v_1 v_2 v_3 fst snd]. subst. unfold Cplus, Cmult, RtoC. cbn [fst snd]. f_equal; f_equal; ring.
Qed.
Lemma with_nth_self : forall l j, with_nth l j (nth j l 0) = l.
Proof. induction l as [|x l IH]; intros [|j]; cbn; [reflexivity|reflexivity|reflexivity|rewrite IH; reflexivity]. Qed.
Lemma nth_map_seq : forall (f : nat -> R) n j, (j < n)%nat -> nth j (map f (seq 0 n)) 0 = f j.
Proof. intros f n j H. rewrite (nth_indep _ 0 (f 0%nat)) by (rewrite map_length, seq_length; exact H). rewrite map_nth. rewrite seq_nth by exact H. reflexivity. Qed.

Lemma f_at : forall plus minus r a b l i, vget (f_m_perp_of plus minus r ((a, b), l)) i = Cplus (f_m_perp_col plus minus (combine a b) (mr_col r) i) (f_m_perp_chi l (mr_chi r) i).
Proof. intros. destruct i; reflexivity. Qed.
Lemma c_end : forall a b c : C, Cplus a (Cplus b c) = Cplus (Cplus a b) c.
Proof. intros. ring. Qed.
Lemma c_mid : forall a b c : C, Cplus (Cplus a b) c = Cplus (Cplus a c) b.
Proof. intros. ring. Qed.
Lemma gradient_chi : forall p d j, regular p d -> (j < length (snd d))%nat ->
  is_derive (fun t => ev_c (evaluate p (with_chi d j t))) (nth j (snd d) 0) (nth j (ev_dchi (evaluate p d)) 0).
Proof.
  intros p [[a b] l] j Rg H. cbn [snd] in *. unfold evaluate at 2. cbn [ev_dchi snd]. rewrite nth_map_seq by exact H.
  assert (E : with_chi ((a, b), l) j (nth j l 0) = ((a, b), l)) by (unfold with_chi; cbn [fst snd]; rewrite with_nth_self; reflexivity).
  rewrite <- E in Rg. pose proof (cost_d p (fun t => with_chi ((a, b), l) j t) (nth j l 0) (fun r => nth j (mr_chi r) zero3) Rg) as D. cbv beta in D. rewrite E in D.
  unfold der_c_den. apply D. intros r Hr. apply along_of. intros s i. unfold with_chi. cbn [fst snd]. rewrite !f_at. rewrite (chi_lin l (mr_chi r) j s i H). exact (c_end _ _ _).
Qed.
Lemma sum_scale : forall p d k j, 
  -2 / INR (List.length (pa_refl p)) * asum (map (fun r => diff_value p d r / mr_sigma r * snd (refl_model (pa_asym p) r (f_m_perp_of (pa_plus p) (pa_minus p) r d)) (vscale k (nth j (mr_col r) zero3))) (pa_refl p)) =
  k * der_c_den p d mr_col j.
Proof.
  intros p d k j. unfold der_c_den. set (c := -2 / _). unfold asum. generalize (pa_refl p). intros L.
  assert (Q : fold_right Rplus 0 (map (fun r => diff_value p d r / mr_sigma r * snd (refl_model (pa_asym p) r (f_m_perp_of (pa_plus p) (pa_minus p) r d)) (vscale k (nth j (mr_col r) zero3))) L) =
    k * fold_right Rplus 0 (map (fun r => diff_value p d r / mr_sigma r * snd (refl_model (pa_asym p) r (f_m_perp_of (pa_plus p) (pa_minus p) r d)) (nth j (mr_col r) zero3)) L)).
  { induction L as [|r L IH]; [cbn; ring|]. cbn [map fold_right]. rewrite IH, model_scale. ring. }
  rewrite Q. ring.
Qed.
Lemma gradient_plus : forall p d j, regular p d -> (j < length (fst (fst d)))%nat -> length (fst (fst d)) = length (snd (fst d)) ->
  is_derive (fun t => ev_c (evaluate p (with_plus d j t))) (nth j (fst (fst d)) 0) (nth j (fst (ev_dcol (evaluate p d))) 0).
Proof.
  intros p [[a b] l] j Rg H Len. cbn [fst snd] in *. unfold evaluate at 2. cbn [ev_dcol fst snd]. rewrite map_map, nth_map_seq by exact H.
  assert (E : with_plus ((a, b), l) j (nth j a 0) = ((a, b), l)) by (unfold with_plus; cbn [fst snd]; rewrite with_nth_self; reflexivity).
  rewrite <- E in Rg. pose proof (cost_d p (fun t => with_plus ((a, b), l) j t) (nth j a 0) (fun r => vscale (pa_plus p) (nth j (mr_col r) zero3)) Rg) as D. cbv beta in D. rewrite E in D.
  rewrite sum_scale in D. apply D. intros r Hr. apply along_of. intros s i. unfold with_plus. cbn [fst snd]. rewrite !f_at. rewrite (col_lin1 a b _ _ (mr_col r) j s i H Len). exact (c_mid _ _ _).
Qed.
Lemma gradient_minus : forall p d j, regular p d -> (j < length (snd (fst d)))%nat -> length (fst (fst d)) = length (snd (fst d)) ->
  is_derive (fun t => ev_c (evaluate p (with_minus d j t))) (nth j (snd (fst d)) 0) (nth j (snd (ev_dcol (evaluate p d))) 0).
Proof.
  intros p [[a b] l] j Rg H Len. cbn [fst snd] in *. unfold evaluate at 2. cbn [ev_dcol fst snd]. rewrite map_map, nth_map_seq by (rewrite Len; exact H).
  assert (E : with_minus ((a, b), l) j (nth j b 0) = ((a, b), l)) by (unfold with_minus; cbn [fst snd]; rewrite with_nth_self; reflexivity).
  rewrite <- E in Rg. pose proof (cost_d p (fun t => with_minus ((a, b), l) j t) (nth j b 0) (fun r => vscale (pa_minus p) (nth j (mr_col r) zero3)) Rg) as D. cbv beta in D. rewrite E in D.
  rewrite sum_scale in D. apply D. intros r Hr. apply along_of. intros s i. unfold with_minus. cbn [fst snd]. rewrite !f_at. rewrite (col_lin2 a b _ _ (mr_col r) j s i H Len). exact (c_mid _ _ _).
Qed.
