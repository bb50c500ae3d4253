From Coq Require Import Reals Lra List String Bool.
From Coquelicot Require Import Coquelicot.
From Verif Require Import Spec.Lin3 Model.FlipRatio Spec.Intens Proofs.FlipRatioP Proofs.FlipRatioDerivP.
Open Scope R_scope.

Definition second (s : setup) : arg := mkArg 0 0 (s_fn2 s) (s_fm2 s) (a_axis (s_arg s)) (a_ext (s_arg s)).
Lemma ip_flags f f' a : ip (calc_iint f a) = ip (calc_iint f' a).
Proof. rewrite !ip_form. reflexivity. Qed.
Lemma both_ip f f2 s : ip (both f f2 s) = ip (calc_iint f (s_arg s)) + s_l2 s * ip (calc_iint f (second s)).
Proof. reflexivity. Qed.
Lemma both_im f f2 s : im (both f f2 s) = im (calc_iint f (s_arg s)) + s_l2 s * ip (calc_iint f (second s)).
Proof. reflexivity. Qed.
Definition f2' f2 := mkF false false (fl_fn2 f2) (fl_fm2 f2).
Definition s2 (s : setup) : setup := mkS (second s) 0 (0,0) (mkV (0,0) (0,0) (0,0)).
(* key of the second reflection seen as a key of calc_iint *)
Definition back (k : key) : key :=
  match k with K_fn2_re => K_fn_re | K_fn2_im => K_fn_im | K_fm2_re i => K_fm_re i | K_fm2_im i => K_fm_im i | _ => k end.
Definition of_second (k : key) : bool :=
  match k with K_fn2_re | K_fn2_im | K_fm2_re _ | K_fm2_im _ | K_ext _ => true | _ => false end.
Lemma second_vary s k t : of_second k = true -> s_arg (vary (s2 s) (back k) t) = second (vary s k t).
Proof. destruct s as [[bp fe fn fm ax [[p y dy ks dk]|]] l2 fn2 fm2]; destruct k; cbn; intros H; try discriminate; reflexivity. Qed.
Lemma second_const s k t : of_second k = false -> second (vary s k t) = second s.
Proof. destruct s as [[bp fe fn fm ax e] l2 fn2 fm2]; destruct k; cbn; intros H; try discriminate; reflexivity. Qed.
Lemma second_entry s k : of_second k = true -> entry (s2 s) (back k) = entry s k.
Proof. destruct s as [[bp fe fn fm ax e] l2 fn2 fm2]; destruct k; cbn; intros H; try discriminate; reflexivity. Qed.
Lemma s_l2_vary s k t : s_l2 (vary s k t) = match k with K_lambda2 => t | _ => s_l2 s end.
Proof. destruct s as [[bp fe fn fm ax e] l2 fn2 fm2]; destruct k; reflexivity. Qed.
Lemma first_vary s k t : match k with K_fn2_re | K_fn2_im | K_fm2_re _ | K_fm2_im _ | K_lambda2 => True | _ => False end -> s_arg (vary s k t) = s_arg s.
Proof. destruct s as [[bp fe fn fm ax e] l2 fn2 fm2]; destruct k; cbn; intros H; try contradiction; reflexivity. Qed.
Lemma vary_entry s k : match k with K_ext _ => True | _ => second (vary s k (entry s k)) = second s end.
Proof. destruct s as [[bp fe fn fm ax e] l2 fn2 fm2]; destruct k as [| | | |i|i|n| | |i|i|]; try exact I; try reflexivity; 
  [destruct fn2; reflexivity|destruct fn2; reflexivity| |]; destruct fm2 as [[a b] [c d] [g h]]; destruct i; reflexivity. Qed.

Lemma sum_d (A B L : R -> R) t dA dB dL : is_derive A t dA -> is_derive B t dB -> is_derive L t dL ->
  is_derive (fun t => A t + L t * B t) t (dA + dL * B t + L t * dB).
Proof.
  intros H1 H2 H3. auto_derive. { repeat split; eexists; eauto. }
  replace (Derive (fun x0 => A x0) t) with dA by (symmetry; apply is_derive_unique; exact H1).
  replace (Derive (fun x0 => B x0) t) with dB by (symmetry; apply is_derive_unique; exact H2).
  replace (Derive (fun x0 => L x0) t) with dL by (symmetry; apply is_derive_unique; exact H3). ring.
Qed.
Lemma second_d f f2 s k v : good_ext (a_ext (s_arg s)) -> unit_axis (a_axis (s_arg s)) -> of_second k = true ->
  dp (calc_iint (f2' f2) (second s)) (back k) = Some v ->
  is_derive (fun t => ip (calc_iint f (second (vary s k t)))) (entry s k) v.
Proof.
  intros G U K H. assert (D := iint_dp (f2' f2) (s2 s) G U (back k) v H). rewrite second_entry in D by exact K.
  revert D. apply is_derive_ext. intros t. rewrite second_vary by exact K. apply ip_flags.
Qed.
Lemma const_d (f : R -> R) x : (forall t, f t = f x) -> is_derive f x 0.
Proof. intros H. apply is_derive_ext with (f := fun _ => f x). intros t; symmetry; apply H. apply @is_derive_const. Qed.

(* the combined derivative for a quantity q (= I+ or I-) of the first reflection with dictionary d *)
Lemma merge_d (q : arg -> R) (d : dict) f f2 s k v :
  good_ext (a_ext (s_arg s)) -> unit_axis (a_axis (s_arg s)) ->
  (forall v, d k = Some v -> is_derive (fun t => q (s_arg (vary s k t))) (entry s k) v) ->
  (match k with K_fn2_re | K_fn2_im | K_fm2_re _ | K_fm2_im _ | K_lambda2 => d k = None | K_ext n => (d k = None <-> in_keys (a_ext (s_arg s)) n = false) | _ => True end) ->
  (match k with
     | K_lambda2 => if fl_lambda2 f2 then Some (ip (calc_iint f (second s))) else d k
     | _ => match d k, (if of_second k then dp (calc_iint (f2' f2) (second s)) (back k) else None) with
       | Some a, Some b => Some (a + s_l2 s * b) | Some a, None => Some a | None, Some b => Some (s_l2 s * b) | None, None => None end
   end) = Some v ->
  is_derive (fun t => q (s_arg (vary s k t)) + s_l2 (vary s k t) * ip (calc_iint f (second (vary s k t)))) (entry s k) v.
Proof.
  intros G U HA HN Hv.
  destruct (of_second k) eqn:K.
  - (* depends on the second reflection *)
    assert (L : forall t, s_l2 (vary s k t) = s_l2 s) by (intros; rewrite s_l2_vary; destruct k; reflexivity || discriminate).
    apply is_derive_ext with (f := fun t => q (s_arg (vary s k t)) + s_l2 s * ip (calc_iint f (second (vary s k t)))).
    { intros t. rewrite L. reflexivity. }
    assert (Hv' : match d k, dp (calc_iint (f2' f2) (second s)) (back k) with
       | Some a, Some b => Some (a + s_l2 s * b) | Some a, None => Some a | None, Some b => Some (s_l2 s * b) | None, None => None end = Some v)
      by (destruct k; exact Hv || discriminate). clear Hv.
    destruct (dp (calc_iint (f2' f2) (second s)) (back k)) as [b|] eqn:E2.
    + assert (D2 := second_d f f2 s k b G U K E2).
      destruct (d k) as [a|] eqn:E1.
      * injection Hv' as <-. eapply is_derive_eq; [exact (sum_d _ _ (fun _ => s_l2 s) _ _ _ 0 (HA a eq_refl) D2 ltac:(apply @is_derive_const))|]. cbn beta. ring.
      * injection Hv' as <-.
        assert (C : forall t, s_arg (vary s k t) = s_arg s).
        { intros t. apply first_vary. destruct k; try discriminate K; try exact I. cbn in HN. 
          assert (X := proj1 HN eq_refl). unfold dp, calc_iint in E2. cbn in E2. rewrite X in E2. discriminate. }
        eapply is_derive_eq; [exact (sum_d (fun t => q (s_arg (vary s k t))) _ (fun _ => s_l2 s) _ 0 _ 0 (const_d (fun t => q (s_arg (vary s k t))) _ ltac:(intros; cbn beta; rewrite !C; reflexivity)) D2 ltac:(apply @is_derive_const))|]. cbn beta. ring.
    + destruct (d k) as [a|] eqn:E1; [|discriminate]. exfalso.
      destruct k; try discriminate K; try discriminate HN.
      cbn in HN. unfold dp, calc_iint in E2. cbn in E2. destruct (in_keys (a_ext (s_arg s)) s0); [discriminate E2|]. assert (X := proj2 HN eq_refl). discriminate.
  - apply is_derive_ext with (f := fun t => q (s_arg (vary s k t)) + s_l2 (vary s k t) * ip (calc_iint f (second s))).
    { intros t. rewrite second_const by exact K. reflexivity. }
    destruct k; try discriminate K.
    all: try (destruct (d _) as [a|] eqn:E1; [|discriminate Hv]; injection Hv as <-;
      eapply is_derive_eq; [apply (sum_d _ (fun _ => ip (calc_iint f (second s))) (fun t => s_l2 (vary s _ t)) _ _ 0 0 (HA a eq_refl)); [apply @is_derive_const|apply const_d; intros; rewrite !s_l2_vary; reflexivity]|cbn beta; ring]).
    (* lambda/2 *)
    rewrite HN in Hv. destruct (fl_lambda2 f2); [|discriminate]. assert (Ev : v = ip (calc_iint f (second s))) by congruence. rewrite Ev. clear Ev Hv.
    eapply is_derive_eq; [apply (sum_d (fun t => q (s_arg (vary s K_lambda2 t))) (fun _ => ip (calc_iint f (second s))) (fun t => s_l2 (vary s K_lambda2 t)) _ 0 0 1)|cbn beta; ring].
    + apply const_d; intros; rewrite !first_vary by exact I; reflexivity.
    + apply @is_derive_const.
    + apply is_derive_ext with (f := fun t => t). intros; rewrite s_l2_vary; reflexivity. apply @is_derive_id.
Qed.
Lemma both_dp_form f f2 s k : dp (both f f2 s) k =
  match k with
     | K_lambda2 => if fl_lambda2 f2 then Some (ip (calc_iint f (second s))) else dp (calc_iint f (s_arg s)) k
     | _ => match dp (calc_iint f (s_arg s)) k, (if of_second k then dp (calc_iint (f2' f2) (second s)) (back k) else None) with
       | Some a, Some b => Some (a + s_l2 s * b) | Some a, None => Some a | None, Some b => Some (s_l2 s * b) | None, None => None end
  end.
Proof.
  unfold both, calc_intensities_by_structure_factors.
  change (calc_iint (f2' f2) (second s)) with (calc_iint {| fl_bp := false; fl_fe := false; fl_fn := fl_fn2 f2; fl_fm := fl_fm2 f2 |} {| a_bp := 0; a_fe := 0; a_fn := s_fn2 s; a_fm := s_fm2 s; a_axis := a_axis (s_arg s); a_ext := a_ext (s_arg s) |}).
  destruct k as [| | | |i|i|n| | |i|i|]; cbn -[calc_iint].
  all: unfold dp, calc_iint; cbn.
  all: try (destruct (fl_fn2 f2)); try (destruct (fl_fm2 f2)); try (destruct (fl_lambda2 f2)); try destruct i; reflexivity.
Qed.
Lemma both_dm_form f f2 s k : dm (both f f2 s) k =
  match k with
     | K_lambda2 => if fl_lambda2 f2 then Some (ip (calc_iint f (second s))) else dm (calc_iint f (s_arg s)) k
     | _ => match dm (calc_iint f (s_arg s)) k, (if of_second k then dp (calc_iint (f2' f2) (second s)) (back k) else None) with
       | Some a, Some b => Some (a + s_l2 s * b) | Some a, None => Some a | None, Some b => Some (s_l2 s * b) | None, None => None end
  end.
Proof.
  unfold both, calc_intensities_by_structure_factors.
  change (calc_iint (f2' f2) (second s)) with (calc_iint {| fl_bp := false; fl_fe := false; fl_fn := fl_fn2 f2; fl_fm := fl_fm2 f2 |} {| a_bp := 0; a_fe := 0; a_fn := s_fn2 s; a_fm := s_fm2 s; a_axis := a_axis (s_arg s); a_ext := a_ext (s_arg s) |}).
  destruct k as [| | | |i|i|n| | |i|i|]; cbn -[calc_iint].
  all: unfold dm, dp, calc_iint; cbn.
  all: try (destruct (fl_fn2 f2)); try (destruct (fl_fm2 f2)); try (destruct (fl_lambda2 f2)); try destruct i; reflexivity.
Qed.
Lemma none_iff b (x : R) : given b x = None <-> b = false.
Proof. destruct b; cbn; split; congruence. Qed.
Lemma both_d f f2 s : good_ext (a_ext (s_arg s)) -> unit_axis (a_axis (s_arg s)) ->
  right_dder (fun s => ip (both f f2 s)) s (dp (both f f2 s)) /\ right_dder (fun s => im (both f f2 s)) s (dm (both f f2 s)).
Proof.
  intros G U. split; intros k v Hv.
  - apply (merge_d (fun a => ip (calc_iint f a)) (dp (calc_iint f (s_arg s))) f f2 s k v G U).
    + intros w Hw. exact (iint_dp f s G U k w Hw).
    + destruct k; try reflexivity; try exact I. apply none_iff.
    + rewrite <- Hv. symmetry. apply both_dp_form.
  - apply (merge_d (fun a => im (calc_iint f a)) (dm (calc_iint f (s_arg s))) f f2 s k v G U).
    + intros w Hw. exact (iint_dm f s G U k w Hw).
    + destruct k; try reflexivity; try exact I. apply none_iff.
    + rewrite <- Hv. symmetry. apply both_dm_form.
Qed.
(* dictionaries have the same keys, except the flipper efficiency *)
Lemma K_fe_dec (k : key) : k = K_fe \/ k <> K_fe.
Proof. destruct k; (left; reflexivity) || (right; discriminate). Qed.
Lemma same_keys f f2 s k : k <> K_fe -> (dp (both f f2 s) k = None <-> dm (both f f2 s) k = None).
Proof.
  intros K. rewrite both_dp_form, both_dm_form.
  assert (X : dp (calc_iint f (s_arg s)) k = None <-> dm (calc_iint f (s_arg s)) k = None).
  { unfold dp, dm, calc_iint. destruct k as [| | | |i|i|n| | |i|i|]; try tauto; try (destruct i); rewrite ?none_iff; tauto. }
  destruct (dp (calc_iint f (s_arg s)) k); destruct (dm (calc_iint f (s_arg s)) k);
  destruct (if of_second k then dp (calc_iint (f2' f2) (second s)) (back k) else None); destruct (fl_lambda2 f2); destruct k; 
  split; intros H; try discriminate H; try reflexivity; try (apply X in H; discriminate); try tauto;
  try (destruct X as [X1 X2]; (discriminate (X1 eq_refl) || discriminate (X2 eq_refl))).
Qed.
Lemma fe_none f f2 s : dp (both f f2 s) K_fe = None.
Proof. rewrite both_dp_form. reflexivity. Qed.
Lemma fe_const f f2 s t t' : ip (both f f2 (vary s K_fe t)) = ip (both f f2 (vary s K_fe t')).
Proof. destruct s as [[bp fe fn fm ax e] l2 fn2 fm2]. reflexivity. Qed.
Lemma ratio_form f f2 s : fst (ratio f f2 s) = ip (both f f2 s) / im (both f f2 s).
Proof. unfold ratio, calc_flip_ratio_by_structure_factors. fold (both f f2 s). destruct (both f f2 s) as [[[? ?] ?] ?]. reflexivity. Qed.
Lemma ratio_dform f f2 s k : snd (ratio f f2 s) k =
  let r := ip (both f f2 s) / im (both f f2 s) in let i := im (both f f2 s) in
  match dp (both f f2 s) k, dm (both f f2 s) k with
            | Some t_1, Some t_2 => Some (t_1 / i - r * t_2 / i)
            | Some t_1, None => Some (t_1 / i)
            | None, Some t_2 => Some (- r * t_2 / i)
            | None, None => None
  end.
Proof. unfold ratio, calc_flip_ratio_by_structure_factors. fold (both f f2 s). destruct (both f f2 s) as [[[? ?] ?] ?]. reflexivity. Qed.
Lemma quot_d (A B : R -> R) t dA dB : is_derive A t dA -> is_derive B t dB -> B t <> 0 ->
  is_derive (fun t => A t / B t) t (dA / B t - A t / B t * dB / B t).
Proof.
  intros H1 H2 H3. auto_derive. { repeat split; try (eexists; eauto). exact H3. }
  replace (Derive (fun x0 => A x0) t) with dA by (symmetry; apply is_derive_unique; exact H1).
  replace (Derive (fun x0 => B x0) t) with dB by (symmetry; apply is_derive_unique; exact H2). field. exact H3.
Qed.
Lemma fun_vary_entry s k : (match k with K_ext n => a_ext (s_arg s) <> None -> False | _ => True end) -> vary s k (entry s k) = s.
Proof.
  destruct s as [[bp fe [fnr fni] [[mxr mxi] [myr myi] [mzr mzi]] [a b c] e] l2 [? ?] [[? ?] [? ?] [? ?]]].
  destruct k as [| | | |i|i|n| | |i|i|]; try reflexivity; try (destruct i; reflexivity). cbn. intros H. destruct e; [exfalso; apply H; congruence|reflexivity].
Qed.
(* values at the point itself, by extensionality of the extinction parameters *)
Lemma upd_same p n : upd p n (p n) = p.
Proof. apply FunctionalExtensionality.functional_extensionality. intros x. unfold upd. destruct (String.eqb x n) eqn:E; [apply String.eqb_eq in E; subst; reflexivity|reflexivity]. Qed.
Lemma vary_same s k : vary s k (entry s k) = s.
Proof.
  destruct k as [| | | |i|i|n| | |i|i|]; try (apply fun_vary_entry; exact I).
  destruct s as [[bp fe fn fm ax [[p y dy ks dk]|]] l2 fn2 fm2]; cbn; [rewrite upd_same|]; reflexivity.
Qed.
Lemma ratio_d f f2 s : good_ext (a_ext (s_arg s)) -> unit_axis (a_axis (s_arg s)) -> im (both f f2 s) <> 0 ->
  right_dder (fun s => fst (ratio f f2 s)) s (snd (ratio f f2 s)).
Proof.
  intros G U N k v Hv. destruct (both_d f f2 s G U) as [DP DM]. rewrite ratio_dform in Hv. cbn zeta in Hv.
  apply is_derive_ext with (f := fun t => ip (both f f2 (vary s k t)) / im (both f f2 (vary s k t))).
  { intros t. symmetry. apply ratio_form. }
  assert (V := vary_same s k).
  destruct (dp (both f f2 s) k) as [a|] eqn:E1; destruct (dm (both f f2 s) k) as [b|] eqn:E2; try discriminate Hv.
  - assert (Ev : v = a / im (both f f2 s) - ip (both f f2 s) / im (both f f2 s) * b / im (both f f2 s)) by congruence. rewrite Ev.
    assert (Q := quot_d (fun t => ip (both f f2 (vary s k t))) (fun t => im (both f f2 (vary s k t))) _ _ _ (DP k a E1) (DM k b E2)).
    cbn beta in Q. rewrite V in Q. exact (Q N).
  - exfalso. destruct (K_fe_dec k) as [->|K]; [rewrite fe_none in E1; discriminate|]. apply (same_keys f f2 s k K) in E2. congruence.
  - assert (K : k = K_fe). { destruct (K_fe_dec k) as [K|K]; [exact K|]. apply (same_keys f f2 s k K) in E1. congruence. }
    subst k. assert (Ev : v = - (ip (both f f2 s) / im (both f f2 s)) * b / im (both f f2 s)) by congruence. rewrite Ev.
    assert (Q := quot_d (fun t => ip (both f f2 (vary s K_fe t))) (fun t => im (both f f2 (vary s K_fe t))) _ 0 _ (const_d (fun t => ip (both f f2 (vary s K_fe t))) _ (fun t => fe_const f f2 s t _)) (DM K_fe b E2)).
    cbn beta in Q. rewrite V in Q. eapply is_derive_eq; [exact (Q N)|]. field. exact N.
Qed.
(* without contamination *)
Lemma same_keys0 f a k : k <> K_fe -> (dp (calc_iint f a) k = None <-> dm (calc_iint f a) k = None).
Proof. intros K. unfold dp, dm, calc_iint. destruct k as [| | | |i|i|n| | |i|i|]; try tauto; try (destruct i); rewrite ?none_iff; tauto. Qed.
Lemma ratio0_d f f2 s : good_ext (a_ext (s_arg s)) -> unit_axis (a_axis (s_arg s)) -> im (calc_iint f (s_arg s)) <> 0 ->
  right_dder (fun s => fst (ratio0 f f2 s)) s (snd (ratio0 f f2 s)).
Proof.
  intros G U N k v Hv. assert (DP := iint_dp f s G U). assert (DM := iint_dm f s G U).
  set (P := fun s => ip (calc_iint f (s_arg s))) in *. set (M := fun s => im (calc_iint f (s_arg s))) in *.
  change (match dp (calc_iint f (s_arg s)) k, dm (calc_iint f (s_arg s)) k with
            | Some t_1, Some t_2 => Some (t_1 / M s - P s / M s * t_2 / M s)
            | Some t_1, None => Some (t_1 / M s)
            | None, Some t_2 => Some (- (P s / M s) * t_2 / M s)
            | None, None => None end = Some v) in Hv.
  change (is_derive (fun t => P (vary s k t) / M (vary s k t)) (entry s k) v). change (M s <> 0) in N.
  assert (V := vary_same s k).
  destruct (dp (calc_iint f (s_arg s)) k) as [a|] eqn:E1; destruct (dm (calc_iint f (s_arg s)) k) as [b|] eqn:E2; try discriminate Hv.
  - assert (Ev : v = a / M s - P s / M s * b / M s) by congruence. rewrite Ev.
    assert (Q := quot_d (fun t => P (vary s k t)) (fun t => M (vary s k t)) _ _ _ (DP k a E1) (DM k b E2)).
    cbn beta in Q. rewrite V in Q. exact (Q N).
  - exfalso. destruct (K_fe_dec k) as [->|K]; [discriminate|]. apply (same_keys0 f _ k K) in E2. congruence.
  - assert (K : k = K_fe). { destruct (K_fe_dec k) as [K|K]; [exact K|]. apply (same_keys0 f _ k K) in E1. congruence. }
    subst k. assert (Ev : v = - (P s / M s) * b / M s) by congruence. rewrite Ev.
    assert (C : forall t t', P (vary s K_fe t) = P (vary s K_fe t')) by (destruct s as [[? ? ? ? ? ?] ? ? ?]; reflexivity).
    assert (Q := quot_d (fun t => P (vary s K_fe t)) (fun t => M (vary s K_fe t)) _ 0 _ (const_d (fun t => P (vary s K_fe t)) _ (fun t => C t _)) (DM K_fe b E2)).
    cbn beta in Q. rewrite V in Q. eapply is_derive_eq; [exact (Q N)|]. field. exact N.
Qed.
Lemma requested f a : (fl_bp f = true -> dp (calc_iint f a) K_bp <> None /\ dm (calc_iint f a) K_bp <> None) /\
  (fl_fe f = true -> dm (calc_iint f a) K_fe <> None) /\
  (fl_fn f = true -> forall k, In k (K_fn_re :: K_fn_im :: nil) -> dp (calc_iint f a) k <> None /\ dm (calc_iint f a) k <> None) /\
  (fl_fm f = true -> forall i, dp (calc_iint f a) (K_fm_re i) <> None /\ dm (calc_iint f a) (K_fm_re i) <> None /\
     dp (calc_iint f a) (K_fm_im i) <> None /\ dm (calc_iint f a) (K_fm_im i) <> None).
Proof.
  unfold dp, dm, calc_iint. split; [|split; [|split]]; intros H; rewrite H.
  - split; discriminate.
  - discriminate.
  - intros k [<-|[<-|[]]]; split; discriminate.
  - intros []; repeat split; discriminate.
Qed.
(** the two by-intensity functions *)
Lemma fr_d p m l j : m + l * j <> 0 -> let d := snd (calc_flip_ratio_by_iint p m (Some (l, j))) in
  is_derive (fun t => fst (calc_flip_ratio_by_iint t m (Some (l, j)))) p (d_plus d) /\
  is_derive (fun t => fst (calc_flip_ratio_by_iint p t (Some (l, j)))) m (d_minus d) /\
  is_derive (fun t => fst (calc_flip_ratio_by_iint p m (Some (t, j)))) l (d_lambda2 d) /\
  is_derive (fun t => fst (calc_flip_ratio_by_iint p m (Some (l, t)))) j (d_2hkl d).
Proof.
  intros H. unfold calc_flip_ratio_by_iint. cbn. split; [|split; [|split]]; auto_derive; try exact H; try exact I; try (field; exact H).
Qed.
Lemma fr_d0 p m : m <> 0 -> let d := snd (calc_flip_ratio_by_iint p m None) in
  is_derive (fun t => fst (calc_flip_ratio_by_iint t m None)) p (d_plus d) /\
  is_derive (fun t => fst (calc_flip_ratio_by_iint p t None)) m (d_minus d).
Proof.
  intros H. assert (H' : m + 0 <> 0) by lra. unfold calc_flip_ratio_by_iint. cbn. split; auto_derive; try exact H'; try exact I; try (field; (exact H' || exact H)).
Qed.
Lemma as_d p m l j : p + m + 2 * l * j <> 0 -> let d := snd (calc_asymmetry_by_iint p m (Some (l, j))) in
  is_derive (fun t => fst (calc_asymmetry_by_iint t m (Some (l, j)))) p (d_plus d) /\
  is_derive (fun t => fst (calc_asymmetry_by_iint p t (Some (l, j)))) m (d_minus d) /\
  is_derive (fun t => fst (calc_asymmetry_by_iint p m (Some (t, j)))) l (d_lambda2 d) /\
  is_derive (fun t => fst (calc_asymmetry_by_iint p m (Some (l, t)))) j (d_2hkl d).
Proof.
  intros H. unfold calc_asymmetry_by_iint, Rsqr. cbn. split; [|split; [|split]]; auto_derive; try exact H; try exact I; try (field; exact H).
Qed.
Lemma as_d0 p m : p + m <> 0 -> let d := snd (calc_asymmetry_by_iint p m None) in
  is_derive (fun t => fst (calc_asymmetry_by_iint t m None)) p (d_plus d) /\
  is_derive (fun t => fst (calc_asymmetry_by_iint p t None)) m (d_minus d).
Proof.
  intros H. assert (H' : p + m + 0 <> 0) by lra. unfold calc_asymmetry_by_iint, Rsqr. cbn. split; auto_derive; try exact H'; try exact I; try (field; (exact H' || exact H)).
Qed.
