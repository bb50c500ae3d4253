Require Import Reals Lra Lia List Bool Arith.
From Coquelicot Require Import Hierarchy Derive.
From Verif.Spec Require Import ChiSquare.
From Verif.Model Require Import ChiSq.
Import ListNotations.
Local Open Scope list_scope.
Local Open Scope R_scope.

Lemma same_excl : forall l m, same_profile l m -> map excl l = map excl m.
Proof. intros l m H; induction H as [|p q l m [E _] _ IH]; simpl; auto. f_equal; auto. Qed.

Lemma same_length : forall l m, same_profile l m -> length l = length m.
Proof. intros l m H; induction H; simpl; auto. Qed.

(* ---- 1D, sum only ---- *)
Lemma sig_pos : forall p, 0 < sig_up p -> 0 <= sig_dn p -> 0 < Rsqr (sig_up p) + Rsqr (sig_dn p).
Proof. intros p H1 H2. pose proof (Rsqr_pos_lt (sig_up p) ltac:(lra)). pose proof (Rle_0_sqr (sig_dn p)). lra. Qed.

Lemma good_present : forall p, good p -> present p = true.
Proof. intros p [[u [d [E1 E2]]] _]. unfold present. rewrite E1, E2. auto. Qed.


Definition sigma_ok (p : point) : Prop := sqrt (Rsqr (sig_up p) + Rsqr (sig_dn p)) <> 0.

Lemma masked : forall p, excl p = true -> present p = true -> sigma_ok p ->
  mul_bool (sum_term p) (negb (excl p)) = Fin 0.
Proof.
  intros p E P S. rewrite E. unfold sum_term, present in *.
  destruct (exp_up p); [|discriminate]. destruct (exp_dn p); [|discriminate].
  unfold sq_ratio. destruct (Req_EM_T _ 0); [contradiction|]. reflexivity.
Qed.

Lemma pd_sum_invariant : forall l m, same_profile l m ->
  (forall p, In p (l ++ m) -> excl p = true -> good p) ->
  chi_sq_pd true false l = chi_sq_pd true false m.
Proof.
  intros l m H Hs0. unfold chi_sq_pd.
  assert (Hs : forall p, In p (l ++ m) -> excl p = true -> present p = true /\ sigma_ok p).
  { intros p Hp He. specialize (Hs0 p Hp He). split; [apply good_present; auto|].
    destruct Hs0 as [_ [G1 G2]]. unfold sigma_ok. pose proof (sqrt_lt_R0 _ (sig_pos p G1 G2)). lra. }
  clear Hs0.
  assert (E : map (fun p => mul_bool (sum_term p) (negb (excl p))) l =
              map (fun p => mul_bool (sum_term p) (negb (excl p))) m).
  { induction H as [|p q l m Hpq H IH]; simpl; auto. f_equal.
    - destruct Hpq as [E1 [_ [_ [_ E5]]]]. destruct (excl p) eqn:Ep.
      + assert (Hp := Hs p). assert (Hq := Hs q).
        destruct Hp as [P1 P2]; [apply in_or_app; left; simpl; auto|auto|].
        destruct Hq as [Q1 Q2]; [apply in_or_app; right; simpl; auto|auto|].
        pose proof (masked p Ep P1 P2) as M1. rewrite Ep in M1.
        pose proof (masked q (eq_sym E1) Q1 Q2) as M2. congruence.
      + rewrite (E5 eq_refl). rewrite <- (E5 eq_refl), Ep. reflexivity.
    - apply IH. intros x Hx. apply Hs. apply in_app_or in Hx. apply in_or_app. simpl. tauto. }
  rewrite E. rewrite <- (map_map excl negb l), <- (map_map excl negb m), (same_excl l m H). reflexivity.
Qed.

Lemma finite_sum : forall (A : Type) (f : A -> num) (g : A -> R) l,
  (forall p, In p l -> f p = Fin (g p)) -> sum_num (map f l) = Fin (sum_of (map g l)).
Proof.
  induction l as [|p l IH]; intros H; [reflexivity|]. simpl map.
  change (sum_num (f p :: map f l)) with (add_num (f p) (sum_num (map f l))).
  rewrite H by (simpl; auto). rewrite IH by (intros; apply H; simpl; auto). reflexivity.
Qed.

Lemma sq_ratio_val : forall d s, 0 < s -> sq_ratio d (sqrt s) = Fin (d ^ 2 / s).
Proof.
  intros d s Hs. unfold sq_ratio. pose proof (sqrt_lt_R0 s Hs).
  destruct (Req_EM_T (sqrt s) 0); [lra|]. f_equal.
  replace s with (sqrt s * sqrt s) at 3 by (apply sqrt_sqrt; lra). field. lra.
Qed.

Lemma sum_term_val : forall p, present p = true -> 0 < sig_up p -> 0 <= sig_dn p -> sum_term p = Fin (sum_sq p).
Proof.
  intros p P H1 H2. unfold sum_term, present, sum_sq, measured in *.
  destruct (exp_up p); [|discriminate]. destruct (exp_dn p); [|discriminate].
  rewrite sq_ratio_val by (apply sig_pos; auto). f_equal. unfold Rsqr. f_equal. ring.
Qed.
Lemma diff_term_val : forall p, present p = true -> 0 < sig_up p -> 0 <= sig_dn p -> diff_term p = Fin (diff_sq p).
Proof.
  intros p P H1 H2. unfold diff_term, present, diff_sq, measured in *.
  destruct (exp_up p); [|discriminate]. destruct (exp_dn p); [|discriminate].
  rewrite sq_ratio_val by (apply sig_pos; auto). f_equal. unfold Rsqr. f_equal. ring.
Qed.

Lemma sum_masked : forall l, sum_of (map (fun p => if excl p then 0 else sum_sq p) l) = sum_of (map sum_sq (kept l)).
Proof.
  induction l as [|p l IH]; simpl; auto. unfold kept in *. simpl. destruct (excl p); simpl; rewrite IH; [ring|reflexivity].
Qed.
Lemma count_kept : forall l, count_true (map (fun p => negb (excl p)) l) = length (kept l).
Proof. unfold count_true, kept. induction l as [|p l IH]; simpl; auto. destruct (excl p); simpl; auto. Qed.

Lemma pd_value : forall l, (forall p, In p l -> good p) ->
  chi_sq_pd true false l = (Fin (sum_of (map sum_sq (kept l))), length (kept l)).
Proof.
  intros l H. unfold chi_sq_pd. rewrite count_kept, Nat.add_0_r.
  rewrite (finite_sum _ _ (fun p => if excl p then 0 else sum_sq p)).
  - rewrite sum_masked. simpl. rewrite Rplus_0_r. reflexivity.
  - intros p Hp. destruct (H p Hp) as [G1 [G2 G3]]. rewrite sum_term_val; auto using good_present.
    destruct (excl p); reflexivity.
Qed.

Lemma pd_value_diff : forall l, (forall p, In p l -> good p) ->
  chi_sq_pd true true l = (Fin (sum_of (map sum_sq (kept l)) + sum_of (map diff_sq l)), (length (kept l) + length l)%nat).
Proof.
  intros l H. unfold chi_sq_pd. rewrite count_kept.
  rewrite (finite_sum _ _ (fun p => if excl p then 0 else sum_sq p)).
  - rewrite (finite_sum _ _ diff_sq).
    + rewrite sum_masked. reflexivity.
    + intros p Hp. destruct (H p Hp) as [G1 [G2 G3]]. apply diff_term_val; auto using good_present.
  - intros p Hp. destruct (H p Hp) as [G1 [G2 G3]]. rewrite sum_term_val; auto using good_present.
    destruct (excl p); reflexivity.
Qed.

Definition pt (u d s : R) (e : bool) : point := mkPt (Some u) s (Some d) s 0 0 0 e.

Lemma pt_good : forall u d s e, 0 < s -> good (pt u d s e).
Proof. intros; split; [exists u, d; auto|]. simpl. lra. Qed.

Lemma pd_difference_bad : exists l m, same_profile l m /\ (forall p, In p (l ++ m) -> good p) /\
  (exists p, In p l /\ excl p = false) /\
  fst (chi_sq_pd true true l) <> fst (chi_sq_pd true true m) /\
  (length (kept l) < snd (chi_sq_pd false true l))%nat.
Proof.
  exists [pt 0 0 1 false; pt 0 0 1 true], [pt 0 0 1 false; pt 1 0 1 true].
  split. { constructor; [|constructor; [|constructor]]; repeat split; simpl; auto; discriminate. }
  split. { intros p Hp; simpl in Hp. intuition (subst; apply pt_good; lra). }
  split. { exists (pt 0 0 1 false). simpl; auto. }
  split.
  - rewrite !pd_value_diff by (intros p Hp; simpl in Hp; intuition (subst; apply pt_good; lra)).
    simpl fst. intros E. injection E as E. unfold sum_of, kept, sum_sq, diff_sq, measured in E. simpl in E. lra.
  - simpl. lia.
Qed.

(* an excluded point without error bar *)
Lemma pd_zero_sigma_bad : exists l m, same_profile l m /\
  (forall p, In p (l ++ m) -> excl p = false -> good p) /\
  fst (chi_sq_pd true false l) = Fin 0 /\ fst (chi_sq_pd true false m) = Fin (10 ^ 30).
Proof.
  exists [pt 0 0 1 false; pt 0 0 1 true], [pt 0 0 1 false; pt 0 0 0 true].
  split. { constructor; [|constructor; [|constructor]]; repeat split; simpl; auto; discriminate. }
  split. { intros p Hp E; simpl in Hp. intuition (subst; try discriminate; apply pt_good; lra). }
  split.
  - rewrite pd_value by (intros p Hp; simpl in Hp; intuition (subst; apply pt_good; lra)).
    simpl. f_equal. unfold sum_of, sum_sq, measured. simpl. lra.
  - unfold chi_sq_pd. simpl map. unfold sum_num. simpl fold_right.
    assert (E : mul_bool (sum_term (pt 0 0 0 true)) false = NaN).
    { unfold sum_term, pt. simpl. unfold Rsqr. replace (0 * 0 + 0 * 0) with 0 by ring. rewrite sqrt_0.
      unfold sq_ratio. destruct (Req_EM_T 0 0); [|congruence].
      destruct (Req_EM_T _ 0) as [_|N]; [reflexivity|exfalso; apply N; ring]. }
    rewrite E. destruct (mul_bool (sum_term (pt 0 0 1 false)) true); reflexivity.
Qed.

(* ---- 2D ---- *)
Lemma pd2d_sum_invariant : forall l m, same_profile l m -> chi_sq_pd2d true false l = chi_sq_pd2d true false m.
Proof.
  intros l m H. unfold chi_sq_pd2d.
  assert (E : filter (fun p => negb (excl p) && present p) l = filter (fun p => negb (excl p) && present p) m).
  { induction H as [|p q l m [E1 [_ [_ [_ E5]]]] H IH]; simpl; auto. destruct (excl p) eqn:Ep.
    - rewrite <- E1. simpl. auto.
    - rewrite <- (E5 eq_refl), Ep, IH. reflexivity. }
  rewrite E. reflexivity.
Qed.

Lemma pd2d_value : forall l, (forall p, In p l -> excl p = false -> present p = true -> good p) ->
  chi_sq_pd2d true false l =
  (Fin (sum_of (map sum_sq (filter present (kept l)))), length (filter present (kept l))).
Proof.
  intros l H. unfold chi_sq_pd2d.
  assert (E : filter (fun p => negb (excl p) && present p) l = filter present (kept l)).
  { clear H. unfold kept. induction l as [|p l IH]; simpl; auto. destruct (excl p); simpl; auto.
    destruct (present p); rewrite IH; reflexivity. }
  rewrite E. rewrite (finite_sum _ _ sum_sq).
  - simpl. rewrite Rplus_0_r, Nat.add_0_r. reflexivity.
  - intros p Hp. apply filter_In in Hp. destruct Hp as [Hp P]. apply filter_In in Hp. destruct Hp as [Hp X].
    destruct (H p Hp) as [_ [G2 G3]]; auto. { destruct (excl p); auto; discriminate. }
    apply sum_term_val; auto.
Qed.

Lemma pd2d_difference_bad : exists l m, same_profile l m /\ (forall p, In p (l ++ m) -> good p) /\
  fst (chi_sq_pd2d true true l) <> fst (chi_sq_pd2d true true m).
Proof.
  exists [pt 0 0 1 false; pt 0 0 1 true], [pt 0 0 1 false; pt 1 0 1 true].
  split. { constructor; [|constructor; [|constructor]]; repeat split; simpl; auto; discriminate. }
  split. { intros p Hp; simpl in Hp. intuition (subst; apply pt_good; lra). }
  unfold chi_sq_pd2d. simpl filter.
  rewrite !(finite_sum _ _ sum_sq) by (intros p Hp; simpl in Hp; intuition (subst; apply sum_term_val; simpl; auto; lra)).
  rewrite !(finite_sum _ _ diff_sq) by (intros p Hp; simpl in Hp; intuition (subst; apply diff_term_val; simpl; auto; lra)).
  simpl. intros E. injection E as E. unfold sum_of, sum_sq, diff_sq, measured in E. simpl in E. lra.
Qed.

(* ---- single crystal ---- *)
Lemma diffrn_invariant : forall l m, Forall2 same_refl l m -> chi_sq_diffrn l = chi_sq_diffrn m.
Proof.
  intros l m H. unfold chi_sq_diffrn.
  assert (E : filter (fun p => negb (r_excl p)) l = filter (fun p => negb (r_excl p)) m).
  { induction H as [|p q l m [E1 E5] H IH]; simpl; auto. destruct (r_excl p) eqn:Ep.
    - rewrite <- E1. simpl. auto.
    - rewrite <- (E5 eq_refl), Ep, IH. reflexivity. }
  rewrite E. reflexivity.
Qed.

Lemma diffrn_value : forall l, (forall r, In r (keptr l) -> r_sig r <> 0) ->
  chi_sq_diffrn l = (Fin (sum_of (map (fun r => ((r_exp r - r_mod r) / r_sig r) ^ 2) (keptr l))), length (keptr l)).
Proof.
  intros l H. unfold chi_sq_diffrn. fold (keptr l).
  rewrite (finite_sum _ _ (fun r => ((r_exp r - r_mod r) / r_sig r) ^ 2)); auto.
  intros r Hr. unfold sq_ratio. destruct (Req_EM_T (r_sig r) 0) as [E|E]; [destruct (H r Hr E)|].
  f_equal. ring.
Qed.

(* the gradient, when nothing is excluded *)
Lemma map_seq_nth : forall (A : Type) (f : A -> R) l d,
  map (fun i => f (nth i l d)) (seq 0 (length l)) = map f l.
Proof.
  intros A f l d. apply (nth_ext _ _ (f d) (f d)).
  - rewrite !map_length, seq_length. auto.
  - intros i Hi. rewrite map_length, seq_length in Hi.
    rewrite (map_nth f). rewrite (nth_indep _ (f d) ((fun i => f (nth i l d)) 0%nat)) by (rewrite map_length, seq_length; auto).
    rewrite (map_nth (fun i => f (nth i l d))). rewrite seq_nth by auto. reflexivity.
Qed.

Lemma der_all : forall l j, (forall r, In r l -> r_excl r = false) ->
  der_chi_sq_diffrn l j =
  Some (sum_of (map (fun r => -2 * ((r_exp r - r_mod r) / (r_sig r) ^ 2) * nth j (r_der r) 0) l)).
Proof.
  intros l j H. unfold der_chi_sq_diffrn.
  assert (E : filter (fun r => negb (r_excl r)) l = l).
  { induction l as [|a l IH]; simpl; auto. rewrite (H a) by (simpl; auto). simpl. f_equal.
    apply IH. intros; apply H; simpl; auto. }
  rewrite E. rewrite !map_length. unfold bcast. rewrite Nat.eqb_refl. simpl orb. cbv iota.
  f_equal.
  set (F := fun r => (r_exp r - r_mod r) * (1 / Rsqr (r_sig r))).
  set (G := fun r => nth j (r_der r) 0).
  assert (N : (if (length l =? 1)%nat then length l else length l) = length l) by (destruct (length l =? 1)%nat; auto).
  rewrite N.
  set (d0 := mkRefl 0 0 0 false []).
  assert (M : map (fun i => pick (map F l) (length l) i 0 * pick (map G l) (length l) i 0) (seq 0 (length l))
            = map (fun i => (fun r => F r * G r) (nth i l d0)) (seq 0 (length l))).
  { apply map_ext_in. intros i Hi. apply in_seq in Hi. unfold pick.
    assert (I : (if (length l =? 1)%nat then 0%nat else i) = i).
    { destruct (length l =? 1)%nat eqn:El; auto. apply Nat.eqb_eq in El. lia. }
    rewrite I. rewrite (nth_indep (map F l) 0 (F d0)), (nth_indep (map G l) 0 (G d0)) by (rewrite map_length; lia).
    rewrite !map_nth. reflexivity. }
  pose proof (map_seq_nth refl (fun r => F r * G r) l d0) as Q. rewrite M, Q.
  clear. induction l as [|a l IH]; simpl; [ring|]. rewrite Rmult_plus_distr_l, IH. f_equal.
  unfold F, G, Rsqr, Rdiv. simpl. rewrite Rmult_1_r. ring.
Qed.

Lemma dder_all : forall l j k, (forall r, In r l -> r_excl r = false) ->
  dder_chi_sq_diffrn l j k =
  Some (sum_of (map (fun r => 2 / (r_sig r) ^ 2 * (nth j (r_der r) 0 * nth k (r_der r) 0)) l)).
Proof.
  intros l j k H. unfold dder_chi_sq_diffrn.
  assert (E : filter (fun r => negb (r_excl r)) l = l).
  { induction l as [|a l IH]; simpl; auto. rewrite (H a) by (simpl; auto). simpl. f_equal.
    apply IH. intros; apply H; simpl; auto. }
  rewrite E. rewrite !map_length. unfold bcast. rewrite Nat.eqb_refl. simpl orb. cbv iota.
  f_equal.
  set (F := fun r => 1 / Rsqr (r_sig r)).
  set (G := fun r => nth j (r_der r) 0 * nth k (r_der r) 0).
  assert (N : (if (length l =? 1)%nat then length l else length l) = length l) by (destruct (length l =? 1)%nat; auto).
  rewrite N.
  set (d0 := mkRefl 0 0 0 false []).
  assert (M : map (fun i => pick (map F l) (length l) i 0 * pick (map G l) (length l) i 0) (seq 0 (length l))
            = map (fun i => (fun r => F r * G r) (nth i l d0)) (seq 0 (length l))).
  { apply map_ext_in. intros i Hi. apply in_seq in Hi. unfold pick.
    assert (I : (if (length l =? 1)%nat then 0%nat else i) = i).
    { destruct (length l =? 1)%nat eqn:El; auto. apply Nat.eqb_eq in El. lia. }
    rewrite I. rewrite (nth_indep (map F l) 0 (F d0)), (nth_indep (map G l) 0 (G d0)) by (rewrite map_length; lia).
    rewrite !map_nth. reflexivity. }
  pose proof (map_seq_nth refl (fun r => F r * G r) l d0) as Q. rewrite M, Q.
  clear. induction l as [|a l IH]; simpl; [ring|]. rewrite Rmult_plus_distr_l, IH. f_equal.
  unfold F, G, Rsqr, Rdiv. simpl. rewrite Rmult_1_r. ring.
Qed.

(* chi-square as a function of a parameter through the model values *)
Lemma chi_derivative : forall (ms : list (R -> R)) (ds es ss : list R) x,
  length ms = length ds -> length ms = length es -> length ms = length ss ->
  (forall s, In s ss -> s <> 0) ->
  (forall i, (i < length ms)%nat -> is_derive (nth i ms (fun _ => 0)) x (nth i ds 0)) ->
  let mk t := map (fun i => mkRefl (nth i es 0) (nth i ss 0) (nth i ms (fun _ => 0) t) false [nth i ds 0]) (seq 0 (length ms)) in
  exists v, der_chi_sq_diffrn (mk x) 0 = Some v /\
    (forall t, fst (chi_sq_diffrn (mk t)) =
       Fin (sum_of (map (fun r => ((r_exp r - r_mod r) / r_sig r) ^ 2) (mk t)))) /\
    is_derive (fun t => sum_of (map (fun r => ((r_exp r - r_mod r) / r_sig r) ^ 2) (mk t))) x v.
Proof.
  intros ms ds es ss x L1 L2 L3 Hs Hd mk.
  assert (NE : forall t r, In r (mk t) -> r_excl r = false).
  { intros t r Hr. apply in_map_iff in Hr. destruct Hr as [i [<- _]]. reflexivity. }
  assert (K : forall t, keptr (mk t) = mk t).
  { intros t. unfold keptr. specialize (NE t). generalize dependent (mk t). induction l as [|a l IH]; simpl; auto.
    intros NE. rewrite (NE a) by auto. simpl. f_equal. apply IH. intros; apply NE; auto. }
  eexists. split; [apply der_all, NE|]. split.
  - intros t. rewrite diffrn_value; rewrite K; [reflexivity|].
    intros r Hr. apply in_map_iff in Hr. destruct Hr as [i [<- Hi]]. apply in_seq in Hi. simpl.
    apply Hs, nth_In. lia.
  - unfold mk. clear mk NE K.
    assert (P : forall i, In i (seq 0 (length ms)) -> is_derive (fun t => ((nth i es 0 - nth i ms (fun _ => 0) t) / nth i ss 0) ^ 2) x
       (-2 * ((nth i es 0 - nth i ms (fun _ => 0) x) / nth i ss 0 ^ 2) * nth i ds 0)).
    { intros i Hi. apply in_seq in Hi.
      assert (S : nth i ss 0 <> 0) by (apply Hs, nth_In; lia).
      assert (D := Hd i ltac:(lia)).
      set (f := nth i ms (fun _ => 0)) in *. set (e := nth i es 0). set (s := nth i ss 0) in *. set (d := nth i ds 0) in *.
      assert (D2 : is_derive (fun t => (e - f t) / s) x (- d / s)).
      { apply (is_derive_ext (fun t => (/ s) * (e - f t))). { intros t; unfold Rdiv; apply Rmult_comm. }
        replace (- d / s) with (/ s * (0 - d)) by (field; auto).
        apply (is_derive_scal (fun t => e - f t) x (/ s) (0 - d)).
        apply (is_derive_minus (K := R_AbsRing) (V := R_NormedModule) (fun _ => e) f x 0 d); auto.
        apply (is_derive_const (K := R_AbsRing) (V := R_NormedModule) e x). }
      replace (-2 * ((e - f x) / s ^ 2) * d) with (INR 2 * (- d / s) * ((e - f x) / s) ^ (Nat.pred 2)).
      - apply (is_derive_pow (fun t => (e - f t) / s) 2 x (- d / s)). exact D2.
      - simpl. field. auto. }
    rewrite map_map. cbn [r_exp r_sig r_mod r_der nth].
    revert P. generalize (seq 0 (length ms)) as il. induction il as [|i il IH]; intros P.
    + simpl. apply (is_derive_const (K := R_AbsRing) (V := R_NormedModule) 0 x).
    + cbn [map sum_of fold_right r_exp r_sig r_mod].
      apply (is_derive_plus (K := R_AbsRing) (V := R_NormedModule)
        (fun t => ((nth i es 0 - nth i ms (fun _ => 0) t) / nth i ss 0) ^ 2)
        (fun t => sum_of (map (fun r => ((r_exp r - r_mod r) / r_sig r) ^ 2)
           (map (fun i => mkRefl (nth i es 0) (nth i ss 0) (nth i ms (fun _ => 0) t) false [nth i ds 0]) il)))).
      * apply P. simpl; auto.
      * apply IH. intros; apply P; simpl; auto.
Qed.

(* with excluded reflections the evaluation fails *)
Lemma der_fails : forall l j, (2 <= length (keptr l))%nat -> (length (keptr l) < length l)%nat ->
  der_chi_sq_diffrn l j = None /\ dder_chi_sq_diffrn l j j = None.
Proof.
  intros l j H1 H2. unfold der_chi_sq_diffrn, dder_chi_sq_diffrn. fold (keptr l).
  rewrite !map_length. unfold bcast.
  replace (length (keptr l) =? length l)%nat with false by (symmetry; apply Nat.eqb_neq; lia).
  replace (length (keptr l) =? 1)%nat with false by (symmetry; apply Nat.eqb_neq; lia).
  replace (length l =? 1)%nat with false by (symmetry; apply Nat.eqb_neq; lia).
  split; reflexivity.
Qed.
