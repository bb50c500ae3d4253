From Coq Require Import Reals Lra Lia List Arith String Permutation FunctionalExtensionality.
From Verif Require Import Spec.LinN Spec.Hess Spec.Refinement Model.Hessian Proofs.LinNP.
Import ListNotations.
Open Scope R_scope.

Lemma sigma_sq h i : hess_sigma h i * hess_sigma h i = Rabs (h i i).
Proof. unfold hess_sigma. apply sqrt_sqrt, Rabs_pos. Qed.
Lemma sigma_sq_pos h i : 0 <= h i i -> hess_sigma h i * hess_sigma h i = h i i.
Proof. intros H. rewrite sigma_sq, Rabs_right; lra. Qed.
Lemma sigma_pos h i : h i i <> 0 -> 0 < hess_sigma h i.
Proof. intros H. unfold hess_sigma. apply sqrt_lt_R0, Rabs_pos_lt, H. Qed.
Lemma corr_diag h i : 0 < h i i -> hess_corr h i i = 1.
Proof. intros H. unfold hess_corr. rewrite sigma_sq_pos by lra. field. lra. Qed.
Lemma corr_diag_neg h i : h i i < 0 -> hess_corr h i i = -1.
Proof. intros H. unfold hess_corr. rewrite sigma_sq, Rabs_left by lra. field. lra. Qed.
Lemma corr_sym n h : symmetric n h -> symmetric n (hess_corr h).
Proof. intros S i j I J. unfold hess_corr. rewrite (S i j I J). unfold Rdiv. f_equal. f_equal. ring. Qed.
Lemma corr_back h i j : h i i <> 0 -> h j j <> 0 -> hess_corr h i j * hess_sigma h i * hess_sigma h j = h i j.
Proof. intros I J. apply sigma_pos in I. apply sigma_pos in J. unfold hess_corr. field. lra. Qed.

Lemma quad_two n (h : mat) i j a b : (i < n)%nat -> (j < n)%nat ->
  sumn n (fun k => sumn n (fun l => (a * delta k i + b * delta k j) * h k l * (a * delta l i + b * delta l j)))
  = a * a * h i i + a * b * h i j + b * a * h j i + b * b * h j j.
Proof.
  intros I J.
  assert (E : forall k, sumn n (fun l => (a * delta k i + b * delta k j) * h k l * (a * delta l i + b * delta l j))
    = (a * delta k i + b * delta k j) * (a * h k i + b * h k j)).
  { intros k.
    transitivity (sumn n (fun l => (a * delta k i + b * delta k j) * (a * (h k l * delta l i) + b * (h k l * delta l j)))).
    - apply sumn_ext; intros; ring.
    - rewrite sumn_scal, sumn_plus, !sumn_scal, !sumn_delta by assumption. ring. }
  transitivity (sumn n (fun k => (a * delta k i + b * delta k j) * (a * h k i + b * h k j))).
  - apply sumn_ext; intros; apply E.
  - transitivity (sumn n (fun k => a * ((a * h k i + b * h k j) * delta k i) + b * ((a * h k i + b * h k j) * delta k j))).
    + apply sumn_ext; intros; ring.
    + rewrite sumn_plus, !sumn_scal.
      rewrite (sumn_delta n i (fun k => a * h k i + b * h k j)), (sumn_delta n j (fun k => a * h k i + b * h k j)) by assumption. ring.
Qed.

Lemma corr_bound n h i j : symmetric n h -> psd_n n h -> (i < n)%nat -> (j < n)%nat -> 0 < h i i -> 0 < h j j ->
  -1 <= hess_corr h i j <= 1.
Proof.
  intros S P I J Hi Hj.
  pose proof (sigma_pos h i ltac:(lra)) as Pi. pose proof (sigma_pos h j ltac:(lra)) as Pj.
  pose proof (sigma_sq_pos h i ltac:(lra)) as Ei. pose proof (sigma_sq_pos h j ltac:(lra)) as Ej.
  set (si := hess_sigma h i) in *. set (sj := hess_sigma h j) in *.
  assert (T : 0 < si * sj) by (apply Rmult_lt_0_compat; assumption).
  pose proof (P (fun k => sj * delta k i + si * delta k j)) as P1. cbv beta in P1. rewrite quad_two in P1 by assumption.
  pose proof (P (fun k => sj * delta k i + - si * delta k j)) as P2. cbv beta in P2. rewrite quad_two in P2 by assumption.
  rewrite <- (S i j I J) in P1, P2. rewrite <- Ei, <- Ej in P1, P2.
  assert (B1 : 0 <= (si * sj) * (si * sj + h i j)) by nra.
  assert (B2 : 0 <= (si * sj) * (si * sj - h i j)) by nra.
  assert (C1 : 0 <= si * sj + h i j) by (apply Rmult_le_reg_l with (si * sj); [assumption|lra]).
  assert (C2 : 0 <= si * sj - h i j) by (apply Rmult_le_reg_l with (si * sj); [assumption|lra]).
  unfold hess_corr. fold si sj. split.
  - apply Rmult_le_reg_r with (si * sj); [assumption|]. unfold Rdiv. rewrite Rmult_assoc, Rinv_l by lra. lra.
  - apply Rmult_le_reg_r with (si * sj); [assumption|]. unfold Rdiv. rewrite Rmult_assoc, Rinv_l by lra. lra.
Qed.

(** argsort *)
Lemma ins_perm key i l : Permutation (i :: l) (ins key i l).
Proof.
  induction l as [|j l IH]; cbn; [auto|]. destruct (String.leb _ _); [auto|].
  rewrite perm_swap. constructor. exact IH.
Qed.
Lemma argsort_perm labels : Permutation (seq 0 (List.length labels)) (argsort labels).
Proof.
  unfold argsort. generalize (seq 0 (List.length labels)) as l. induction l as [|i l IH]; cbn; [auto|].
  rewrite <- ins_perm. constructor. exact IH.
Qed.
Lemma argsort_length labels : List.length (argsort labels) = List.length labels.
Proof. rewrite <- (Permutation_length (argsort_perm labels)). apply seq_length. Qed.
Lemma argsort_lt labels k : (k < List.length labels)%nat -> (nth k (argsort labels) 0 < List.length labels)%nat.
Proof.
  intros K. assert (H : In (nth k (argsort labels) 0%nat) (argsort labels)) by (apply nth_In; rewrite argsort_length; exact K).
  apply (Permutation_in _ (Permutation_sym (argsort_perm labels))) in H. apply in_seq in H. lia.
Qed.
Lemma argsort_onto labels i : (i < List.length labels)%nat -> exists k, (k < List.length labels)%nat /\ nth k (argsort labels) 0%nat = i.
Proof.
  intros I. assert (H : In i (argsort labels)) by (apply (Permutation_in _ (argsort_perm labels)), in_seq; lia).
  apply (In_nth _ _ 0%nat) in H. destruct H as (k & K & E). rewrite argsort_length in K. eauto.
Qed.
Lemma take_labels_length p l : List.length (take_labels p l) = List.length p.
Proof. apply map_length. Qed.
Lemma take_labels_nth p l k : (k < List.length p)%nat -> nth k (take_labels p l) EmptyString = nth (nth k p 0%nat) l EmptyString.
Proof.
  intros K. unfold take_labels.
  rewrite (nth_indep _ EmptyString ((fun i => nth i l EmptyString) 0%nat)) by (rewrite map_length; exact K).
  apply (map_nth (fun i => nth i l EmptyString)).
Qed.
Lemma entries_kept labels m x y v :
  entry_of labels m x y v <-> entry_of (take_labels (argsort labels) labels) (take_mat (argsort labels) m) x y v.
Proof.
  split.
  - intros (i & j & I & J & X & Y & V). destruct (argsort_onto labels i I) as (k & K & Ek). destruct (argsort_onto labels j J) as (l & L & El).
    exists k, l. rewrite take_labels_length, argsort_length. split; [exact K|]. split; [exact L|].
    rewrite !take_labels_nth by (rewrite argsort_length; assumption). unfold take_mat. rewrite Ek, El. auto.
  - intros (k & l & K & L & X & Y & V). rewrite take_labels_length, argsort_length in K, L.
    rewrite take_labels_nth in X, Y by (rewrite argsort_length; assumption).
    exists (nth k (argsort labels) 0%nat), (nth l (argsort labels) 0%nat). split; [apply argsort_lt; exact K|]. split; [apply argsort_lt; exact L|]. auto.
Qed.
Lemma values_kept labels s x v :
  value_of labels s x v <-> value_of (take_labels (argsort labels) labels) (take_vec (argsort labels) s) x v.
Proof.
  split.
  - intros (i & I & X & V). destruct (argsort_onto labels i I) as (k & K & Ek).
    exists k. rewrite take_labels_length, argsort_length. split; [exact K|].
    rewrite !take_labels_nth by (rewrite argsort_length; assumption). unfold take_vec. rewrite Ek. auto.
  - intros (k & K & X & V). rewrite take_labels_length, argsort_length in K.
    rewrite take_labels_nth in X by (rewrite argsort_length; assumption).
    exists (nth k (argsort labels) 0%nat). split; [apply argsort_lt; exact K|]. auto.
Qed.

(** sortedness *)
Lemma leb_flip a b : String.leb a b = false -> String.leb b a = true.
Proof.
  unfold String.leb. rewrite (String.compare_antisym a b). destruct (String.compare b a); cbn; auto; discriminate.
Qed.
Fixpoint chain (key : nat -> string) (l : list nat) : Prop :=
  match l with [] => True | i :: r => match r with [] => True | j :: _ => String.leb (key i) (key j) = true end /\ chain key r end.
Lemma ins_chain key i l : chain key l -> chain key (ins key i l).
Proof.
  induction l as [|j l IH]; intros C; [cbn; auto|].
  cbn [ins]. destruct (String.leb (key i) (key j)) eqn:E.
  - cbn [chain]. split; [exact E|exact C].
  - cbn [chain] in C |- *. destruct C as [C1 C2]. split; [|auto].
    destruct l as [|k l]; cbn [ins]; [apply leb_flip, E|].
    destruct (String.leb (key i) (key k)); [apply leb_flip, E|exact C1].
Qed.
Lemma argsort_chain labels : chain (fun i => nth i labels EmptyString) (argsort labels).
Proof.
  unfold argsort. generalize (seq 0 (List.length labels)) as l. induction l as [|i l IH]; cbn [fold_right]; [exact I|]. apply ins_chain, IH.
Qed.
Lemma chain_nth key l k : chain key l -> (S k < List.length l)%nat -> String.leb (key (nth k l 0%nat)) (key (nth (S k) l 0%nat)) = true.
Proof.
  revert k. induction l as [|i l IH]; intros k C K; cbn in K; [lia|]. cbn [chain] in C. destruct C as [C1 C2].
  destruct k as [|k]; [|apply IH; [exact C2|lia]].
  destruct l as [|j l]; cbn in K; [lia|]. exact C1.
Qed.
Lemma labels_sorted labels k : (S k < List.length labels)%nat ->
  String.leb (nth k (take_labels (argsort labels) labels) EmptyString) (nth (S k) (take_labels (argsort labels) labels) EmptyString) = true.
Proof.
  intros K. rewrite !take_labels_nth by (rewrite argsort_length; lia).
  apply (chain_nth (fun i => nth i labels EmptyString)); [apply argsort_chain|rewrite argsort_length; exact K].
Qed.

Lemma form_entries lab o : h_label o = Some lab ->
  exists lab', h_label (form_inversed_hessian o) = Some lab' /\
  (forall k, (S k < List.length lab')%nat -> String.leb (nth k lab' EmptyString) (nth (S k) lab' EmptyString) = true) /\
  (forall m, h_matrix o = Some m -> exists m', h_matrix (form_inversed_hessian o) = Some m' /\
     forall x y v, entry_of lab m x y v <-> entry_of lab' m' x y v) /\
  (forall m, h_corr o = Some m -> exists m', h_corr (form_inversed_hessian o) = Some m' /\
     forall x y v, entry_of lab m x y v <-> entry_of lab' m' x y v) /\
  (forall s, h_sigma o = Some s -> exists s', h_sigma (form_inversed_hessian o) = Some s' /\
     forall x v, value_of lab s x v <-> value_of lab' s' x v).
Proof.
  intros L. exists (take_labels (argsort lab) lab).
  assert (SRT : forall k, (S k < List.length (take_labels (argsort lab) lab))%nat -> String.leb (nth k (take_labels (argsort lab) lab) EmptyString) (nth (S k) (take_labels (argsort lab) lab) EmptyString) = true)
    by (intros k K; rewrite take_labels_length, argsort_length in K; apply labels_sorted, K).
  unfold form_inversed_hessian. rewrite L. cbn [h_label h_matrix h_corr h_sigma].
  destruct o as [ol om oc os]. cbn [h_label h_matrix h_corr h_sigma] in *.
  destruct om as [m|]; destruct oc as [c|]; destruct os as [s|]; cbn [option_map h_label h_matrix h_corr h_sigma];
    (split; [reflexivity|]; split; [exact SRT|]; split; [|split]; intros z E; try discriminate; injection E as <-;
     eexists; (split; [reflexivity|]); intros; (apply entries_kept || apply values_kept)).
Qed.

Lemma form_from_correlation lab h n : List.length lab = n -> (forall i, (i < n)%nat -> h i i <> 0) ->
  exists m', h_matrix (form_inversed_hessian (mkH (Some lab) None (Some (hess_corr h)) (Some (hess_sigma h)))) = Some m' /\
    forall x y v, entry_of lab h x y v <-> entry_of (take_labels (argsort lab) lab) m' x y v.
Proof.
  intros L D. unfold form_inversed_hessian. cbn [h_label h_matrix h_corr h_sigma option_map].
  eexists. split; [reflexivity|]. intros x y v. rewrite entries_kept. unfold entry_of. rewrite take_labels_length, argsort_length.
  assert (E : forall i j, (i < List.length lab)%nat -> (j < List.length lab)%nat ->
    take_mat (argsort lab) (hess_corr h) i j * take_vec (argsort lab) (hess_sigma h) i * take_vec (argsort lab) (hess_sigma h) j
    = take_mat (argsort lab) h i j).
  { intros i j I J. unfold take_mat, take_vec. apply corr_back; apply D; rewrite <- L; apply argsort_lt; assumption. }
  split; intros (i & j & I & J & X & Y & V); exists i, j; rewrite ?E in * by assumption; auto.
Qed.

(** rounding of the text *)
Lemma round10_close x : Rabs (round10 x - x) <= 1 / 2 / 10 ^ 10.
Proof.
  unfold round10. destruct (base_Int_part (x * 10 ^ 10 + 1 / 2)) as [A B].
  set (z := IZR (Int_part (x * 10 ^ 10 + 1 / 2))) in *.
  assert (P : 0 < 10 ^ 10) by (apply pow_lt; lra).
  replace (z / 10 ^ 10 - x) with ((z - x * 10 ^ 10) / 10 ^ 10) by (field; lra).
  unfold Rdiv at 1. rewrite Rabs_mult, (Rabs_right (/ 10 ^ 10)) by (apply Rle_ge, Rlt_le, Rinv_0_lt_compat, P).
  apply Rmult_le_compat_r; [apply Rlt_le, Rinv_0_lt_compat, P|]. apply Rabs_le. lra.
Qed.
Lemma text_loses_small_sigma : exists lab m, hess_sigma m 0%nat > 0 /\
  exists t, text_of (form_inversed_hessian (mkH (Some lab) (Some m) None None)) = Some t /\
  exists s, h_sigma (form_object t) = Some s /\ s 0%nat = 0.
Proof.
  exists ["x"%string], (fun _ _ => 1 / 10 ^ 12). split.
  - apply Rlt_gt, sigma_pos. assert (0 < 10 ^ 12) by (apply pow_lt; lra). assert (0 < 1 / 10 ^ 12) by (apply Rdiv_lt_0_compat; lra). lra.
  - eexists. split; [reflexivity|]. eexists. split; [reflexivity|].
    unfold take_mat, hess_sigma, round10. cbn [snd].
    assert (E : Int_part (1 / 10 ^ 12 * 10 ^ 10 + 1 / 2) = 0%Z).
    { unfold Int_part. rewrite <- (tech_up (1 / 10 ^ 12 * 10 ^ 10 + 1 / 2) 1); [reflexivity|lra|lra]. }
    rewrite E. unfold Rdiv. rewrite Rmult_0_l, Rabs_R0. apply sqrt_0.
Qed.
Lemma text_sigma_close m s t lab : text_of (form_inversed_hessian (mkH (Some lab) (Some m) None None)) = Some t ->
  h_sigma (form_object t) = Some s -> forall k, (k < List.length lab)%nat ->
  exists i, (i < List.length lab)%nat /\ (0 <= m i i -> Rabs (s k * s k - m i i) <= 1 / 10 ^ 10).
Proof.
  intros T S k K. unfold form_inversed_hessian in T. cbn [h_label h_matrix h_corr h_sigma option_map text_of] in T.
  injection T as <-. cbn [form_object h_sigma fst snd] in S. injection S as <-.
  set (p1 := argsort lab). set (p2 := argsort (take_labels p1 lab)).
  exists (nth (nth k p2 0%nat) p1 0%nat). split.
  { apply argsort_lt. assert (X : (nth k p2 0 < List.length (take_labels p1 lab))%nat).
    { apply argsort_lt. rewrite take_labels_length. unfold p1. rewrite argsort_length. exact K. }
    rewrite take_labels_length in X. unfold p1 in X. rewrite argsort_length in X. exact X. }
  intros P. rewrite sigma_sq. unfold take_mat.
  set (x := m (nth (nth k p2 0%nat) p1 0%nat) (nth (nth k p2 0%nat) p1 0%nat)) in *.
  pose proof (round10_close x) as C.
  assert (0 < 10 ^ 10) by (apply pow_lt; lra).
  assert (Q : 1 / 2 / 10 ^ 10 = / 2 * (1 / 10 ^ 10)) by (field; lra).
  assert (Q0 : 0 < 1 / 10 ^ 10) by (apply Rdiv_lt_0_compat; lra).
  assert (A : Rabs (Rabs (round10 x) - Rabs x) <= Rabs (round10 x - x)) by apply Rabs_triang_inv2.
  rewrite (Rabs_right x) in A by lra. lra.
Qed.

(** finite differences *)
Lemma bump_back v i d : bump (bump v i d) i (- d) = v.
Proof. apply functional_extensionality. intros k. unfold bump. destruct (Nat.eq_dec k i); lra. Qed.
Lemma bump_back' v i d : bump (bump v i (- d)) i d = v.
Proof. apply functional_extensionality. intros k. unfold bump. destruct (Nat.eq_dec k i); lra. Qed.
Definition second_diff (func : vec -> R) (p0 : vec) (i j : nat) : R :=
  let d1 := hess_step (p0 i) in let d2 := hess_step (p0 j) in
  (func (bump (bump p0 i d1) j d2) + func (bump (bump p0 i (- d1)) j (- d2))
   - func (bump (bump p0 i d1) j (- d2)) - func (bump (bump p0 i (- d1)) j d2)) / (4 * d1 * d2).

Lemma inner_loop func p0 i : forall l h, let d1 := hess_step (p0 i) in
  fold_left (hess_inner func p0 i) l (h, bump p0 i d1, bump p0 i d1, bump p0 i (- d1), bump p0 i (- d1)) =
  (fold_left (fun h j => set2 (set2 h i j (second_diff func p0 i j)) j i (second_diff func p0 i j)) l h,
   bump p0 i d1, bump p0 i d1, bump p0 i (- d1), bump p0 i (- d1)).
Proof.
  intros l. induction l as [|j l IH]; intros h d1; [reflexivity|]. cbn [fold_left].
  unfold hess_inner at 2. rewrite !bump_back, !bump_back'. apply IH.
Qed.

Lemma set2_same m i j x : set2 m i j x i j = x.
Proof. unfold set2. destruct (Nat.eq_dec i i); [|congruence]. destruct (Nat.eq_dec j j); congruence. Qed.
Lemma set2_other m i j x a b : ~ (a = i /\ b = j) -> set2 m i j x a b = m a b.
Proof. intros N. unfold set2. destruct (Nat.eq_dec a i); [|reflexivity]. destruct (Nat.eq_dec b j); [|reflexivity]. tauto. Qed.

Lemma row_loop (D : nat -> nat -> R) i : forall n h a b,
  fold_left (fun h j => set2 (set2 h i j (D i j)) j i (D i j)) (seq 0 n) h a b =
  if (Nat.eq_dec a i) then (if lt_dec b n then D i b else if Nat.eq_dec b i then (if lt_dec a n then D i a else h a b) else h a b)
  else if Nat.eq_dec b i then (if lt_dec a n then D i a else h a b) else h a b.
Proof.
  induction n as [|n IH]; intros h a b.
  - cbn. destruct (Nat.eq_dec a i); destruct (Nat.eq_dec b i); reflexivity.
  - rewrite seq_S, fold_left_app. cbn [fold_left]. change (0 + n)%nat with n.
    destruct (Nat.eq_dec a n) as [An|An]; destruct (Nat.eq_dec b i) as [Bi|Bi].
    + subst a b. rewrite set2_same. destruct (Nat.eq_dec n i) as [E|E].
      * subst i. destruct (lt_dec n (S n)); [reflexivity|lia].
      * destruct (lt_dec n (S n)); [reflexivity|lia].
    + rewrite (set2_other _ n i) by tauto. subst a. destruct (Nat.eq_dec n i) as [E|E].
      * subst i. destruct (Nat.eq_dec b n) as [|B]; [contradiction|]. rewrite (set2_other _ n n) by tauto. rewrite IH.
        destruct (Nat.eq_dec n n); [|congruence]. destruct (lt_dec b n); destruct (lt_dec b (S n)); try lia; auto.
        destruct (Nat.eq_dec b n); congruence.
      * rewrite (set2_other _ i n) by (intros [? ?]; congruence). rewrite IH.
        destruct (Nat.eq_dec n i); [congruence|]. destruct (Nat.eq_dec b i); [congruence|]. reflexivity.
    + rewrite (set2_other _ n i) by tauto. subst b. destruct (Nat.eq_dec a i) as [Ai|Ai].
      * subst a. rewrite (set2_other _ i n) by (intros [? ?]; congruence). rewrite IH.
        destruct (Nat.eq_dec i i); [|congruence]. destruct (lt_dec i n); destruct (lt_dec i (S n)); try lia; reflexivity.
      * rewrite (set2_other _ i n) by tauto. rewrite IH. destruct (Nat.eq_dec a i); [congruence|].
        destruct (Nat.eq_dec i i); [|congruence]. destruct (lt_dec a n); destruct (lt_dec a (S n)); try lia; reflexivity.
    + rewrite (set2_other _ n i) by tauto. destruct (Nat.eq_dec a i) as [Ai|Ai].
      * subst a. destruct (Nat.eq_dec b n) as [Bn|Bn].
        -- subst b. rewrite set2_same. destruct (lt_dec n (S n)); [reflexivity|lia].
        -- rewrite (set2_other _ i n) by tauto. rewrite IH. destruct (Nat.eq_dec i i); [|congruence].
           destruct (Nat.eq_dec b i); [contradiction|]. destruct (lt_dec b n); destruct (lt_dec b (S n)); try lia; reflexivity.
      * rewrite (set2_other _ i n) by tauto. rewrite IH. destruct (Nat.eq_dec a i); [contradiction|]. destruct (Nat.eq_dec b i); [contradiction|]. reflexivity.
Qed.

Lemma hess_matrix_entries func p0 : forall n i j, (i < n)%nat -> (j < n)%nat ->
  hess_matrix func n p0 i j = second_diff func p0 (Nat.max i j) (Nat.min i j).
Proof.
  assert (O : forall h i a b, hess_outer func p0 h i a b =
     fold_left (fun h j => set2 (set2 h i j (second_diff func p0 i j)) j i (second_diff func p0 i j)) (seq 0 (i + 1)) h a b).
  { intros. unfold hess_outer. pose proof (inner_loop func p0 i (seq 0 (i + 1)) h) as E. cbv zeta in E. rewrite E. reflexivity. }
  intros n. induction n as [|n IH]; intros i j I J; [lia|].
  unfold hess_matrix in *. rewrite seq_S, fold_left_app. cbn [fold_left]. change (0 + n)%nat with n.
  rewrite O, (row_loop (second_diff func p0)).
  destruct (Nat.eq_dec i n) as [In|In].
  - subst i. destruct (lt_dec j (n + 1)); [|lia]. rewrite Nat.max_l, Nat.min_r by lia. reflexivity.
  - destruct (Nat.eq_dec j n) as [Jn|Jn].
    + subst j. destruct (lt_dec i (n + 1)); [|lia]. rewrite Nat.max_r, Nat.min_l by lia. reflexivity.
    + apply IH; lia.
Qed.

Lemma hess_step_pos p : 0 < hess_step p.
Proof. unfold hess_step. destruct (Rlt_dec _ _); lra. Qed.

Lemma bump_delta v i d k : bump v i d k = v k + d * delta k i.
Proof. unfold bump, delta. destruct (Nat.eq_dec k i); ring. Qed.

Lemma second_diff_quadratic n c g a p0 i j : symmetric n a -> (i < n)%nat -> (j < n)%nat ->
  second_diff (quadratic n c g a) p0 i j = a i j.
Proof.
  intros S I J. unfold second_diff. set (d1 := hess_step (p0 i)). set (d2 := hess_step (p0 j)).
  assert (P1 : 0 < d1) by apply hess_step_pos. assert (P2 : 0 < d2) by apply hess_step_pos.
  assert (NUM : quadratic n c g a (bump (bump p0 i d1) j d2) + quadratic n c g a (bump (bump p0 i (- d1)) j (- d2))
   - quadratic n c g a (bump (bump p0 i d1) j (- d2)) - quadratic n c g a (bump (bump p0 i (- d1)) j d2) = 4 * d1 * d2 * a i j).
  { unfold quadratic.
    set (pp := bump (bump p0 i d1) j d2). set (mm := bump (bump p0 i (- d1)) j (- d2)).
    set (pm := bump (bump p0 i d1) j (- d2)). set (mp := bump (bump p0 i (- d1)) j d2).
    assert (L : sumn n (fun k => g k * pp k) + sumn n (fun k => g k * mm k) - sumn n (fun k => g k * pm k) - sumn n (fun k => g k * mp k) = 0).
    { unfold Rminus. rewrite <- !sumn_opp, <- !sumn_plus. apply sumn_zero. intros k _.
      unfold pp, mm, pm, mp. rewrite !bump_delta. ring. }
    assert (Q : sumn n (fun k => sumn n (fun l => pp k * a k l * pp l)) + sumn n (fun k => sumn n (fun l => mm k * a k l * mm l))
      - sumn n (fun k => sumn n (fun l => pm k * a k l * pm l)) - sumn n (fun k => sumn n (fun l => mp k * a k l * mp l))
      = 8 * d1 * d2 * a i j).
    { transitivity (sumn n (fun k => sumn n (fun l => (d1 * delta k i + d2 * delta k j) * (2 * a k l) * (d1 * delta l i + d2 * delta l j)))
        - sumn n (fun k => sumn n (fun l => (d1 * delta k i + - d2 * delta k j) * (2 * a k l) * (d1 * delta l i + - d2 * delta l j)))).
      - unfold Rminus at 1 2 3. rewrite <- !sumn_opp, <- !sumn_plus. apply sumn_ext. intros k _.
        rewrite <- !sumn_opp, <- !sumn_plus. apply sumn_ext. intros l _. unfold pp, mm, pm, mp. rewrite !bump_delta. ring.
      - rewrite (quad_two n (fun k l => 2 * a k l) i j d1 d2), (quad_two n (fun k l => 2 * a k l) i j d1 (- d2)) by assumption.
        rewrite (S j i J I). ring. }
    lra. }
  rewrite NUM. field. lra.
Qed.

Lemma estimate_quadratic inv n c g a p0 b d : symmetric n a -> inv_ok inv ->
  (forall i j, (i < n)%nat -> (j < n)%nat -> hess_matrix (quadratic n c g a) n p0 i j = a i j) /\
  (estimate_inversed_hessian_matrix inv (quadratic n c g a) n p0 = (Some b, d) -> is_inverse n a b).
Proof.
  intros S V.
  assert (E : forall i j, (i < n)%nat -> (j < n)%nat -> hess_matrix (quadratic n c g a) n p0 i j = a i j).
  { intros i j I J. rewrite hess_matrix_entries by assumption.
    rewrite second_diff_quadratic by (try assumption; lia).
    destruct (le_lt_dec i j) as [H|H].
    - rewrite Nat.max_r, Nat.min_l by lia. apply S; assumption.
    - rewrite Nat.max_l, Nat.min_r by lia. reflexivity. }
  split; [exact E|]. unfold estimate_inversed_hessian_matrix. intros H. injection H as H _.
  apply V in H. intros i j I J. destruct (H i j I J) as [H1 H2]. split; [rewrite <- H1|rewrite <- H2]; unfold mulmm; apply sumn_ext; intros k K; rewrite E by assumption; reflexivity.
Qed.
Lemma hess_symmetric func n p0 : symmetric n (hess_matrix func n p0).
Proof. intros i j I J. rewrite !hess_matrix_entries by assumption. rewrite Nat.max_comm, Nat.min_comm. reflexivity. Qed.

Lemma gradient_zero inv : exists n c g a p0, symmetric n a /\ (0 < n)%nat /\
  (forall t, quadratic n c g a (fun _ => t) = t) /\ snd (estimate_inversed_hessian_matrix inv (quadratic n c g a) n p0) 0%nat <> 1.
Proof.
  exists 1%nat, 0, (fun _ => 1), (fun _ _ => 0), (fun _ => 0). split; [intros i j _ _; reflexivity|]. split; [lia|]. split.
  - intros t. unfold quadratic. cbn. ring.
  - cbn. lra.
Qed.

(** reported errors and the increase of chi-square *)
Definition qf (n : nat) (a : mat) (v w : vec) : R := sumn n (fun i => sumn n (fun j => v i * a i j * w j)).
Lemma qf_lin_r n a u v w t : qf n a u (fun k => v k + t * w k) = qf n a u v + t * qf n a u w.
Proof.
  unfold qf. rewrite <- sumn_scal, <- sumn_plus. apply sumn_ext. intros i _. rewrite <- sumn_scal, <- sumn_plus.
  apply sumn_ext. intros j _. ring.
Qed.
Lemma qf_lin_l n a u v w t : qf n a (fun k => v k + t * w k) u = qf n a v u + t * qf n a w u.
Proof.
  unfold qf. rewrite <- sumn_scal, <- sumn_plus. apply sumn_ext. intros i _. rewrite <- sumn_scal, <- sumn_plus.
  apply sumn_ext. intros j _. ring.
Qed.
Lemma qf_sym n a u v : symmetric n a -> qf n a u v = qf n a v u.
Proof.
  intros S. unfold qf. rewrite sumn_swap. apply sumn_ext. intros j J. apply sumn_ext. intros i I. rewrite (S i j I J). ring.
Qed.
Lemma qf_column n a b u i : is_inverse n a b -> (i < n)%nat -> qf n a u (fun k => b k i) = u i.
Proof.
  intros B I. unfold qf. transitivity (sumn n (fun k => u k * delta k i)); [|apply sumn_delta, I].
  apply sumn_ext. intros k K. destruct (B k i K I) as [E _]. unfold mulmm in E. rewrite <- E, <- sumn_scal. apply sumn_ext. intros; ring.
Qed.
Lemma quadratic_shift n c a p v : symmetric n a ->
  quadratic n c (fun k => - sumn n (fun j => a k j * p j)) a (fun k => p k + v k)
  - quadratic n c (fun k => - sumn n (fun j => a k j * p j)) a p = / 2 * qf n a v v.
Proof.
  intros S. unfold quadratic.
  fold (qf n a (fun k => p k + v k) (fun k => p k + v k)). fold (qf n a p p).
  assert (G : forall x : vec, sumn n (fun k => - sumn n (fun j => a k j * p j) * x k) = - qf n a x p).
  { intros x. unfold qf. rewrite <- sumn_opp. apply sumn_ext. intros k _. rewrite Ropp_mult_distr_l_reverse. f_equal.
    rewrite <- sumn_scal_r. apply sumn_ext. intros; ring. }
  rewrite (G (fun k => p k + v k)), (G p).
  assert (E1 : forall u, qf n a u (fun k => p k + v k) = qf n a u p + qf n a u v).
  { intros u. rewrite <- (Rmult_1_l (qf n a u v)). rewrite <- qf_lin_r. f_equal. apply functional_extensionality. intros; ring. }
  assert (E2 : forall u, qf n a (fun k => p k + v k) u = qf n a p u + qf n a v u).
  { intros u. rewrite <- (Rmult_1_l (qf n a v u)). rewrite <- qf_lin_l. f_equal. apply functional_extensionality. intros; ring. }
  rewrite E1, !E2, (qf_sym n a v p S). lra.
Qed.

Lemma half_increase n a b i : symmetric n a -> psd_n n a -> is_inverse n a b -> (i < n)%nat -> 0 < b i i ->
  (exists v : vec, v i = hess_sigma b i /\ / 2 * qf n a v v = / 2) /\
  (forall v : vec, v i = hess_sigma b i -> / 2 <= / 2 * qf n a v v).
Proof.
  intros S P B I D. pose proof (sigma_sq_pos b i ltac:(lra)) as Q. pose proof (sigma_pos b i ltac:(lra)) as Ps.
  set (s := hess_sigma b i) in *. split.
  - exists (fun k => 0 + / s * b k i). split.
    + rewrite <- Q. field. lra.
    + rewrite (qf_lin_l n a _ (fun _ => 0) (fun k => b k i) (/ s)).
      rewrite !(qf_lin_r n a _ (fun _ => 0) (fun k => b k i) (/ s)).
      assert (Z0 : forall u, qf n a (fun _ => 0) u = 0).
      { intros u. unfold qf. apply sumn_zero. intros k _. apply sumn_zero. intros; ring. }
      rewrite Z0. rewrite (qf_column n a b (fun k => b k i) i B I).
      rewrite (qf_sym n a _ (fun _ => 0) S), Z0. rewrite <- Q. field. lra.
  - intros v Hv. set (x := fun k => v k + (- (/ s)) * b k i).
    assert (H : 0 <= qf n a x x) by exact (P x). unfold x in H.
    rewrite (qf_lin_l n a _ v (fun k => b k i) (- / s)) in H.
    rewrite !(qf_lin_r n a _ v (fun k => b k i) (- / s)) in H. rewrite (qf_sym n a (fun k => b k i) v S) in H.
    rewrite !(qf_column n a b _ i B I) in H. rewrite Hv, <- Q in H.
    replace (qf n a v v + - / s * s + - / s * (s + - / s * (s * s))) with (qf n a v v - 1) in H by (field; lra). lra.
Qed.
