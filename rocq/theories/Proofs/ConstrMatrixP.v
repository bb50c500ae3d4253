(** Proofs about calc_constr_matrix and calc_independent_lines. *)
From Coq Require Import Reals Lra Lia List Arith Bool Psatz.
From Verif Require Import Spec.LinN Spec.SiteSpec Model.SiteSymm Proofs.LinNP Proofs.SiteSymmP.
Import ListNotations.
Open Scope R_scope.

(** * the solutions are kept *)
Definition kernel (n : nat) (u : mat) (q : vec) : Prop := forall i, (i < n)%nat -> mulmv n u q i = 0.
Lemma step_kernel : forall tol n i u q, 0 <= tol -> (i < n)%nat -> (kernel n (reduce_step tol i u) q <-> kernel n u q).
Proof.
  intros tol n i u q T Hi. unfold reduce_step. destruct (Rle_dec (Rabs (u i i)) tol) as [|N]; [reflexivity|].
  assert (P : u i i <> 0) by (intro E; rewrite E, Rabs_R0 in N; lra).
  assert (RI : mulmv n (fun (_ : nat) j => u i j / u i i) q O = mulmv n u q i / u i i).
  { unfold mulmv. unfold Rdiv. rewrite <- sumn_scal_r. apply sumn_ext. intros; ring. }
  assert (RA : forall a, (a < i)%nat -> mulmv n (fun a j => u a j - u i j / u i i * u a i) q a = mulmv n u q a - u a i * (mulmv n u q i / u i i)).
  { intros a _. unfold mulmv. unfold Rdiv. rewrite <- sumn_scal_r, <- sumn_scal.
    transitivity (sumn n (fun k => u a k * q k + - (u a i * (u i k * q k * / u i i)))).
    - apply sumn_ext. intros. ring.
    - rewrite sumn_plus, sumn_opp. ring. }
  assert (E : forall a, mulmv n (fun a j => if Nat.eqb a i then u i j / u i i else if Nat.ltb a i then u a j - u i j / u i i * u a i else u a j) q a
    = if Nat.eqb a i then mulmv n u q i / u i i else if Nat.ltb a i then mulmv n u q a - u a i * (mulmv n u q i / u i i) else mulmv n u q a).
  { intro a. destruct (Nat.eqb a i) eqn:A.
    - rewrite <- RI. unfold mulmv. rewrite A. reflexivity.
    - destruct (Nat.ltb a i) eqn:B.
      + apply Nat.ltb_lt in B. rewrite <- RA by exact B. unfold mulmv. rewrite A. apply Nat.ltb_lt in B. rewrite B. reflexivity.
      + unfold mulmv. rewrite A, B. reflexivity. }
  unfold kernel. split; intros H a Ha.
  - assert (Z : mulmv n u q i = 0).
    { specialize (H i Hi). rewrite E, Nat.eqb_refl in H. apply (Rmult_eq_reg_r (/ u i i)); [|apply Rinv_neq_0_compat; exact P].
      unfold Rdiv in H. lra. }
    specialize (H a Ha). rewrite E in H. destruct (Nat.eqb a i) eqn:A; [apply Nat.eqb_eq in A; subst; exact Z|].
    destruct (Nat.ltb a i); rewrite ?Z in H; unfold Rdiv in H; lra.
  - rewrite E, (H i Hi), (H a Ha). unfold Rdiv. destruct (Nat.eqb a i); [ring|]. destruct (Nat.ltb a i); ring.
Qed.
Lemma from_kernel : forall tol n k u q, 0 <= tol -> (k < n)%nat -> (kernel n (reduce_from tol k u) q <-> kernel n u q).
Proof.
  intros tol n k. induction k as [|k IH]; intros u q T H; cbn [reduce_from]; [reflexivity|].
  rewrite IH by (auto; lia). apply step_kernel; [exact T|lia].
Qed.
Lemma delta_row : forall n q i, (i < n)%nat -> mulmv n delta q i = q i.
Proof. intros n q i H. unfold mulmv. apply sumn_delta'. exact H. Qed.
Lemma one_minus : forall n m q i, (i < n)%nat -> mulmv n (fun i j => delta i j - m i j) q i = q i - mulmv n m q i.
Proof.
  intros n m q i H. rewrite <- (delta_row n q i H). unfold mulmv, Rminus. rewrite <- sumn_opp, <- sumn_plus. apply sumn_ext. intros; ring.
Qed.
Lemma minus_one : forall n m q i, (i < n)%nat -> mulmv n (fun i j => m i j - delta i j) q i = mulmv n m q i - q i.
Proof.
  intros n m q i H. rewrite <- (delta_row n q i H). unfold mulmv, Rminus. rewrite <- sumn_opp, <- sumn_plus. apply sumn_ext. intros; ring.
Qed.
Lemma allowed_kernel : forall n m q, allowed n m q <-> kernel n (fun i j => m i j - delta i j) q.
Proof.
  intros n m q. unfold allowed, kernel. split; intros H i Hi; specialize (H i Hi); rewrite ?minus_one in * by exact Hi; lra.
Qed.
Lemma kernel_kept : forall tol n m q, 0 <= tol -> (0 < n)%nat -> (allowed n (constr_matrix_unrounded tol n m) q <-> allowed n m q).
Proof.
  intros tol n m q T N. rewrite (allowed_kernel n m q).
  rewrite <- (from_kernel tol n (n - 1) (fun i j => m i j - delta i j) q T) by lia.
  unfold allowed, kernel, constr_matrix_unrounded. split; intros H i Hi; specialize (H i Hi).
  - rewrite one_minus in H by exact Hi. lra.
  - rewrite one_minus by exact Hi. lra.
Qed.
Lemma kernel_kept_rounded : forall n m q, (0 < n)%nat -> allowed n m q ->
  forall i, (i < n)%nat -> Rabs (constr_values n (calc_constr_matrix n m) q i - q i) <= 1 / 2 / 10 ^ 10 * sumn n (fun k => Rabs (q k)).
Proof.
  intros n m q N A i Hi.
  assert (T : 0 <= 1 / 10 ^ 10) by (left; apply Rdiv_lt_0_compat; [lra|apply pow_lt; lra]).
  apply (kernel_kept _ n m q T N) in A. rewrite <- (A i Hi). clear A.
  unfold constr_values, calc_constr_matrix, mulmv. set (c := constr_matrix_unrounded (1 / 10 ^ 10) n m). clearbody c. clear Hi N T.
  induction n as [|n IH]; cbn [sumn]; [rewrite Rminus_0_r, Rabs_R0; lra|].
  pose proof (np_round_error 10 (c i n)) as E.
  set (s1 := sumn n (fun k => np_round 10 (c i k) * q k)) in *. set (s2 := sumn n (fun k => c i k * q k)) in *.
  replace (s1 + np_round 10 (c i n) * q n - (s2 + c i n * q n)) with ((s1 - s2) + (np_round 10 (c i n) - c i n) * q n) by ring.
  eapply Rle_trans; [apply Rabs_triang|]. rewrite Rabs_mult, Rmult_plus_distr_l. apply Rplus_le_compat; [exact IH|].
  apply Rmult_le_compat_r; [apply Rabs_pos|exact E].
Qed.

(** * the reduced matrix is triangular *)
Section Reduce.
  Variables (n : nat) (w : vec).
  Hypothesis W : forall i, (i < n)%nat -> 0 < w i.
  Definition wsym (k : nat) (u : mat) : Prop := forall i j, (i < k)%nat -> (j < k)%nat -> w i * u i j = w j * u j i.
  Definition nsd (k : nat) (u : mat) : Prop := forall x : vec, sumn k (fun i => w i * x i * mulmv k u x i) <= 0.
  Definition shape (k : nat) (u : mat) : Prop :=
    wsym (S k) u /\ nsd (S k) u /\
    (forall a j, (a < j)%nat -> (k < j)%nat -> (j < n)%nat -> u a j = 0) /\
    (forall a, (k < a)%nat -> (a < n)%nat -> u a a = 1 \/ forall j, (j < n)%nat -> u a j = 0).
  Lemma zero_pivot : forall k u, (k < n)%nat -> wsym (S k) u -> nsd (S k) u -> u k k = 0 ->
    forall j, (j <= k)%nat -> u k j = 0 /\ u j k = 0.
  Proof.
    intros k u Hk SY NS Z j Hj. destruct (Nat.eq_dec j k) as [->|N]; [auto|].
    assert (Hj' : (j < k)%nat) by lia.
    assert (F : forall t, w j * u j j + 2 * t * (w k * u k j) <= 0).
    { intro t. specialize (NS (fun i => delta i j + t * delta i k)).
      assert (R : forall i, (i < S k)%nat -> mulmv (S k) u (fun i => delta i j + t * delta i k) i = u i j + t * u i k).
      { intros i Hi. unfold mulmv. transitivity (sumn (S k) (fun p => u i p * delta p j) + t * sumn (S k) (fun p => u i p * delta p k)).
        - rewrite <- sumn_scal, <- sumn_plus. apply sumn_ext. intros; ring.
        - rewrite !sumn_delta by lia. reflexivity. }
      rewrite (sumn_ext (S k) _ (fun i => w i * (u i j + t * u i k) * delta i j + t * (w i * (u i j + t * u i k) * delta i k))) in NS.
      2:{ intros i Hi. rewrite R by exact Hi. ring. }
      rewrite sumn_plus, sumn_scal in NS.
      rewrite (sumn_delta (S k) j (fun i => w i * (u i j + t * u i k))) in NS by lia.
      rewrite (sumn_delta (S k) k (fun i => w i * (u i j + t * u i k))) in NS by lia.
      rewrite Z in NS. pose proof (SY j k ltac:(lia) ltac:(lia)) as E.
      replace (w j * (u j j + t * u j k)) with (w j * u j j + t * (w j * u j k)) in NS by ring. rewrite E in NS. lra. }
    assert (E0 : w k * u k j = 0).
    { set (c := w k * u k j) in *. set (d := w j * u j j) in *.
      destruct (Req_dec c 0) as [|C]; [assumption|]. exfalso.
      specialize (F ((1 - d) / (2 * c))). replace (2 * ((1 - d) / (2 * c)) * c) with (1 - d) in F by (field; exact C). lra. }
    pose proof (W k Hk). pose proof (W j ltac:(lia)). pose proof (SY j k ltac:(lia) ltac:(lia)) as E. split.
    - apply Rmult_integral in E0. destruct E0; [lra|assumption].
    - rewrite E0 in E. apply Rmult_integral in E. destruct E; [lra|assumption].
  Qed.
  Lemma nsd_diag : forall k u i, (i < k)%nat -> nsd k u -> w i * u i i <= 0.
  Proof.
    intros k u i Hi NS. specialize (NS (fun p => delta p i)).
    rewrite (sumn_ext k _ (fun p => w p * mulmv k u (fun p => delta p i) p * delta p i)) in NS by (intros; ring).
    rewrite (sumn_delta k i (fun p => w p * mulmv k u (fun p => delta p i) p)) in NS by exact Hi.
    unfold mulmv in NS. rewrite sumn_delta in NS by exact Hi. exact NS.
  Qed.
  Lemma shape_step : forall k u, (S k < n)%nat -> shape (S k) u -> shape k (reduce_step 0 (S k) u).
  Proof.
    intros k u Hk (SY & NS & UP & RW). set (i := S k) in *.
    unfold reduce_step. destruct (Rle_dec (Rabs (u i i)) 0) as [L|NP].
    - assert (Z : u i i = 0). { pose proof (Rabs_pos (u i i)). assert (A : Rabs (u i i) = 0) by lra. destruct (Req_dec (u i i) 0) as [|D]; [assumption|]. apply Rabs_no_R0 in D. lra. }
      pose proof (zero_pivot i u Hk SY NS Z) as ZP.
      split; [|split; [|split]].
      + intros a b Ha Hb. apply SY; lia.
      + intro x. specialize (NS (fun p => if Nat.ltb p i then x p else 0)). cbn [sumn] in NS.
        assert (LT : Nat.ltb i i = false) by (apply Nat.ltb_irrefl). rewrite LT in NS.
        assert (MV : forall a, (a < S k)%nat -> mulmv (S i) u (fun p => if Nat.ltb p i then x p else 0) a = mulmv (S k) u x a).
        { intros a Ha. unfold mulmv. fold i. cbn [sumn]. rewrite LT, Rmult_0_r, Rplus_0_r. apply sumn_ext. intros p Hp.
          assert (Q : Nat.ltb p i = true) by (apply Nat.ltb_lt; exact Hp). rewrite Q. reflexivity. }
        rewrite Rmult_0_r, Rmult_0_l, Rplus_0_r in NS.
        erewrite sumn_ext; [exact NS|]. intros p Hp. assert (Q : Nat.ltb p i = true) by (apply Nat.ltb_lt; exact Hp).
        cbv beta. rewrite Q. rewrite MV by exact Hp. reflexivity.
      + intros a j Ha Hj Hn. destruct (Nat.eq_dec j i) as [->|N].
        * apply ZP. unfold i. lia.
        * apply UP; unfold i in *; lia.
      + intros a Ha Hn. destruct (Nat.eq_dec a i) as [->|N].
        * right. intros j Hj. destruct (le_lt_dec j i); [apply ZP; assumption|]. apply UP; lia.
        * apply RW; unfold i in *; lia.
    - assert (P : u i i <> 0) by (intro E; rewrite E, Rabs_R0 in NP; lra).
      assert (LI : forall j, (i < j)%nat -> (j < n)%nat -> u i j = 0) by (intros; apply UP; lia).
      split; [|split; [|split]].
      + intros a b Ha Hb. cbv zeta beta.
        assert (A1 : Nat.eqb a i = false) by (apply Nat.eqb_neq; unfold i; lia). assert (A2 : Nat.ltb a i = true) by (apply Nat.ltb_lt; exact Ha).
        assert (B1 : Nat.eqb b i = false) by (apply Nat.eqb_neq; unfold i; lia). assert (B2 : Nat.ltb b i = true) by (apply Nat.ltb_lt; exact Hb).
        rewrite A1, A2, B1, B2.
        pose proof (SY a b ltac:(unfold i; lia) ltac:(unfold i; lia)) as Sab. pose proof (SY a i ltac:(unfold i; lia) ltac:(unfold i; lia)) as Sai.
        pose proof (SY b i ltac:(unfold i; lia) ltac:(unfold i; lia)) as Sbi.
        transitivity (w a * u a b - (w a * u a i) * u i b / u i i); [field; exact P|].
        transitivity (w b * u b a - (w b * u b i) * u i a / u i i); [|field; exact P].
        rewrite Sab, Sai, Sbi. field. exact P.
      + intro x. cbv zeta.
        set (L := sumn (S k) (fun j => u i j * x j)).
        specialize (NS (fun p => if Nat.ltb p i then x p else - (L / u i i))). cbn [sumn] in NS.
        assert (LT : Nat.ltb i i = false) by (apply Nat.ltb_irrefl). rewrite LT in NS.
        assert (MV : forall a, mulmv (S i) u (fun p => if Nat.ltb p i then x p else - (L / u i i)) a = mulmv (S k) u x a - u a i * (L / u i i)).
        { intros a. unfold mulmv. fold i. cbn [sumn]. rewrite LT. rewrite (sumn_ext i _ (fun p => u a p * x p)).
          - ring.
          - intros p Hp. assert (Q : Nat.ltb p i = true) by (apply Nat.ltb_lt; exact Hp). rewrite Q. reflexivity. }
        rewrite (MV i) in NS. fold (mulmv (S k) u x i) in L.
        replace (mulmv (S k) u x i - u i i * (L / u i i)) with 0 in NS by (unfold L; field; exact P).
        rewrite Rmult_0_r, Rplus_0_r in NS.
        erewrite sumn_ext; [exact NS|]. intros p Hp.
        assert (Q : Nat.ltb p i = true) by (apply Nat.ltb_lt; exact Hp). assert (Q1 : Nat.eqb p i = false) by (apply Nat.eqb_neq; unfold i; lia).
        cbv beta. rewrite MV, Q. f_equal. unfold mulmv at 1. rewrite Q1, Q.
        transitivity (sumn (S k) (fun j => u p j * x j + - (u p i / u i i) * (u i j * x j))).
        * apply sumn_ext. intros j _. field. exact P.
        * rewrite sumn_plus, sumn_scal. unfold L, mulmv. field. exact P.
      + intros a j Ha Hj Hn. cbv zeta. destruct (Nat.eqb a i) eqn:A1.
        * apply Nat.eqb_eq in A1. subst a. rewrite LI by lia. unfold Rdiv. ring.
        * apply Nat.eqb_neq in A1. destruct (Nat.ltb a i) eqn:A2.
          { destruct (Nat.eq_dec j i) as [->|N]; [field; exact P|]. rewrite (UP a j) by (unfold i in *; lia). rewrite LI by (unfold i in *; lia). unfold Rdiv. ring. }
          { apply Nat.ltb_ge in A2. apply UP; unfold i in *; lia. }
      + intros a Ha Hn. cbv zeta. destruct (Nat.eqb a i) eqn:A1.
        * left. apply Nat.eqb_eq in A1. subst a. field. exact P.
        * apply Nat.eqb_neq in A1. assert (A2 : Nat.ltb a i = false) by (apply Nat.ltb_ge; unfold i in *; lia). rewrite A2. apply RW; unfold i in *; lia.
  Qed.
  Lemma shape_from : forall k u, (k < n)%nat -> shape k u -> shape 0 (reduce_from 0 k u).
  Proof.
    induction k as [|k IH]; intros u H S0; cbn [reduce_from]; [exact S0|]. apply IH; [lia|]. apply shape_step; assumption.
  Qed.
End Reduce.
(** lower triangular; a row is zero or has 1 on the diagonal *)
Definition echelon (n : nat) (u : mat) : Prop :=
  (forall a j, (a < j)%nat -> (j < n)%nat -> u a j = 0) /\
  (forall a, (a < n)%nat -> u a a = 1 \/ forall j, (j < n)%nat -> u a j = 0) /\ (forall j, (j < n)%nat -> u O j = 0).
Definition reduced (n : nat) (m : mat) : mat := reduce_from 0 (n - 1) (fun i j => m i j - delta i j).
Lemma reduced_echelon : forall n w m, (0 < n)%nat -> symmetric_contraction n w m -> (exists q, allowed n m q /\ q O <> 0) -> echelon n (reduced n m).
Proof.
  intros n w m Hn (W & SY & CO) (q & AQ & Q0).
  assert (S0 : shape n w (n - 1) (fun i j => m i j - delta i j)).
  { replace n with (S (n - 1)) in W, SY, CO by lia. split; [|split; [|split]].
    - intros i j Hi Hj. pose proof (SY i j Hi Hj). unfold delta. destruct (Nat.eq_dec i j), (Nat.eq_dec j i); subst; try congruence; lra.
    - intro x. specialize (CO x). rewrite (sumn_ext (S (n - 1)) _ (fun i => w i * x i * mulmv (S (n - 1)) m x i + - (w i * x i * x i))).
      + rewrite sumn_plus, sumn_opp. lra.
      + intros i Hi. rewrite minus_one by exact Hi. ring.
    - intros; lia.
    - intros; lia. }
  assert (W' : forall i, (i < n)%nat -> 0 < w i) by exact W.
  pose proof (shape_from n w W' (n - 1) _ ltac:(lia) S0) as (_ & _ & UP & RW). fold (reduced n m) in UP, RW.
  assert (U0 : forall j, (0 < j)%nat -> (j < n)%nat -> reduced n m 0%nat j = 0) by (intros; apply UP; lia).
  assert (K : mulmv n (reduced n m) q 0%nat = 0).
  { apply allowed_kernel in AQ. apply (from_kernel 0 n (n - 1) _ q ltac:(lra) ltac:(lia)) in AQ. apply AQ. exact Hn. }
  assert (Z : reduced n m 0%nat 0%nat = 0).
  { unfold mulmv in K. replace n with (S (n - 1)) in K by lia. rewrite sumn_S in K.
    replace (S (n - 1)) with n in K by lia. rewrite (sumn_zero (n - 1)) in K.
    - rewrite Rplus_0_r in K. apply Rmult_integral in K. tauto.
    - intros i Hi. rewrite U0 by lia. ring. }
  assert (R0 : forall j, (j < n)%nat -> reduced n m 0%nat j = 0) by (intros [|j] Hj; [exact Z|apply U0; lia]).
  split; [|split].
  - intros a j Ha Hj. apply UP; lia.
  - intros [|a] Ha; [right; exact R0|]. apply RW; lia.
  - exact R0.
Qed.

(** * the determinants of calc_independent_lines *)
Lemma altsum_zero : forall l s, (forall x, In x l -> x = 0) -> altsum s l = 0.
Proof. induction l as [|x r IH]; intros s H; cbn; [reflexivity|]. rewrite (H x) by (left; reflexivity). rewrite IH by (intros; apply H; right; assumption). ring. Qed.
Lemma det_lower : forall m a l, (forall j, In j l -> m a j = 0) -> det_list (sub_matrix m (a :: l)) = m a a * det_list (sub_matrix m l).
Proof.
  intros m a l H. unfold det_list, sub_matrix at 1 2. cbn [map length det_rows].
  assert (L : length (map (fun i => map (fun j => m i j) (a :: l)) l) = length l) by apply map_length. cbn [map] in L. rewrite L.
  cbn [seq map altsum nth].
  rewrite altsum_zero.
  - rewrite Rmult_1_l, Rplus_0_r. f_equal. unfold sub_matrix. rewrite map_length. f_equal. rewrite map_map. apply map_ext. intro i. reflexivity.
  - intros x Hx. apply in_map_iff in Hx. destruct Hx as (k & <- & Hk). apply in_seq in Hk.
    destruct k as [|k]; [lia|].
    assert (E : nth k (map (fun j => m a j) l) 0 = 0).
    { destruct (nth_in_or_default k (map (fun j => m a j) l) 0) as [I|D]; [|exact D]. apply in_map_iff in I. destruct I as (j & <- & Hj). rewrite H by exact Hj. reflexivity. }
    rewrite E. ring.
Qed.
Lemma det_lower_all : forall m l, ForallOrdPairs (fun a j => m a j = 0) l -> (forall a, In a l -> m a a = 1) ->
  forall i, (forall a, In a l -> m a i = 0) -> det_list (sub_matrix m (l ++ [i])) = m i i.
Proof.
  intros m l F. induction F as [|a l FA F IH]; intros D i Z.
  - cbn [app]. rewrite det_lower by (intros j []). unfold det_list, sub_matrix. cbn. ring.
  - cbn [app]. rewrite det_lower.
    + rewrite D by (left; reflexivity). rewrite IH; [ring| |]; intros; [apply D|apply Z]; right; assumption.
    + intros j Hj. apply in_app_iff in Hj. rewrite Forall_forall in FA. destruct Hj as [Hj|[<-|[]]]; [apply FA; exact Hj|apply Z; left; reflexivity].
Qed.
Definition is_one (c : mat) (i : nat) : bool := if Req_EM_T (c i i) 1 then true else false.
Lemma fop_filter : forall (R0 : nat -> nat -> Prop) f l, ForallOrdPairs R0 l -> ForallOrdPairs R0 (filter f l).
Proof.
  intros R0 f l F. induction F as [|a l FA F IH]; cbn; [constructor|]. destruct (f a); [|exact IH]. constructor; [|exact IH].
  rewrite Forall_forall in *. intros x Hx. apply filter_In in Hx. apply FA. tauto.
Qed.
Lemma fop_seq : forall (R0 : nat -> nat -> Prop) k s, (forall a b, (s <= a < b)%nat -> (b < s + k)%nat -> R0 a b) -> ForallOrdPairs R0 (seq s k).
Proof.
  intros R0 k. induction k as [|k IH]; intros s H; cbn; [constructor|]. constructor.
  - rewrite Forall_forall. intros x Hx. apply in_seq in Hx. apply H; lia.
  - apply IH. intros a b A B. apply H; lia.
Qed.
Definition lower01 (n : nat) (c : mat) : Prop :=
  (forall a j, (a < j)%nat -> (j < n)%nat -> c a j = 0) /\ (forall a, (a < n)%nat -> c a a = 1 \/ c a a = 0) /\ c O O = 1.
Lemma independent_lines : forall n c, (0 < n)%nat -> lower01 n c -> calc_independent_lines n c = filter (is_one c) (seq 0 n).
Proof.
  intros n c Hn (UP & DG & C0). unfold calc_independent_lines.
  assert (E0 : filter (is_one c) (seq 0 1) = [0%nat]).
  { cbn. unfold is_one. rewrite C0. destruct (Req_EM_T 1 1); [reflexivity|congruence]. }
  assert (G : forall k, (k < n)%nat -> fold_left (indep_step c) (seq 1 k) [0%nat] = filter (is_one c) (seq 0 (S k))).
  { induction k as [|k IH]; intro Hk; [symmetry; exact E0|].
    rewrite (seq_S k 1). change (1 + k)%nat with (S k).
    rewrite fold_left_app, IH by lia. cbn [fold_left].
    rewrite (seq_S (S k) 0). change (0 + S k)%nat with (S k).
    rewrite filter_app. cbn [filter]. unfold indep_step at 1.
    rewrite (det_lower_all c).
    - unfold is_one at 4. destruct (DG (S k) ltac:(lia)) as [D|D]; rewrite D.
      + rewrite Rabs_R1. destruct (Rle_dec 1 (1 / 100000000)); [lra|]. destruct (Req_EM_T 1 1); [reflexivity|congruence].
      + rewrite Rabs_R0. destruct (Rle_dec 0 (1 / 100000000)); [|lra]. destruct (Req_EM_T 0 1); [lra|rewrite app_nil_r; reflexivity].
    - apply fop_filter, fop_seq. intros a b A B. apply UP; lia.
    - intros a Ha. apply filter_In in Ha. destruct Ha as [_ Ha]. unfold is_one in Ha. destruct (Req_EM_T (c a a) 1); [assumption|discriminate].
    - intros a Ha. apply filter_In in Ha. destruct Ha as [Ha _]. apply in_seq in Ha. apply UP; lia. }
  rewrite G by lia. f_equal. f_equal. lia.
Qed.
Lemma con_iff : forall n c i, (0 < n)%nat -> lower01 n c -> (i < n)%nat -> (constr_con n c i = false <-> c i i = 1).
Proof.
  intros n c i Hn L Hi. unfold constr_con. rewrite (independent_lines n c Hn L).
  assert (E : existsb (Nat.eqb i) (filter (is_one c) (seq 0 n)) = is_one c i).
  { apply eq_true_iff_eq. rewrite existsb_exists. split.
    - intros (x & Hx & Q). apply Nat.eqb_eq in Q. subst x. apply filter_In in Hx. tauto.
    - intro Q. exists i. split; [|apply Nat.eqb_refl]. apply filter_In. split; [apply in_seq; lia|exact Q]. }
  rewrite E. unfold is_one. destruct (Req_EM_T (c i i) 1); cbn; split; intro H; congruence.
Qed.

(** * free and dependent elements *)
Section Free.
  Variables (n : nat) (m : mat) (w : vec).
  Hypothesis Hn : (0 < n)%nat.
  Hypothesis SC : symmetric_contraction n w m.
  Hypothesis EX : exists q, allowed n m q /\ q O <> 0.
  Let c := constr_matrix_unrounded 0 n m.
  Lemma c_is : forall i j, c i j = delta i j - reduced n m i j.
  Proof. reflexivity. Qed.
  Lemma delta_same : forall i, delta i i = 1.
  Proof. intro i. unfold delta. destruct (Nat.eq_dec i i); congruence. Qed.
  Lemma delta_diff : forall i j, i <> j -> delta i j = 0.
  Proof. intros i j H. unfold delta. destruct (Nat.eq_dec i j); congruence. Qed.
  Lemma c_lower : lower01 n c.
  Proof.
    destruct (reduced_echelon n w m Hn SC EX) as (UP & RW & Z0). split; [|split].
    - intros a j Ha Hj. rewrite c_is, UP, delta_diff by lia. lra.
    - intros a Ha. rewrite c_is, delta_same. destruct (RW a Ha) as [E|E]; [right; lra|left; rewrite (E a Ha); lra].
    - rewrite c_is, delta_same, Z0 by exact Hn. lra.
  Qed.
  Lemma free_row : forall i, (i < n)%nat -> constr_con n c i = false -> forall j, (j < n)%nat -> c i j = delta i j.
  Proof.
    intros i Hi F j Hj. apply (con_iff n c i Hn c_lower Hi) in F.
    destruct (reduced_echelon n w m Hn SC EX) as (UP & RW & Z0). rewrite c_is, delta_same in F. rewrite c_is.
    destruct (RW i Hi) as [E|E]; [lra|]. rewrite (E j Hj). lra.
  Qed.
  Lemma dep_row : forall i, (i < n)%nat -> constr_con n c i = true -> forall j, (i <= j)%nat -> (j < n)%nat -> c i j = 0.
  Proof.
    intros i Hi F j Hij Hj. destruct c_lower as (UP & DG & _).
    assert (D : c i i = 0).
    { destruct (DG i Hi) as [D|D]; [|exact D]. apply (con_iff n c i Hn c_lower Hi) in D. congruence. }
    destruct (Nat.eq_dec i j) as [<-|N]; [exact D|]. apply UP; lia.
  Qed.
  Lemma value_free : forall v i, (i < n)%nat -> constr_con n c i = false -> constr_values n c v i = v i.
  Proof.
    intros v i Hi F. unfold constr_values. rewrite <- (delta_row n v i Hi). unfold mulmv. apply sumn_ext. intros j Hj.
    rewrite (free_row i Hi F j Hj). reflexivity.
  Qed.
  Lemma value_dep : forall v v' i, (i < n)%nat -> constr_con n c i = true -> (forall j, (j < i)%nat -> v j = v' j) ->
    constr_values n c v i = constr_values n c v' i.
  Proof.
    intros v v' i Hi F H. unfold constr_values, mulmv. apply sumn_ext. intros j Hj.
    destruct (le_lt_dec i j) as [L|L]; [rewrite (dep_row i Hi F j L Hj); ring|]. rewrite (H j L). reflexivity.
  Qed.
  Lemma allowed_c : forall q, allowed n m q <-> forall i, (i < n)%nat -> constr_values n c q i = q i.
  Proof. intro q. rewrite <- (kernel_kept 0 n m q (Rle_refl 0) Hn). reflexivity. Qed.
  Lemma unique : forall q r, allowed n m q -> allowed n m r -> (forall i, (i < n)%nat -> constr_con n c i = false -> q i = r i) ->
    forall i, (i < n)%nat -> q i = r i.
  Proof.
    intros q r Q R0 H i. rewrite allowed_c in Q, R0. induction i as [i IH] using (well_founded_induction lt_wf). intro Hi.
    destruct (constr_con n c i) eqn:F; [|apply H; assumption].
    rewrite <- (Q i Hi), <- (R0 i Hi). apply value_dep; [exact Hi|exact F|]. intros j Hj. apply IH; lia.
  Qed.
  Lemma stable : forall v k i, (i < k)%nat -> (i < n)%nat ->
    times (S k) (constr_values n c) v i = times k (constr_values n c) v i.
  Proof.
    intros v k. induction k as [|k IH]; intros i Hk Hi; [lia|].
    change (constr_values n c (times (S k) (constr_values n c) v) i = times (S k) (constr_values n c) v i).
    destruct (constr_con n c i) eqn:F; [|apply value_free; assumption].
    change (times (S k) (constr_values n c) v i) with (constr_values n c (times k (constr_values n c) v) i).
    apply value_dep; [exact Hi|exact F|]. intros j Hj. apply IH; lia.
  Qed.
  Lemma repeated : forall v, allowed n m (times n (constr_values n c) v).
  Proof. intro v. apply allowed_c. intros i Hi. apply (stable v n i Hi Hi). Qed.
  Lemma repeated_free : forall v k i, (i < n)%nat -> constr_con n c i = false -> times k (constr_values n c) v i = v i.
  Proof.
    intros v k i Hi F. induction k as [|k IH]; [reflexivity|].
    change (constr_values n c (times k (constr_values n c) v) i = v i). rewrite value_free by assumption. exact IH.
  Qed.
  Lemma exists_allowed : forall v, exists q, allowed n m q /\ forall i, (i < n)%nat -> constr_con n c i = false -> q i = v i.
  Proof. intro v. exists (times n (constr_values n c) v). split; [apply repeated|]. intros; apply repeated_free; assumption. Qed.
  Lemma sigma_free : forall s i, (i < n)%nat -> 0 <= s i -> constr_con n c i = false -> constr_sigma n c s i = s i.
  Proof.
    intros s i Hi P F. unfold constr_sigma.
    rewrite (sumn_ext n _ (fun k => delta i k * (s k)²)).
    - rewrite sumn_delta' by exact Hi. apply sqrt_Rsqr. exact P.
    - intros k Hk. rewrite (free_row i Hi F k Hk). f_equal. unfold delta. destruct (Nat.eq_dec i k); unfold Rsqr; ring.
  Qed.
  Lemma not_zero5_one : not_zero5 1 = true.
  Proof.
    assert (E : np_round 5 1 = 1).
    { pose proof (np_round_exact 5 100000) as E. replace (IZR 100000 / 10 ^ 5) with 1 in E by (simpl; lra). exact E. }
    unfold not_zero5. rewrite E, Rabs_R1. destruct (Rle_dec 1 (1 / 100000000)); [lra|reflexivity].
  Qed.
  Lemma not_zero5_zero : not_zero5 0 = false.
  Proof.
    assert (E : np_round 5 0 = 0).
    { pose proof (np_round_exact 5 0) as E. replace (IZR 0 / 10 ^ 5) with 0 in E by (simpl; lra). exact E. }
    unfold not_zero5. rewrite E, Rabs_R0. destruct (Rle_dec 0 (1 / 100000000)); [reflexivity|lra].
  Qed.
  Lemma ref_free : forall ref i, (i < n)%nat -> constr_ref n c ref i = if constr_con n c i then false else ref i.
  Proof.
    intros ref i Hi. unfold constr_ref. destruct (constr_con n c i) eqn:F; [apply andb_false_r|]. cbn [negb]. rewrite andb_true_r.
    apply eq_true_iff_eq. rewrite existsb_exists. split.
    - intros (k & Hk & Q). apply in_seq in Hk. rewrite (free_row i Hi F k ltac:(lia)) in Q. destruct (Nat.eq_dec i k) as [<-|N].
      + apply andb_prop in Q. tauto.
      + rewrite delta_diff, not_zero5_zero in Q by exact N. discriminate.
    - intro Q. exists i. split; [apply in_seq; lia|]. rewrite (free_row i Hi F i Hi), delta_same, not_zero5_one, Q. reflexivity.
  Qed.
End Free.
