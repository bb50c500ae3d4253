(** error_estimation_simplex for quadratic functions (C106). *)
From Coq Require Import Reals Lra Lia List Arith.
From Verif Require Import Spec.LinN Spec.SimplexSpec Model.SimplexErr Proofs.LinNP.
Import ListNotations.
Open Scope R_scope.

Lemma delta_sym : forall i j, delta i j = delta j i.
Proof. intros i j. unfold delta. destruct (Nat.eq_dec i j), (Nat.eq_dec j i); congruence. Qed.
Lemma quad_two : forall n x c g h func i j a b p, quadratic n x c g h func -> (forall k l, h k l = h l k) -> (i < n)%nat -> (j < n)%nat ->
  (forall k, (k < n)%nat -> p k = x k + a * delta k i + b * delta k j) ->
  func p = c + a * g i + b * g j + a * a * h i i + 2 * a * b * h i j + b * b * h j j.
Proof.
  intros n x c g h func i j a b p Q S Hi Hj P. rewrite Q.
  assert (E1 : sumn n (fun k => g k * (p k - x k)) = a * g i + b * g j).
  { rewrite (sumn_ext n _ (fun k => a * (g k * delta k i) + b * (g k * delta k j))) by (intros k Hk; rewrite (P k Hk); ring).
    rewrite sumn_plus, !sumn_scal, !sumn_delta by assumption. reflexivity. }
  assert (E2 : forall k, sumn n (fun l => h k l * (p k - x k) * (p l - x l)) = (p k - x k) * (a * h k i + b * h k j)).
  { intros k. rewrite (sumn_ext n _ (fun l => (p k - x k) * (a * (h k l * delta l i) + b * (h k l * delta l j)))) by (intros l Hl; rewrite (P l Hl); ring).
    rewrite sumn_scal, sumn_plus, !sumn_scal, !sumn_delta by assumption. reflexivity. }
  rewrite E1. rewrite (sumn_ext n _ (fun k => a * ((a * h k i + b * h k j) * delta k i) + b * ((a * h k i + b * h k j) * delta k j))) by (intros k Hk; rewrite E2, (P k Hk); ring).
  rewrite sumn_plus, !sumn_scal. rewrite (sumn_delta n i (fun k => a * h k i + b * h k j)), (sumn_delta n j (fun k => a * h k i + b * h k j)) by assumption.
  rewrite (S j i). ring.
Qed.
Lemma vertex_delta : forall n vs i k, vertex_vector n vs (S i) k = vs 0%nat k + max_radius n vs i * delta k i.
Proof.
  intros n vs i k. unfold vertex_vector, delta. destruct (Nat.eqb_spec i k) as [->|E].
  - destruct (Nat.eq_dec k k); [lra|congruence].
  - destruct (Nat.eq_dec k i); [congruence|lra].
Qed.
Lemma mid_value : forall n vs c g h func i, quadratic n (vs 0%nat) c g h func -> (forall k l, h k l = h l k) -> (i < n)%nat ->
  m_chi_sq_0i n vs func i = c + max_radius n vs i / 2 * g i + Rsqr (max_radius n vs i / 2) * h i i.
Proof.
  intros n vs c g h func i Q S Hi. unfold m_chi_sq_0i. rewrite (quad_two n (vs 0%nat) c g h func i i (max_radius n vs i / 2) 0 _ Q S Hi Hi); [unfold Rsqr; ring|].
  intros k Hk. rewrite vertex_delta. lra.
Qed.
Lemma start_value : forall n vs c g h func, quadratic n (vs 0%nat) c g h func -> chi_sq_0 vs func = c.
Proof.
  intros n vs c g h func Q. unfold chi_sq_0, vertex_chi_sq. rewrite Q. rewrite sumn_zero by (intros; ring). rewrite sumn_zero; [ring|]. intros i _. apply sumn_zero. intros; ring.
Qed.
Lemma b_off_value : forall n vs c g h func i j, quadratic n (vs 0%nat) c g h func -> (forall k l, h k l = h l k) -> (i < n)%nat -> (j < n)%nat ->
  b_off n vs func i j = h i j * max_radius n vs i * max_radius n vs j.
Proof.
  intros n vs c g h func i j Q S Hi Hj. unfold b_off. rewrite (start_value n vs c g h func Q), (mid_value n vs c g h func i Q S Hi), (mid_value n vs c g h func j Q S Hj).
  rewrite (quad_two n (vs 0%nat) c g h func i j (max_radius n vs i / 2) (max_radius n vs j / 2) _ Q S Hi Hj).
  - unfold Rsqr. field.
  - intros k Hk. rewrite !vertex_delta. lra.
Qed.
Lemma off_diagonal : forall n vs c g h func i j, quadratic n (vs 0%nat) c g h func -> (forall k l, h k l = h l k) -> (i < n)%nat -> (j < n)%nat -> i <> j ->
  m_b n vs func i j = h i j * max_radius n vs i * max_radius n vs j.
Proof.
  intros n vs c g h func i j Q S Hi Hj N. unfold m_b. destruct (Nat.eqb_spec i j); [contradiction|]. destruct (Nat.ltb i j).
  - apply (b_off_value n vs c g h func i j Q S Hi Hj).
  - rewrite (b_off_value n vs c g h func j i Q S Hj Hi), (S j i). ring.
Qed.
(** ** a simplex along the axes *)
Lemma fold_rmax : forall (f : nat -> R) l m0, 0 <= m0 -> (forall i, In i l -> 0 <= f i) ->
  (forall i, In i l -> f i <= fold_left (fun m i => Rmax m (f i)) l m0) /\ m0 <= fold_left (fun m i => Rmax m (f i)) l m0 /\
  (fold_left (fun m i => Rmax m (f i)) l m0 = m0 \/ exists i, In i l /\ fold_left (fun m i => Rmax m (f i)) l m0 = f i).
Proof.
  intros f. induction l as [|x l IH]; intros m0 H0 H; cbn [fold_left].
  - split; [intros i []|]. split; [lra|left; reflexivity].
  - destruct (IH (Rmax m0 (f x))) as (I1 & I2 & I3); [apply Rle_trans with m0; [exact H0|apply Rmax_l]|intros i Hi; apply H; right; exact Hi|].
    split; [intros i [<-|Hi]; [apply Rle_trans with (Rmax m0 (f x)); [apply Rmax_r|exact I2]|exact (I1 i Hi)]|].
    split; [apply Rle_trans with (Rmax m0 (f x)); [apply Rmax_l|exact I2]|].
    destruct I3 as [I3|(i & Hi & I3)]; [|right; exists i; split; [right; exact Hi|exact I3]].
    rewrite I3. unfold Rmax. destruct (Rle_dec m0 (f x)); [right; exists x; split; [left; reflexivity|reflexivity]|left; reflexivity].
Qed.
Lemma axes_radius : forall n vs r i, on_axes n vs r -> (i < n)%nat -> max_radius n vs i = r i.
Proof.
  intros n vs r i A Hi. unfold max_radius. set (f := fun k => Rabs (vs k i - vs 0%nat i)).
  assert (F : forall k, In k (seq 1 n) -> f k = if Nat.eqb i (Nat.pred k) then r i else 0).
  { intros k Hk. apply in_seq in Hk. destruct k as [|k]; [lia|]. unfold f. cbn [Nat.pred]. destruct (A k) as [P E]; [lia|]. rewrite (E i Hi). destruct (Nat.eqb_spec i k) as [->|N].
    - replace (_ - _) with (r k) by lra. apply Rabs_pos_eq. lra.
    - replace (_ - _) with 0 by lra. apply Rabs_R0. }
  pose proof (proj1 (A i Hi)) as P.
  destruct (fold_rmax f (seq 1 n) 0) as (I1 & I2 & I3); [lra|intros; apply Rabs_pos|]. change (fold_left (fun m i0 => Rmax m (Rabs (vs i0 i - vs 0%nat i))) (seq 1 n) 0) with (fold_left (fun m k => Rmax m (f k)) (seq 1 n) 0).
  set (v := fold_left _ _ _) in *. clearbody v.
  assert (IN : In (S i) (seq 1 n)) by (apply in_seq; lia). pose proof (I1 _ IN) as L. rewrite (F _ IN) in L. cbn [Nat.pred] in L. rewrite Nat.eqb_refl in L.
  destruct I3 as [I3|(k & Hk & I3)]; [lra|]. rewrite (F k Hk) in I3. destruct (Nat.eqb i (Nat.pred k)); lra.
Qed.
Lemma axes_b : forall n vs c g h func r i j, quadratic n (vs 0%nat) c g h func -> (forall k l, h k l = h l k) -> on_axes n vs r -> (i < n)%nat -> (j < n)%nat ->
  m_b n vs func i j = h i j * r i * r j.
Proof.
  intros n vs c g h func r i j Q S A Hi Hj. destruct (Nat.eq_dec i j) as [<-|N].
  - unfold m_b. rewrite Nat.eqb_refl. rewrite (start_value n vs c g h func Q), (mid_value n vs c g h func i Q S Hi), (axes_radius n vs r i A Hi). unfold vertex_chi_sq.
    rewrite (quad_two n (vs 0%nat) c g h func i i (r i) 0 _ Q S Hi Hi); [unfold Rsqr; field|].
    intros k Hk. destruct (A i Hi) as [_ E]. rewrite (E k Hk). unfold delta. destruct (Nat.eqb_spec k i), (Nat.eq_dec k i); try contradiction; lra.
  - rewrite (off_diagonal n vs c g h func i j Q S Hi Hj N), !(axes_radius n vs r) by assumption. reflexivity.
Qed.
Lemma axes_a : forall n vs c g h func r i, quadratic n (vs 0%nat) c g h func -> (forall k l, h k l = h l k) -> on_axes n vs r -> (i < n)%nat -> v_a n vs func i = g i * r i.
Proof.
  intros n vs c g h func r i Q S A Hi. unfold v_a. rewrite (start_value n vs c g h func Q), (mid_value n vs c g h func i Q S Hi), (axes_radius n vs r i A Hi). unfold vertex_chi_sq.
  rewrite (quad_two n (vs 0%nat) c g h func i i (r i) 0 _ Q S Hi Hi); [unfold Rsqr; field|].
  intros k Hk. destruct (A i Hi) as [_ E]. rewrite (E k Hk). unfold delta. destruct (Nat.eqb_spec k i), (Nat.eq_dec k i); try contradiction; lra.
Qed.
Lemma inverse_unique : forall n a b b', is_inverse n a b -> is_inverse n a b' -> forall i j, (i < n)%nat -> (j < n)%nat -> b i j = b' i j.
Proof.
  intros n a b b' H H' i j Hi Hj.
  transitivity (mulmm n (mulmm n b a) b' i j).
  - transitivity (mulmm n b (mulmm n a b') i j); [|symmetry; apply mulmm_assoc]. unfold mulmm at 1. symmetry. rewrite <- (sumn_delta n j (fun k => b i k)) by exact Hj.
    apply sumn_ext. intros k Hk. rewrite (proj1 (H' k j Hk Hj)). reflexivity.
  - unfold mulmm at 1. rewrite <- (sumn_delta' n i (fun k => b' k j)) by exact Hi. apply sumn_ext. intros k Hk. rewrite (proj2 (H i k Hi Hk)). reflexivity.
Qed.
Lemma axes_inverse : forall n vs c g h hi func r, quadratic n (vs 0%nat) c g h func -> (forall k l, h k l = h l k) -> on_axes n vs r -> is_inverse n h hi ->
  is_inverse n (m_b n vs func) (fun i j => hi i j / (r i * r j)).
Proof.
  intros n vs c g h hi func r Q S A I i j Hi Hj. pose proof (proj1 (A i Hi)) as Pi. pose proof (proj1 (A j Hj)) as Pj. destruct (I i j Hi Hj) as [I1 I2].
  assert (D : forall x : R, x * (r i / r j) = delta i j -> True) by trivial. clear D.
  split.
  - unfold mulmm. rewrite (sumn_ext n _ (fun k => (r i / r j) * (h i k * hi k j))).
    + rewrite sumn_scal. fold (mulmm n h hi i j). rewrite I1. unfold delta. destruct (Nat.eq_dec i j) as [->|]; [field; lra|ring].
    + intros k Hk. rewrite (axes_b n vs c g h func r i k Q S A Hi Hk). pose proof (proj1 (A k Hk)). field. lra.
  - unfold mulmm. rewrite (sumn_ext n _ (fun k => (r j / r i) * (hi i k * h k j))).
    + rewrite sumn_scal. fold (mulmm n hi h i j). rewrite I2. unfold delta. destruct (Nat.eq_dec i j) as [->|]; [field; lra|ring].
    + intros k Hk. rewrite (axes_b n vs c g h func r k j Q S A Hk Hj). pose proof (proj1 (A k Hk)). field. lra.
Qed.
Lemma axes_result : forall n vs c g h hi func r m_ib, quadratic n (vs 0%nat) c g h func -> (forall k l, h k l = h l k) -> on_axes n vs r -> is_inverse n h hi ->
  is_inverse n (m_b n vs func) m_ib -> forall i, (i < n)%nat ->
  (forall j, (j < n)%nat -> fst (error_estimation_simplex n vs func m_ib) i j = 2 * c * hi i j) /\
  snd (error_estimation_simplex n vs func m_ib) i = Rabs (mulmv n hi g i) /\
  forall x, (forall j, (j < n)%nat -> 2 * mulmv n h (fun k => x k - vs 0%nat k) j + g j = 0) -> snd (error_estimation_simplex n vs func m_ib) i = 2 * Rabs (x i - vs 0%nat i).
Proof.
  intros n vs c g h hi func r m_ib Q S A I IB i Hi.
  assert (U : forall i j, (i < n)%nat -> (j < n)%nat -> m_ib i j = hi i j / (r i * r j)).
  { exact (inverse_unique n _ _ _ IB (axes_inverse n vs c g h hi func r Q S A I)). }
  assert (MQ : forall i k, (i < n)%nat -> m_q n vs i k = r i * delta k i) by (intros i' k Hi'; unfold m_q; rewrite vertex_delta, (axes_radius n vs r i' A Hi'); ring).
  assert (QIB : forall j, (j < n)%nat -> mulmm n (m_q n vs) m_ib i j = hi i j / r j).
  { intros j Hj. unfold mulmm. rewrite (sumn_ext n _ (fun k => r i * (m_ib k j * delta k i))) by (intros k Hk; rewrite (MQ i k Hi); ring).
    rewrite sumn_scal, (sumn_delta n i (fun k => m_ib k j)) by exact Hi. rewrite (U i j Hi Hj). pose proof (proj1 (A i Hi)). pose proof (proj1 (A j Hj)). field. lra. }
  assert (D : snd (error_estimation_simplex n vs func m_ib) i = Rabs (mulmv n hi g i)).
  { unfold error_estimation_simplex. cbn [snd]. f_equal. unfold mulmv. apply sumn_ext. intros k Hk. rewrite (QIB k Hk), (axes_a n vs c g h func r k Q S A Hk). pose proof (proj1 (A k Hk)). field. lra. }
  split; [|split; [exact D|]].
  - intros j Hj. unfold error_estimation_simplex. cbn [fst]. rewrite (start_value n vs c g h func Q). f_equal. unfold mulmm at 1, transpose.
    rewrite (sumn_ext n _ (fun k => r j * (hi i k / r k * delta k j))) by (intros k Hk; rewrite (QIB k Hk), (MQ j k Hj); ring).
    rewrite sumn_scal, (sumn_delta n j (fun k => hi i k / r k)) by exact Hj. pose proof (proj1 (A j Hj)). field. lra.
  - intros x X. rewrite D. set (d := fun k => x k - vs 0%nat k) in *.
    assert (E : mulmv n hi g i = -2 * d i).
    { unfold mulmv. rewrite (sumn_ext n _ (fun k => -2 * (hi i k * mulmv n h d k))) by (intros k Hk; replace (g k) with (-2 * mulmv n h d k) by (pose proof (X k Hk); lra); ring).
      rewrite sumn_scal. f_equal. unfold mulmv. rewrite (sumn_ext n _ (fun k => sumn n (fun l => hi i k * h k l * d l))) by (intros k Hk; rewrite <- sumn_scal; apply sumn_ext; intros; ring).
      rewrite sumn_swap. rewrite <- (sumn_delta' n i d) by exact Hi. apply sumn_ext. intros l Hl. rewrite sumn_scal_r. fold (mulmm n hi h i l). rewrite (proj2 (I i l Hi Hl)). reflexivity. }
    rewrite E, Rabs_mult. unfold d. rewrite (Rabs_left (-2)) by lra. ring.
Qed.

(** ** other simplices *)
Definition sq2 : vec -> R := fun p => 1 + p 0%nat * p 0%nat + p 1%nat * p 1%nat.
Definition vs2 : nat -> vec := fun i k => match i, k with 1%nat, 0%nat | 1%nat, 1%nat | 2%nat, 0%nat => 1 | 2%nat, 1%nat => -1 | _, _ => 0 end.
Ltac lt2 i := destruct i as [|[|i]]; [| |exfalso; lia].
Lemma rad2 : forall j, (j < 2)%nat -> max_radius 2 vs2 j = 1.
Proof.
  intros j Hj. lt2 j; unfold max_radius, vs2; cbn [seq fold_left]; unfold Rmax; repeat match goal with |- context [Rabs ?x] => let H := fresh in assert (H : Rabs x = 1) by (unfold Rabs; destruct (Rcase_abs x); lra); rewrite H; clear H end;
  repeat (match goal with |- context [Rle_dec ?a ?b] => destruct (Rle_dec a b) end); lra.
Qed.
Lemma b2 : forall i j, (i < 2)%nat -> (j < 2)%nat -> m_b 2 vs2 sq2 i j = 3 * delta i j.
Proof.
  pose proof (rad2 0%nat ltac:(lia)) as R0. pose proof (rad2 1%nat ltac:(lia)) as R1.
  intros i j Hi Hj. lt2 i; lt2 j; unfold m_b, delta; cbn [Nat.eqb Nat.ltb Nat.leb Nat.eq_dec]; unfold b_off, vertex_chi_sq, chi_sq_0, m_chi_sq_0i, vertex_chi_sq, sq2; rewrite !vertex_delta; rewrite ?R0, ?R1; unfold delta, vs2; cbn; lra.
Qed.
Lemma simplex_refuted : exists (vs : nat -> vec) (func : vec -> R) (m_ib : mat),
  (forall p, func p = 1 + p 0%nat * p 0%nat + p 1%nat * p 1%nat) /\ (forall k, vs 0%nat k = 0) /\ (forall p, func (vs 0%nat) <= func p) /\
  vs 1%nat 0%nat * vs 2%nat 1%nat - vs 1%nat 1%nat * vs 2%nat 0%nat <> 0 /\ is_inverse 2 (m_b 2 vs func) m_ib /\
  fst (error_estimation_simplex 2 vs func m_ib) 0%nat 0%nat = 2 / 3.
Proof.
  exists vs2, sq2, (fun i j => / 3 * delta i j). split; [reflexivity|]. split; [intros k; reflexivity|]. split; [intros p; unfold sq2, vs2; nra|]. split; [unfold vs2; lra|]. split.
  - intros i j Hi Hj. split; unfold mulmm; cbn [sumn]; rewrite !b2 by lia; lt2 i; lt2 j; unfold delta; cbn; lra.
  - pose proof (rad2 0%nat ltac:(lia)) as R0. pose proof (rad2 1%nat ltac:(lia)) as R1.
    unfold error_estimation_simplex. cbn [fst]. unfold mulmm, transpose. cbn [sumn]. unfold m_q. rewrite !vertex_delta. rewrite ?R0, ?R1. unfold chi_sq_0, vertex_chi_sq, sq2, delta, vs2. cbn. lra.
Qed.
Definition sq1 : vec -> R := fun p => 10 + p 0%nat + p 0%nat * p 0%nat.
Definition vs1 : nat -> vec := fun i k => match i, k with 1%nat, 0%nat => -1 | _, _ => 0 end.
Lemma rad1 : max_radius 1 vs1 0%nat = 1.
Proof. unfold max_radius, vs1. cbn [seq fold_left]. unfold Rmax, Rabs. destruct (Rcase_abs (-1 - 0)); [|lra]. destruct (Rle_dec 0 (- (-1 - 0))); lra. Qed.
Lemma simplex_negative : exists (vs : nat -> vec) (func : vec -> R) (m_ib : mat),
  (forall p, func p = 10 + p 0%nat + p 0%nat * p 0%nat) /\ vs 0%nat 0%nat = 0 /\ vs 1%nat 0%nat = -1 /\ is_inverse 1 (m_b 1 vs func) m_ib /\
  fst (error_estimation_simplex 1 vs func m_ib) 0%nat 0%nat = -20 / 3.
Proof.
  assert (B : m_b 1 vs1 sq1 0%nat 0%nat = -3).
  { unfold m_b, vertex_chi_sq, chi_sq_0, m_chi_sq_0i, vertex_chi_sq, sq1. cbn [Nat.eqb]. rewrite !vertex_delta, rad1. unfold delta, vs1. cbn. lra. }
  exists vs1, sq1, (fun i j => - / 3). split; [reflexivity|]. split; [reflexivity|]. split; [reflexivity|]. split.
  - intros i j Hi Hj. replace i with 0%nat by lia. replace j with 0%nat by lia. unfold mulmm. cbn [sumn]. rewrite B. unfold delta. cbn. lra.
  - unfold error_estimation_simplex. cbn [fst]. unfold mulmm, transpose. cbn [sumn]. unfold m_q. rewrite !vertex_delta, rad1. unfold chi_sq_0, vertex_chi_sq, sq1, delta, vs1. cbn. lra.
Qed.
Lemma axes_sigma : forall n vs c g h hi func r m_ib number i, quadratic n (vs 0%nat) c g h func -> (forall k l, h k l = h l k) -> on_axes n vs r -> is_inverse n h hi ->
  is_inverse n (m_b n vs func) m_ib -> (i < n)%nat -> (forall j, (j < n)%nat -> g j = 0) -> 0 <= c -> 0 <= hi i i -> 0 < number ->
  simplex_sigma n vs func m_ib number i = sqrt (2 * c * hi i i / number).
Proof.
  intros n vs c g h hi func r m_ib number i Q S A I IB Hi G C H N. unfold simplex_sigma. destruct (axes_result n vs c g h hi func r m_ib Q S A I IB i Hi) as (E1 & E2 & _).
  specialize (E1 i Hi). destruct (error_estimation_simplex n vs func m_ib) as [m d]. cbn [fst snd] in *. rewrite E1, E2. unfold mulmv. rewrite (sumn_zero n) by (intros k Hk; rewrite (G k Hk); ring).
  assert (P : 0 <= 2 * c * hi i i) by (apply Rmult_le_pos; lra). rewrite Rabs_R0, (Rabs_pos_eq _ P), Rmult_1_r. apply Rmax_left, sqrt_pos.
Qed.
Lemma axes_met : exists n vs c g h hi func r m_ib, n = 2%nat /\ quadratic n (vs 0%nat) c g h func /\ (forall k l, h k l = h l k) /\ on_axes n vs r /\ is_inverse n h hi /\ is_inverse n (m_b n vs func) m_ib /\ g 0%nat <> 0.
Proof.
  pose (g := fun _ : nat => 1). pose (h := fun i j : nat => if Nat.eqb i j then 2 else 1). pose (hi := fun i j : nat => if Nat.eqb i j then 2 / 3 else - / 3).
  pose (vs := fun i k : nat => match i with O => 0 | S i => if Nat.eqb k i then 1 else 0 end). pose (r := fun _ : nat => 1).
  pose (func := fun p : vec => 5 + sumn 2 (fun i => g i * (p i - vs 0%nat i)) + sumn 2 (fun i => sumn 2 (fun j => h i j * (p i - vs 0%nat i) * (p j - vs 0%nat j)))).
  assert (Q : quadratic 2 (vs 0%nat) 5 g h func) by (intros p; reflexivity).
  assert (S : forall k l, h k l = h l k) by (intros k l; unfold h; rewrite Nat.eqb_sym; reflexivity).
  assert (A : on_axes 2 vs r) by (intros i Hi; split; [unfold r; lra|intros k Hk; unfold vs, r; destruct (Nat.eqb k i); lra]).
  assert (I : is_inverse 2 h hi).
  { intros i j Hi Hj. split; lt2 i; lt2 j; unfold mulmm, h, hi, delta; cbn; field. }
  exists 2%nat, vs, 5, g, h, hi, func, r, (fun i j => hi i j / (r i * r j)).
  split; [reflexivity|]. split; [exact Q|]. split; [exact S|]. split; [exact A|]. split; [exact I|]. split; [exact (axes_inverse 2 vs 5 g h hi func r Q S A I)|unfold g; lra].
Qed.
