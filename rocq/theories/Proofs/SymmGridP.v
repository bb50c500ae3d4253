(** Grid action and asymmetric unit of the grid (C16, C17). *)
From Coq Require Import Reals ZArith List Lra Lia Bool Permutation.
From Verif Require Import Spec.Lin3 Spec.Symm Model.MatrixOps Model.Symmetry Proofs.SymmBaseP.
Import ListNotations.
Open Scope R_scope.

Definition grid_pos (n : V3 Z) : Prop := forall i, (0 < vget n i)%Z.

Lemma image_is_apply : forall n e p, image_index n e p = apply_symm_elem_to_index e p n.
Proof.
  intros [n1 n2 n3] [[b1 b2 b3] d [r11 r12 r13 r21 r22 r23 r31 r32 r33]] [p1 p2 p3].
  unfold image_index, apply_symm_elem_to_index, z_m_v. cbn [e_r e_b e_d v_1 v_2 v_3].
  rewrite (Z.mul_comm (n1 / d)), (Z.mul_comm (n2 / d)), (Z.mul_comm (n3 / d)). reflexivity.
Qed.
Definition raw (e : Op) (p n : V3 Z) (i : ix) : Z :=
  (mget (e_r e) i X1 * vget p X1 + mget (e_r e) i X2 * vget p X2 + mget (e_r e) i X3 * vget p X3 + vget (e_b e) i * (vget n i / e_d e))%Z.
Lemma apply_get : forall e p n i, vget (apply_symm_elem_to_index e p n) i = (raw e p n i mod vget n i)%Z.
Proof.
  intros [[b1 b2 b3] d [r11 r12 r13 r21 r22 r23 r31 r32 r33]] [p1 p2 p3] [n1 n2 n3] []; reflexivity.
Qed.
Lemma apply_in_grid : forall e p n, grid_pos n -> in_grid n (apply_symm_elem_to_index e p n).
Proof. intros e p n H i. rewrite apply_get. apply Z.mod_pos_bound, H. Qed.
Lemma apply_exact : forall e p n, grid_pos n -> grid_compatible n e ->
  same_point (grid_fract n (apply_symm_elem_to_index e p n)) (act e (grid_fract n p)).
Proof.
  intros e p n Hn (Hd & Hdiv & Hmix) i. unfold grid_fract at 1. rewrite apply_get.
  destruct (frac_eqmod (raw e p n i mod vget n i) (raw e p n i) (vget n i) (Hn i)) as [k E].
  { apply Z.mod_mod. specialize (Hn i). lia. }
  exists k. rewrite E. f_equal. unfold act, raw, sum3, grid_fract.
  assert (M : forall j, IZR (mget (e_r e) i j) * (IZR (vget p j) / IZR (vget n j)) = IZR (mget (e_r e) i j * vget p j) / IZR (vget n i)).
  { intros j. rewrite mult_IZR. destruct (Z.eq_dec (mget (e_r e) i j) 0) as [Z0|N0].
    - rewrite Z0. field. split; apply not_0_IZR; match goal with |- vget n ?k <> _ => specialize (Hn k) end; lia.
    - rewrite (Hmix i j N0). field. apply not_0_IZR. specialize (Hn j). lia. }
  rewrite !M. destruct (Hdiv i) as [q Q].
  assert (Hi := Hn i). assert (Nq : (q <> 0)%Z) by (intros ->; rewrite Z.mul_0_l in Q; lia).
  assert (Hq : (vget n i / e_d e = q)%Z) by (rewrite Q; apply Z.div_mul; lia).
  rewrite !plus_IZR. rewrite !mult_IZR. rewrite Hq. rewrite Q. rewrite !mult_IZR. field. split; apply not_0_IZR; lia.
Qed.
Lemma grid_same : forall n p q, grid_pos n -> in_grid n p -> in_grid n q -> same_point (grid_fract n p) (grid_fract n q) -> p = q.
Proof.
  intros n p q Hn Hp Hq H.
  assert (E : forall i, vget p i = vget q i).
  { intros i. destruct (H i) as [k E]. unfold grid_fract in E. specialize (Hn i). specialize (Hp i). specialize (Hq i).
    assert (Nz : IZR (vget n i) <> 0) by (apply not_0_IZR; lia).
    assert (F : vget p i = (vget q i + k * vget n i)%Z).
    { apply eq_IZR. rewrite plus_IZR, mult_IZR. transitivity (IZR (vget p i) / IZR (vget n i) * IZR (vget n i)); [field; exact Nz|].
      rewrite E. field. exact Nz. }
    assert (k = 0)%Z by nia. lia. }
  destruct p as [a1 a2 a3], q as [b1 b2 b3]. pose proof (E X1). pose proof (E X2). pose proof (E X3). cbn in *. congruence.
Qed.
Lemma apply_injective : forall e f p q n, grid_pos n -> grid_compatible n e ->
  (forall x, same_point (act f (act e x)) x) -> in_grid n p -> in_grid n q ->
  apply_symm_elem_to_index e p n = apply_symm_elem_to_index e q n -> p = q.
Proof.
  intros e f p q n Hn He Hf Hp Hq E. apply (grid_same n); try assumption.
  apply sp_trans with (act f (act e (grid_fract n p))); [apply sp_sym, Hf|].
  apply sp_trans with (act f (act e (grid_fract n q))); [|apply Hf].
  apply act_sp. apply sp_trans with (grid_fract n (apply_symm_elem_to_index e p n)); [apply sp_sym, apply_exact; assumption|].
  rewrite E. apply apply_exact; assumption.
Qed.
(** On the grid, being an image is the same as being an equivalent point. *)
Lemma apply_iff : forall e p q n, grid_pos n -> grid_compatible n e -> in_grid n q ->
  (apply_symm_elem_to_index e p n = q <-> same_point (act e (grid_fract n p)) (grid_fract n q)).
Proof.
  intros e p q n Hn He Hq. split.
  - intros <-. apply sp_sym, apply_exact; assumption.
  - intros H. apply (grid_same n); try assumption; [apply apply_in_grid; assumption|].
    eapply sp_trans; [apply apply_exact; assumption|exact H].
Qed.

(** * The list of grid points *)
Lemma arange_in : forall n x, In x (arange n) <-> (0 <= x < n)%Z.
Proof.
  intros n x. unfold arange. rewrite in_map_iff. split.
  - intros (k & <- & H). apply in_seq in H. lia.
  - intros H. exists (Z.to_nat x). split; [lia|]. apply in_seq. lia.
Qed.
Lemma arange_nodup : forall n, NoDup (arange n).
Proof. intros n. unfold arange. apply FinFun.Injective_map_NoDup; [intros a b H; lia|apply seq_NoDup]. Qed.
Lemma arange_length : forall n, length (arange n) = Z.to_nat n.
Proof. intros. unfold arange. rewrite map_length, seq_length. reflexivity. Qed.
Lemma grid_in : forall n p, In p (grid_points n) <-> in_grid n p.
Proof.
  intros [n1 n2 n3] [p1 p2 p3]. unfold grid_points. cbn [v_1 v_2 v_3]. rewrite in_flat_map. split.
  - intros (i & Hi & H). apply in_flat_map in H. destruct H as (j & Hj & H). apply in_map_iff in H. destruct H as (k & E & Hk).
    inversion E; subst. rewrite arange_in in *. intros []; cbn; assumption.
  - intros H. pose proof (H X1). pose proof (H X2). pose proof (H X3). cbn in *.
    exists p1. split; [apply arange_in; assumption|]. apply in_flat_map. exists p2. split; [apply arange_in; assumption|].
    apply in_map_iff. exists p3. split; [reflexivity|apply arange_in; assumption].
Qed.
Lemma nodup_app : forall {A} (l1 l2 : list A), NoDup l1 -> NoDup l2 -> (forall x, In x l1 -> In x l2 -> False) -> NoDup (l1 ++ l2).
Proof.
  intros A l1 l2 H1 H2 D. induction H1 as [|a l Ha Hl IH]; simpl; [assumption|]. constructor.
  - intros H. apply in_app_or in H. destruct H; [contradiction|]. apply (D a); [left; reflexivity|assumption].
  - apply IH. intros x Hx. apply D. right. assumption.
Qed.
Lemma nodup_flat_map : forall {A B} (f : A -> list B) l, NoDup l -> (forall a, In a l -> NoDup (f a)) ->
  (forall a b x, In a l -> In b l -> In x (f a) -> In x (f b) -> a = b) -> NoDup (flat_map f l).
Proof.
  intros A B f l H. induction H as [|a l Ha Hl IH]; intros Hf Hd; simpl; [constructor|].
  apply nodup_app.
  - apply Hf. left. reflexivity.
  - apply IH; intros; [apply Hf; right; assumption|]. eapply Hd; eauto; right; assumption.
  - intros x Hx Hy. apply in_flat_map in Hy. destruct Hy as (b & Hb & Hy). apply Ha.
    rewrite (Hd a b x); auto; [left; reflexivity|right; assumption].
Qed.
Lemma grid_nodup : forall n, NoDup (grid_points n).
Proof.
  intros n. unfold grid_points. apply nodup_flat_map; [apply arange_nodup| |].
  - intros i _. apply nodup_flat_map; [apply arange_nodup| |].
    + intros j _. apply FinFun.Injective_map_NoDup; [intros a b H; inversion H; reflexivity|apply arange_nodup].
    + intros a b x _ _ Hx Hy. apply in_map_iff in Hx. apply in_map_iff in Hy. destruct Hx as (? & <- & _), Hy as (? & E & _). inversion E. reflexivity.
  - intros a b x _ _ Hx Hy. apply in_flat_map in Hx. apply in_flat_map in Hy.
    destruct Hx as (? & _ & Hx), Hy as (? & _ & Hy). apply in_map_iff in Hx. apply in_map_iff in Hy.
    destruct Hx as (? & <- & _), Hy as (? & E & _). inversion E. reflexivity.
Qed.
Lemma flat_map_length_const : forall {A B} (f : A -> list B) c l, (forall a, length (f a) = c) -> length (flat_map f l) = (length l * c)%nat.
Proof. intros A B f c l H. induction l as [|a l IH]; simpl; [reflexivity|]. rewrite app_length, H, IH. reflexivity. Qed.
Lemma grid_length : forall n, length (grid_points n) = (Z.to_nat (v_1 n) * Z.to_nat (v_2 n) * Z.to_nat (v_3 n))%nat.
Proof.
  intros n. unfold grid_points. rewrite (flat_map_length_const _ (Z.to_nat (v_2 n) * Z.to_nat (v_3 n))).
  - rewrite arange_length. lia.
  - intros i. rewrite (flat_map_length_const _ (Z.to_nat (v_3 n))).
    + rewrite arange_length. reflexivity.
    + intros j. rewrite map_length, arange_length. reflexivity.
Qed.
Lemma value_index_inj : forall n p q, in_grid n p -> in_grid n q -> value_index n p = value_index n q -> p = q.
Proof.
  intros [n1 n2 n3] [p1 p2 p3] [q1 q2 q3] Hp Hq E. unfold value_index in E. cbn [v_1 v_2 v_3] in E.
  pose proof (Hp X1). pose proof (Hp X2). pose proof (Hp X3). pose proof (Hq X1). pose proof (Hq X2). pose proof (Hq X3). cbn in *.
  clear Hp Hq.
  assert (E3 : (n3 * (n2 * (p1 - q1) + (p2 - q2)) = q3 - p3)%Z) by lia.
  assert (K : (n2 * (p1 - q1) + (p2 - q2) = 0)%Z) by nia.
  assert (K1 : (p1 - q1 = 0)%Z) by nia.
  assert (p1 = q1) by lia. assert (p2 = q2) by nia. assert (p3 = q3) by nia. congruence.
Qed.

(** * numpy.unique *)
Lemma insert_in : forall x l y, In y (insert_uniq x l) <-> y = x \/ In y l.
Proof.
  intros x l y. induction l as [|a l IH]; simpl; [intuition|].
  destruct (x <? a)%Z eqn:E1; [simpl; intuition|]. destruct (x =? a)%Z eqn:E2.
  - apply Z.eqb_eq in E2. subst. simpl. intuition.
  - simpl. rewrite IH. intuition.
Qed.
Lemma unique_in : forall l y, In y (unique l) <-> In y l.
Proof. intros l y. unfold unique. induction l as [|a l IH]; simpl; [tauto|]. rewrite insert_in, IH. intuition. Qed.
From Coq Require Import Sorting.Sorted.
Lemma insert_sorted : forall x l, StronglySorted Z.lt l -> StronglySorted Z.lt (insert_uniq x l).
Proof.
  intros x l H. induction H as [|a l Hl IH Ha]; simpl; [repeat constructor|].
  destruct (x <? a)%Z eqn:E1.
  - apply Z.ltb_lt in E1. constructor; [constructor; assumption|]. constructor; [assumption|].
    rewrite Forall_forall in *. intros y Hy. specialize (Ha y Hy). lia.
  - destruct (x =? a)%Z eqn:E2; [constructor; assumption|].
    apply Z.ltb_ge in E1. apply Z.eqb_neq in E2. constructor; [assumption|].
    rewrite Forall_forall in *. intros y Hy. apply insert_in in Hy. destruct Hy as [->|Hy]; [lia|auto].
Qed.
Lemma unique_sorted : forall l, StronglySorted Z.lt (unique l).
Proof. intros l. unfold unique. induction l; simpl; [constructor|apply insert_sorted; assumption]. Qed.
Lemma sorted_nodup : forall l, StronglySorted Z.lt l -> NoDup l.
Proof.
  intros l H. induction H as [|a l Hl IH Ha]; constructor; [|assumption].
  intros Hin. rewrite Forall_forall in Ha. specialize (Ha a Hin). lia.
Qed.
Lemma unique_nodup : forall l, NoDup (unique l).
Proof. intros. apply sorted_nodup, unique_sorted. Qed.
Lemma first_index_nth : forall {A} (f : A -> Z) x l d, In x (map f l) ->
  In (nth (first_index x (map f l)) l d) l /\ f (nth (first_index x (map f l)) l d) = x.
Proof.
  intros A f x l d. induction l as [|a l IH]; simpl; [tauto|].
  destruct (x =? f a)%Z eqn:E.
  - intros _. apply Z.eqb_eq in E. auto.
  - intros [H|H]; [apply Z.eqb_neq in E; congruence|]. destruct (IH H). auto.
Qed.
Lemma counts_class : forall {A} (f : A -> Z) x l, counts x (map f l) = length (filter (fun p => Z.eqb x (f p)) l).
Proof. intros A f x l. unfold counts. induction l as [|a l IH]; simpl; [reflexivity|]. destruct (x =? f a)%Z; simpl; rewrite IH; reflexivity. Qed.
Fixpoint sum_nat (l : list nat) : nat := match l with [] => 0 | x :: r => x + sum_nat r end.
Lemma sum_counts_gen : forall u l, NoDup u -> (forall y, In y l -> In y u) -> sum_nat (map (fun a => counts a l) u) = length l.
Proof.
  intros u l Hu. induction l as [|y l IH]; intros H.
  - simpl. clear. induction u; simpl; [reflexivity|assumption].
  - simpl. rewrite <- IH by (intros; apply H; right; assumption).
    assert (Hy : In y u) by (apply H; left; reflexivity). clear IH H.
    induction Hu as [|a u Ha Hu IHu]; [contradiction|]. simpl. unfold counts at 1. simpl. fold (counts a l).
    destruct Hy as [->|Hy].
    + rewrite Z.eqb_refl. simpl. f_equal. f_equal.
      unfold counts in *. f_equal. apply map_ext_in. intros b Hb. simpl. destruct (b =? y)%Z eqn:E; [|reflexivity].
      apply Z.eqb_eq in E. subst. contradiction.
    + destruct (a =? y)%Z eqn:E; [apply Z.eqb_eq in E; subst; contradiction|]. rewrite IHu by assumption. unfold counts. lia.
Qed.

(** * minimum *)
Lemma fold_min_le : forall l x, (fold_left Z.min l x <= x)%Z /\ (forall y, In y l -> (fold_left Z.min l x <= y)%Z) /\ (fold_left Z.min l x = x \/ In (fold_left Z.min l x) l).
Proof.
  induction l as [|a l IH]; intros x; simpl; [split; [lia|]; split; [tauto|left; reflexivity]|].
  destruct (IH (Z.min x a)) as (A & B & C). split; [lia|]. split.
  - intros y [<-|Hy]; [lia|auto].
  - destruct C as [C|C]; [|tauto]. rewrite C. destruct (Z.min_spec x a) as [[_ ->]|[_ ->]]; tauto.
Qed.
Lemma min_list_spec : forall l, l <> [] -> In (min_list l) l /\ forall y, In y l -> (min_list l <= y)%Z.
Proof.
  intros [|x l] H; [congruence|]. simpl. destruct (fold_min_le l x) as (A & B & C). split.
  - destruct C; [left; congruence|right; assumption].
  - intros y [<-|Hy]; auto.
Qed.

Section AU.
  Variables (n : V3 Z) (l : list Op).
  Hypothesis Hn : grid_pos n.
  Hypothesis Hg : symmetry_group l.
  Hypothesis Hc : forall e, In e l -> grid_compatible n e.
  Lemma ge_refl : forall p, grid_equivalent n l p p.
  Proof. intros p. destruct Hg as (_ & (e & He & I) & _). exists e. auto. Qed.
  Lemma ge_sym : forall p q, grid_equivalent n l p q -> grid_equivalent n l q p.
  Proof.
    intros p q (e & He & H). destruct Hg as (_ & _ & _ & Hi & _). destruct (Hi e He) as (f & Hf & F). exists f. split; [assumption|].
    apply sp_trans with (act f (act e (grid_fract n p))); [apply act_sp, sp_sym, H|apply F].
  Qed.
  Lemma ge_trans : forall p q r, grid_equivalent n l p q -> grid_equivalent n l q r -> grid_equivalent n l p r.
  Proof.
    intros p q r (e & He & H) (f & Hf & F). destruct Hg as (_ & _ & Hm & _). destruct (Hm f e Hf He) as (g & Hgl & G).
    exists g. split; [assumption|]. eapply sp_trans; [apply G|]. eapply sp_trans; [apply act_sp, H|exact F].
  Qed.
  Lemma min_value_spec : forall p, (exists q, in_grid n q /\ grid_equivalent n l p q /\ min_value n l p = value_index n q) /\
    forall q, in_grid n q -> grid_equivalent n l p q -> (min_value n l p <= value_index n q)%Z.
  Proof.
    intros p. unfold min_value.
    assert (Ne : map (fun e => value_index n (image_index n e p)) l <> []).
    { destruct Hg as (_ & (e & He & _) & _). destruct l; [contradiction|discriminate]. }
    destruct (min_list_spec _ Ne) as [A B]. split.
    - apply in_map_iff in A. destruct A as (e & E & He). exists (image_index n e p). rewrite image_is_apply in *.
      split; [apply apply_in_grid; assumption|]. split; [|symmetry; exact E].
      exists e. split; [assumption|]. apply apply_iff; auto. apply apply_in_grid; assumption.
    - intros q Hq (e & He & H). apply B. apply in_map_iff. exists e. split; [|assumption]. f_equal. rewrite image_is_apply. apply apply_iff; auto.
  Qed.
  Lemma min_value_iff : forall p q, min_value n l p = min_value n l q <-> grid_equivalent n l p q.
  Proof.
    intros p q. destruct (min_value_spec p) as ((p' & Gp & Ep & Vp) & Bp), (min_value_spec q) as ((q' & Gq & Eq & Vq) & Bq). split.
    - intros E. rewrite Vp, Vq in E. apply value_index_inj in E; try assumption. subst q'.
      eapply ge_trans; [exact Ep|apply ge_sym, Eq].
    - intros H. apply Z.le_antisymm.
      + rewrite Vq. apply Bp; [assumption|]. eapply ge_trans; [exact H|exact Eq].
      + rewrite Vp. apply Bq; [assumption|]. eapply ge_trans; [apply ge_sym, H|exact Ep].
  Qed.
  Lemma asym_spec : exists out, calc_asymmetric_unit_cell_indexes n l = Some out /\
    (forall r c, In (r, c) out -> in_grid n r /\
       exists cls, NoDup cls /\ length cls = c /\ forall q, In q cls <-> in_grid n q /\ grid_equivalent n l r q) /\
    (forall p, in_grid n p -> exists r c, In (r, c) out /\ grid_equivalent n l r p) /\
    (forall r r' c c', In (r, c) out -> In (r', c') out -> grid_equivalent n l r r' -> r = r' /\ c = c') /\
    NoDup (map fst out) /\
    sum_nat (map snd out) = (Z.to_nat (v_1 n) * Z.to_nat (v_2 n) * Z.to_nat (v_3 n))%nat.
  Proof.
    unfold calc_asymmetric_unit_cell_indexes.
    assert (B : forallb (fun e => (v_1 n mod e_d e =? 0)%Z && (v_2 n mod e_d e =? 0)%Z && (v_3 n mod e_d e =? 0)%Z) l = true).
    { apply forallb_forall. intros e He. destruct (Hc e He) as (Hd & Hdiv & _).
      rewrite !andb_true_iff, !Z.eqb_eq. repeat split; apply Z.mod_divide; try lia; [apply (Hdiv X1)|apply (Hdiv X2)|apply (Hdiv X3)]. }
    rewrite B. clear B.
    set (f := min_value n l). set (P := grid_points n). set (d := mkV 0%Z 0%Z 0%Z).
    set (F := fun a => (nth (first_index a (map f P)) P d, counts a (map f P))).
    assert (FS : forall a, In a (unique (map f P)) -> In (fst (F a)) P /\ f (fst (F a)) = a).
    { intros a Ha. rewrite unique_in in Ha. apply first_index_nth. exact Ha. }
    exists (map F (unique (map f P))). split; [reflexivity|].
    split; [|split; [|split; [|split]]].
    - intros r c H. apply in_map_iff in H. destruct H as (a & E & Ha). destruct (FS a Ha) as [I V].
      inversion E as [[Er Ec]]. cbn [fst F] in *. rewrite Er in *. split; [apply grid_in, I|].
      exists (filter (fun p => Z.eqb a (f p)) P). split; [apply NoDup_filter, grid_nodup|].
      split; [symmetry; apply counts_class|].
      intros q. rewrite filter_In, Z.eqb_eq. unfold P at 1. rewrite grid_in. rewrite <- V. unfold f. rewrite min_value_iff. reflexivity.
    - intros p Hp. set (a := f p).
      assert (Ha : In a (unique (map f P))) by (rewrite unique_in; apply in_map, grid_in, Hp).
      exists (fst (F a)), (snd (F a)). split.
      + rewrite <- surjective_pairing. apply in_map, Ha.
      + apply min_value_iff. apply (FS a Ha).
    - intros r r' c c' H H' E. apply in_map_iff in H. apply in_map_iff in H'. destruct H as (a & E1 & Ha), H' as (a' & E2 & Ha').
      assert (a = a').
      { rewrite <- (proj2 (FS a Ha)), <- (proj2 (FS a' Ha')). rewrite E1, E2. apply min_value_iff, E. }
      subst a'. rewrite E1 in E2. inversion E2. auto.
    - rewrite map_map. apply (NoDup_map_inv f). rewrite map_map.
      rewrite (map_ext_in _ (fun a => a)); [rewrite map_id; apply unique_nodup|]. intros a Ha. apply (FS a Ha).
    - rewrite map_map. cbn [snd F]. rewrite sum_counts_gen; [|apply unique_nodup|intros y Hy; rewrite unique_in; exact Hy].
      rewrite map_length. apply grid_length.
  Qed.
End AU.
