From Coq Require Import Reals ZArith List Bool Lra Lia Permutation Sorting.Sorted.
From Coquelicot Require Import Complex.
From Verif Require Import Spec.Lin3 Spec.Cell Spec.Symm Spec.Scatter Spec.HklSpec Model.UnitCell Model.Symmetry Model.StructFactor Model.HklList
  Proofs.UnitCellP Proofs.SymmBaseP Proofs.SymmGroupP Proofs.SymmExP Proofs.ScatterP Proofs.StructFactorP Proofs.StructFactorP2.
Import ListNotations.
Open Scope list_scope.
Open Scope R_scope.

Lemma v3_ext : forall A (v w : V3 A), (forall i, vget v i = vget w i) -> v = w.
Proof. intros A [a b c] [d e f] H. pose proof (H X1); pose proof (H X2); pose proof (H X3). cbn in *. congruence. Qed.
Definition zrow (h : V3 Z) (r : M3 Z) (i : ix) : Z := (vget h X1 * mget r X1 i + vget h X2 * mget r X2 i + vget h X3 * mget r X3 i)%Z.
Lemma hR_zrow : forall h e g, is_hR h e g <-> forall i, vget g i = zrow h (e_r e) i.
Proof.
  intros h e g. unfold is_hR, zrow, sum3. split; intros H i.
  - apply eq_IZR. rewrite H, !plus_IZR, !mult_IZR. reflexivity.
  - rewrite H, !plus_IZR, !mult_IZR. reflexivity.
Qed.
Definition sgn_ok (c : bool) (s : Z) : Prop := s = 1%Z \/ (s = (-1)%Z /\ c = true).
Lemma sgn_mul : forall c a b, sgn_ok c a -> sgn_ok c b -> sgn_ok c (a * b).
Proof. intros c a b [->|[-> H]] [->|[-> H']]; unfold sgn_ok; auto. Qed.
Lemma sgn_sq : forall c a, sgn_ok c a -> (a * a = 1)%Z.
Proof. intros c a [->|[-> H]]; reflexivity. Qed.
Lemma eqv_iff : forall ops c h g, equivalent ops c h g <-> exists e s, In e ops /\ sgn_ok c s /\ forall i, vget g i = (s * zrow h (e_r e) i)%Z.
Proof.
  intros ops c h g. unfold equivalent. split.
  - intros (e & He & [H|(Hc & k & H & Hk)]).
    + exists e, 1%Z. split; [exact He|]. split; [left; reflexivity|]. intros i. rewrite (proj1 (hR_zrow _ _ _) H i). ring.
    + exists e, (-1)%Z. split; [exact He|]. split; [right; auto|]. intros i. rewrite Hk, (proj1 (hR_zrow _ _ _) H i). ring.
  - intros (e & s & He & [->|[-> Hc]] & H); exists e; (split; [exact He|]).
    + left. apply hR_zrow. intros i. rewrite H. ring.
    + right. split; [exact Hc|]. exists (mkV (zrow h (e_r e) X1) (zrow h (e_r e) X2) (zrow h (e_r e) X3)). split.
      * apply hR_zrow. intros []; reflexivity.
      * intros i. rewrite H. destruct i; cbn [vget v_1 v_2 v_3]; ring.
Qed.
Lemma uts_iff : forall c a b, up_to_sign c a b <-> exists s, sgn_ok c s /\ forall i j, mget a i j = (s * mget b i j)%Z.
Proof.
  intros c a b. split.
  - intros [H|[Hc H]]; [exists 1%Z|exists (-1)%Z]; (split; [unfold sgn_ok; auto|]); intros; rewrite H; ring.
  - intros (s & [->|[-> Hc]] & H); [left|right; split; [exact Hc|]]; intros; rewrite H; ring.
Qed.
Lemma zrow_id : forall h i, zrow h (mkM 1 0 0 0 1 0 0 0 1)%Z i = vget h i.
Proof. intros h []; unfold zrow; cbn; ring. Qed.
Lemma zrow_prod : forall h g r a b i, is_rotation_product r a b -> (forall i, vget g i = zrow h a i) -> zrow g b i = zrow h r i.
Proof. intros h g r a b i P G. unfold zrow. rewrite !P, !G. unfold zrow. ring. Qed.
Lemma zrow_scal : forall h g r s i, (forall i, vget g i = (s * vget h i)%Z) -> zrow g r i = (s * zrow h r i)%Z.
Proof. intros h g r s i H. unfold zrow. rewrite !H. ring. Qed.
Lemma zrow_mscal : forall h a b s i, (forall i j, mget a i j = (s * mget b i j)%Z) -> zrow h a i = (s * zrow h b i)%Z.
Proof. intros h a b s i H. unfold zrow. rewrite !H. ring. Qed.
Definition zv (f : ix -> Z) : V3 Z := mkV (f X1) (f X2) (f X3).
Lemma zv_get : forall f i, vget (zv f) i = f i.
Proof. intros f []; reflexivity. Qed.

Section Classes.
Variables (ops : list Op) (c : bool).
Hypothesis G : rotation_group ops c.
Lemma eqv_refl : forall h, equivalent ops c h h.
Proof.
  intros h. destruct G as ((e & He & U) & _ & _). apply uts_iff in U as (s & S & U). apply eqv_iff. exists e, s. split; [exact He|]. split; [exact S|].
  intros i. rewrite (zrow_mscal h _ _ s i U), zrow_id. pose proof (sgn_sq c s S). transitivity ((s * s) * vget h i)%Z; [rewrite H|]; ring.
Qed.
Lemma eqv_sym : forall h g, equivalent ops c h g -> equivalent ops c g h.
Proof.
  intros h g H. apply eqv_iff in H as (e & s & He & S & H). destruct G as (_ & _ & Gi). destruct (Gi e He) as (f & r & Hf & P & U).
  apply uts_iff in U as (t & T & U). apply eqv_iff. exists f, (s * t)%Z. split; [exact Hf|]. split; [apply sgn_mul; assumption|]. intros i.
  rewrite (zrow_scal (zv (zrow h (e_r e))) g _ s i) by (intros; rewrite zv_get; apply H).
  rewrite (zrow_prod h (zv (zrow h (e_r e))) r (e_r e) (e_r f) i P) by (intros; apply zv_get).
  rewrite (zrow_mscal h r _ t i U), zrow_id. pose proof (sgn_sq c s S). pose proof (sgn_sq c t T).
  transitivity ((s * s) * (t * t) * vget h i)%Z; [rewrite H0, H1|]; ring.
Qed.
Lemma eqv_trans : forall h g k, equivalent ops c h g -> equivalent ops c g k -> equivalent ops c h k.
Proof.
  intros h g k H K. apply eqv_iff in H as (e & s & He & S & H). apply eqv_iff in K as (f & t & Hf & T & K).
  destruct G as (_ & Gp & _). destruct (Gp e f He Hf) as (q & r & Hq & P & U). apply uts_iff in U as (u & Us & U).
  apply eqv_iff. exists q, (s * t * u)%Z. split; [exact Hq|]. split; [apply sgn_mul; [apply sgn_mul|]; assumption|]. intros i.
  rewrite K, (zrow_scal (zv (zrow h (e_r e))) g _ s i) by (intros; rewrite zv_get; apply H).
  rewrite (zrow_prod h (zv (zrow h (e_r e))) r (e_r e) (e_r f) i P) by (intros; apply zv_get).
  rewrite (zrow_mscal h _ r u i U). pose proof (sgn_sq c u Us). transitivity ((s * t) * (u * u) * zrow h r i)%Z; [rewrite H0|]; ring.
Qed.
End Classes.

Lemma eqv_members : forall h ops c g, In g (calc_equivalent_reflections h ops c) <-> equivalent ops c h g.
Proof.
  intros h ops c g. rewrite equivalent_members. unfold equivalent. split; intros (e & He & H); exists e; (split; [exact He|]).
  - destruct H as [->|[Hc H]]; [left; intros i; apply hkl_r_spec|right; split; [exact Hc|]; exists (hkl_r h e); split; [intros i; apply hkl_r_spec|exact H]].
  - destruct H as [H|(Hc & k & H & Hk)]; [left; apply is_hR_unique; exact H|right; split; [exact Hc|]].
    apply is_hR_unique in H. subst k. exact Hk.
Qed.

(* ---- the largest label ---- *)
Lemma largest_fold : forall r m0, let m := fold_left (fun m y => if (label m <=? label y)%Z then y else m) r m0 in
  In m (m0 :: r) /\ forall y, In y (m0 :: r) -> (label y <= label m)%Z.
Proof.
  induction r as [|x r IH]; intros m0; cbn [fold_left]; cbv zeta.
  - split; [left; reflexivity|]. intros y [<-|[]]. lia.
  - destruct (IH (if (label m0 <=? label x)%Z then x else m0)) as [A B]. cbv zeta in A, B. destruct (Z.leb_spec (label m0) (label x)) as [L|L].
    + split; [right; exact A|]. intros y [<-|Hy]; [|apply B; exact Hy]. specialize (B x (or_introl eq_refl)). lia.
    + split; [destruct A as [A|A]; [left; exact A|right; right; exact A]|]. intros y [<-|[<-|Hy]].
      * apply B. left. reflexivity.
      * specialize (B m0 (or_introl eq_refl)). lia.
      * apply B. right. exact Hy.
Qed.
Lemma largest_spec : forall l, l <> [] -> In (largest l) l /\ forall y, In y l -> (label y <= label (largest l))%Z.
Proof. intros [|x r] H; [congruence|]. apply (largest_fold r x). Qed.
Definition small (h : V3 Z) : Prop := (Z.abs (v_2 h) < 500)%Z /\ (Z.abs (v_3 h) < 500)%Z.
Lemma label_inj : forall a b, small a -> small b -> label a = label b -> a = b.
Proof. intros [a1 a2 a3] [b1 b2 b3] [A1 A2] [B1 B2] H. unfold label in H. cbn [v_1 v_2 v_3] in *. assert (a3 = b3) by lia. assert (a2 = b2) by lia. assert (a1 = b1) by lia. congruence. Qed.

(* ---- unique ---- *)
Lemma hkl_eqb_eq : forall a b, hkl_eqb a b = true <-> a = b.
Proof.
  intros [a1 a2 a3] [b1 b2 b3]. unfold hkl_eqb. cbn [v_1 v_2 v_3]. rewrite !andb_true_iff, !Z.eqb_eq. split; [intros [[-> ->] ->]; reflexivity|intros H; injection H; auto].
Qed.
Lemma insert_hkl_in : forall x l y, In y (insert_hkl x l) <-> y = x \/ In y l.
Proof.
  intros x l y. induction l as [|z l IH]; cbn [insert_hkl].
  - cbn. intuition congruence.
  - destruct (lex_lt x z); [cbn; intuition congruence|]. destruct (hkl_eqb x z) eqn:E.
    + apply hkl_eqb_eq in E. subst z. cbn. intuition congruence.
    + cbn [In]. rewrite IH. intuition congruence.
Qed.
Lemma lex_lt_spec : forall a b, lex_lt a b = true <-> (v_1 a < v_1 b \/ (v_1 a = v_1 b /\ (v_2 a < v_2 b \/ (v_2 a = v_2 b /\ v_3 a < v_3 b))))%Z.
Proof. intros a b. unfold lex_lt. rewrite !orb_true_iff, !andb_true_iff, !orb_true_iff, !andb_true_iff, !Z.ltb_lt, !Z.eqb_eq. tauto. Qed.
Definition lexlt (a b : V3 Z) : Prop := lex_lt a b = true.
Lemma lexlt_trans : forall a b c, lexlt a b -> lexlt b c -> lexlt a c.
Proof. intros a b c. unfold lexlt. rewrite !lex_lt_spec. lia. Qed.
Lemma lexlt_total : forall a b, lex_lt a b = false -> hkl_eqb a b = false -> lexlt b a.
Proof.
  intros a b H E. unfold lexlt. apply lex_lt_spec.
  assert (N : ~ (v_1 a < v_1 b \/ (v_1 a = v_1 b /\ (v_2 a < v_2 b \/ (v_2 a = v_2 b /\ v_3 a < v_3 b))))%Z) by (rewrite <- lex_lt_spec, H; discriminate).
  assert (M : ~ (v_1 a = v_1 b /\ v_2 a = v_2 b /\ v_3 a = v_3 b)).
  { intros (A1 & A2 & A3). assert (T : hkl_eqb a b = true) by (unfold hkl_eqb; rewrite A1, A2, A3, !Z.eqb_refl; reflexivity). congruence. }
  lia.
Qed.
Lemma insert_sorted : forall x l, StronglySorted lexlt l -> StronglySorted lexlt (insert_hkl x l).
Proof.
  intros x l S. induction S as [|y l S IH F]; cbn [insert_hkl]; [constructor; constructor|].
  destruct (lex_lt x y) eqn:L.
  - constructor; [constructor; assumption|]. constructor; [exact L|]. eapply Forall_impl; [|exact F]. intros z Hz. eapply lexlt_trans; eassumption.
  - destruct (hkl_eqb x y) eqn:E; [constructor; assumption|]. constructor; [exact IH|]. apply Forall_forall. intros z Hz. apply insert_hkl_in in Hz as [->|Hz].
    + apply lexlt_total; assumption.
    + rewrite Forall_forall in F. apply F. exact Hz.
Qed.
Lemma sorted_nodup : forall l, StronglySorted lexlt l -> NoDup l.
Proof.
  intros l S. induction S as [|y l S IH F]; constructor; [|exact IH]. intros H. rewrite Forall_forall in F. specialize (F y H).
  unfold lexlt in F. rewrite lex_lt_spec in F. lia.
Qed.
Lemma unique_in : forall l x m, In (x, m) (unique_hkl l) <-> In x l /\ m = length (filter (hkl_eqb x) l).
Proof.
  intros l x m. unfold unique_hkl. rewrite in_map_iff.
  assert (A : forall y, In y (fold_right insert_hkl [] l) <-> In y l).
  { intros y. induction l as [|z l IH]; cbn [fold_right]; [tauto|]. rewrite insert_hkl_in, IH. cbn. intuition congruence. }
  split.
  - intros (y & E & Hy). injection E as -> <-. apply A in Hy. auto.
  - intros [H ->]. exists x. split; [reflexivity|]. apply A. exact H.
Qed.
Lemma unique_nodup : forall l, NoDup (map fst (unique_hkl l)).
Proof.
  intros l. unfold unique_hkl. rewrite map_map. cbn [fst]. rewrite map_id. apply sorted_nodup.
  induction l as [|x l IH]; cbn [fold_right]; [constructor|]. apply insert_sorted. exact IH.
Qed.
(* ---- sort_by ---- *)
Lemma insert_by_perm : forall A (f : A -> R) x l, Permutation (insert_by f x l) (x :: l).
Proof.
  intros A f x l. induction l as [|y l IH]; cbn [insert_by]; [apply Permutation_refl|]. destruct (Rle_dec (f x) (f y)); [apply Permutation_refl|].
  apply Permutation_trans with (y :: x :: l); [constructor; exact IH|apply perm_swap].
Qed.
Lemma sort_by_perm : forall A (f : A -> R) l, Permutation (sort_by f l) l.
Proof.
  intros A f l. induction l as [|x l IH]; cbn [sort_by fold_right]; [constructor|]. apply Permutation_trans with (x :: sort_by f l); [apply insert_by_perm|constructor; exact IH].
Qed.
Lemma insert_by_sorted : forall A (f : A -> R) x l, StronglySorted (fun a b => f a <= f b) l -> StronglySorted (fun a b => f a <= f b) (insert_by f x l).
Proof.
  intros A f x l S. induction S as [|y l S IH F]; cbn [insert_by]; [constructor; constructor|]. destruct (Rle_dec (f x) (f y)) as [L|L].
  - constructor; [constructor; assumption|]. constructor; [exact L|]. eapply Forall_impl; [|exact F]. intros z Hz. cbn in *. lra.
  - constructor; [exact IH|]. apply Forall_forall. intros z Hz. apply (Permutation_in _ (insert_by_perm A f x l)) in Hz. destruct Hz as [<-|Hz]; [lra|].
    rewrite Forall_forall in F. apply F. exact Hz.
Qed.
Lemma sort_by_sorted : forall A (f : A -> R) l, StronglySorted (fun a b => f a <= f b) (sort_by f l).
Proof. intros A f l. induction l as [|x l IH]; cbn [sort_by fold_right]; [constructor|]. apply insert_by_sorted. exact IH. Qed.
Lemma filter_sorted : forall A (R : A -> A -> Prop) p l, StronglySorted R l -> StronglySorted R (filter p l).
Proof.
  intros A R0 p l S. induction S as [|y l S IH F]; cbn [filter]; [constructor|]. destruct (p y); [|exact IH]. constructor; [exact IH|].
  apply Forall_forall. intros z Hz. apply filter_In in Hz. rewrite Forall_forall in F. apply F, Hz.
Qed.
(* ---- the box ---- *)
Lemma arange_sym_in : forall n x, In x (arange_sym n) <-> (Z.abs x <= n)%Z.
Proof.
  intros n x. unfold arange_sym. rewrite in_map_iff. split.
  - intros (i & <- & Hi). apply in_seq in Hi. lia.
  - intros H. exists (Z.to_nat (x + n)). split; [lia|]. apply in_seq. lia.
Qed.
Lemma arange_sym_nodup : forall n, NoDup (arange_sym n).
Proof. intros n. unfold arange_sym. apply FinFun.Injective_map_NoDup; [intros a b H; lia|apply seq_NoDup]. Qed.
Lemma box_in : forall a b c h, In h (hkl_box a b c) <-> (Z.abs (v_1 h) <= a /\ Z.abs (v_2 h) <= b /\ Z.abs (v_3 h) <= c)%Z.
Proof.
  intros a b c h. unfold hkl_box. rewrite in_flat_map. split.
  - intros (x & Hx & H). apply in_flat_map in H as (y & Hy & H). apply in_map_iff in H as (z & <- & Hz).
    rewrite arange_sym_in in *. cbn [v_1 v_2 v_3]. auto.
  - intros (H1 & H2 & H3). exists (v_1 h). split; [apply arange_sym_in; exact H1|]. apply in_flat_map. exists (v_2 h). split; [apply arange_sym_in; exact H2|].
    apply in_map_iff. exists (v_3 h). split; [destruct h; reflexivity|apply arange_sym_in; exact H3].
Qed.
Lemma nodup_flat_map : forall A B (f : A -> list B) l, NoDup l -> (forall a, In a l -> NoDup (f a)) ->
  (forall a b x, In a l -> In b l -> In x (f a) -> In x (f b) -> a = b) -> NoDup (flat_map f l).
Proof.
  intros A B f l. induction l as [|a l IH]; intros N H1 H2; cbn [flat_map]; [constructor|]. inversion N as [|x y Na Nl]; subst.
  assert (D : forall x, In x (f a) -> ~ In x (flat_map f l)).
  { intros x Hx H. apply in_flat_map in H as (b & Hb & H). apply Na. rewrite (H2 a b x); auto; [left; reflexivity|right; exact Hb]. }
  assert (N1 : NoDup (f a)) by (apply H1; left; reflexivity).
  assert (N2 : NoDup (flat_map f l)) by (apply IH; [exact Nl|intros; apply H1; right; assumption|intros; eapply H2; try eassumption; right; assumption]).
  clear IH H1 H2. revert D. induction (f a) as [|x m IH]; intros D; cbn; [exact N2|]. inversion N1; subst. constructor.
  - intros H. apply in_app_or in H as [H|H]; [contradiction|]. apply (D x); [left; reflexivity|exact H].
  - apply IH; [assumption|]. intros y Hy. apply D. right. exact Hy.
Qed.
Lemma box_nodup : forall a b c, NoDup (hkl_box a b c).
Proof.
  intros a b c. unfold hkl_box. apply nodup_flat_map; [apply arange_sym_nodup| |].
  - intros x _. apply nodup_flat_map; [apply arange_sym_nodup| |].
    + intros y _. apply FinFun.Injective_map_NoDup; [intros u v H; injection H; auto|apply arange_sym_nodup].
    + intros y z p _ _ H1 H2. apply in_map_iff in H1 as (u & <- & _). apply in_map_iff in H2 as (v & E & _). injection E; congruence.
  - intros x y p _ _ H1 H2. apply in_flat_map in H1 as (u & _ & H1). apply in_flat_map in H2 as (v & _ & H2).
    apply in_map_iff in H1 as (w & <- & _). apply in_map_iff in H2 as (t & E & _). injection E; congruence.
Qed.
(* ---- the sphere is inside the box ---- *)
Lemma cs3 : forall u v : ix -> R, (dot u v) ^ 2 <= dot u u * dot v v.
Proof.
  intros u v. unfold dot, sum3. generalize (u X1) (u X2) (u X3) (v X1) (v X2) (v X3). intros a b c d e f.
  pose proof (pow2_ge_0 (a * e - b * d)). pose proof (pow2_ge_0 (a * f - c * d)). pose proof (pow2_ge_0 (b * f - c * e)). lra.
Qed.
Definition u_len (uc : U6 R) (i : ix) : R := match i with X1 => u_a uc | X2 => u_b uc | X3 => u_c uc end.
Lemma index_bound : forall uc hkl i, nondegenerate uc -> Rabs (vget hkl i) <= u_len uc i * calc_inv_d hkl uc.
Proof.
  intros uc hkl i H.
  assert (E : vget hkl i = dot (fun k => mget (calc_m_m uc) k i) (vget (calc_q_ccs hkl uc))).
  { transitivity (sum3 (fun j => vget hkl j * delta j i)); [destruct i; unfold sum3, delta; ring|].
    transitivity (sum3 (fun j => vget hkl j * sum3 (fun k => mget (calc_m_b uc) k j * mget (calc_m_m uc) k i))).
    - apply sum3_ext. intros j. rewrite b_m_dual by exact H. reflexivity.
    - destruct hkl as [h k l]. unfold calc_q_ccs. destruct (calc_m_b uc) as [b0 b1 b2 b3 b4 b5 b6 b7 b8]. unfold dot, sum3.
      cbn [mget vget v_1 v_2 v_3 m_11 m_12 m_13 m_21 m_22 m_23 m_31 m_32 m_33]. ring. }
  assert (L : 0 < u_len uc i). { destruct H as (Ha & Hb & Hc & _). destruct i; assumption. }
  assert (D0 : 0 <= calc_inv_d hkl uc) by (rewrite inv_d_norm by exact H; apply sqrt_pos).
  assert (S : (vget hkl i) ^ 2 <= (u_len uc i * calc_inv_d hkl uc) ^ 2).
  { rewrite E at 1. eapply Rle_trans; [apply cs3|].
    assert (M : dot (fun k => mget (calc_m_m uc) k i) (fun k => mget (calc_m_m uc) k i) = (u_len uc i) ^ 2).
    { unfold dot. rewrite mt_m_metric by exact H. destruct i; unfold metric, u_len, axis_len, axis_cos; ring. }
    rewrite M, inv_d_norm by exact H. rewrite Rpow_mult_distr.
    apply Req_le. f_equal. rewrite <- Rsqr_pow2, Rsqr_sqrt; [reflexivity|]. unfold dot, sum3.
    generalize (vget (calc_q_ccs hkl uc) X1) (vget (calc_q_ccs hkl uc) X2) (vget (calc_q_ccs hkl uc) X3). intros p q r. nra. }
  rewrite <- (Rabs_right (u_len uc i * calc_inv_d hkl uc)) by nra. apply Rsqr_le_abs_0. rewrite !Rsqr_pow2. exact S.
Qed.
Lemma py_int_bound : forall (n : Z) x, IZR n <= x -> (0 <= n)%Z -> (n <= py_int x)%Z.
Proof.
  intros n x H Hn. apply IZR_le in Hn. unfold py_int. destruct (Rle_dec 0 x) as [|N]; [|lra]. unfold Int_part.
  destruct (archimed x) as [A B]. assert (n < up x)%Z by (apply lt_IZR; lra). lia.
Qed.
Lemma in_box : forall uc h smax, nondegenerate uc -> calc_sthovl (hkl_real h) uc <= smax ->
  In h (hkl_box (py_int (2 * u_a uc * smax)) (py_int (2 * u_b uc * smax)) (py_int (2 * u_c uc * smax))).
Proof.
  intros uc h smax H S. apply box_in. unfold calc_sthovl in S.
  assert (K : forall i, (Z.abs (vget h i) <= py_int (2 * u_len uc i * smax))%Z).
  { intros i. apply py_int_bound; [|apply Z.abs_nonneg]. rewrite abs_IZR. pose proof (index_bound uc (hkl_real h) i H) as B.
    replace (vget (hkl_real h) i) with (IZR (vget h i)) in B by (destruct i; reflexivity).
    assert (L : 0 < u_len uc i). { destruct H as (Ha & Hb & Hc & _). destruct i; assumption. } nra. }
  pose proof (K X1); pose proof (K X2); pose proof (K X3). cbn in *. auto.
Qed.
