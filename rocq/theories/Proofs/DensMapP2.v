(** transform_to_p1: the sorted list with the first densities (C102). *)
From Coq Require Import Reals ZArith List Lra Lia Bool Sorted.
From Verif Require Import Spec.Lin3 Spec.Symm Spec.DensityMap Model.MatrixOps Model.Symmetry Model.DensityMaps Proofs.SymmBaseP Proofs.SymmGridP Proofs.DensMapP.
Import ListNotations.
Open Scope list_scope.
Open Scope Z_scope.

Lemma v3_eqb_spec : forall p q, v3_eqb p q = true <-> p = q.
Proof.
  intros [a b c] [x y z]. unfold v3_eqb. cbn. rewrite !andb_true_iff, !Z.eqb_eq. split; [intros [[-> ->] ->]; reflexivity|].
  intros E. inversion E. auto.
Qed.
Lemma v3_eqb_refl : forall p, v3_eqb p p = true.
Proof. intros. apply v3_eqb_spec. reflexivity. Qed.
Lemma v3_eqb_neq : forall p q, v3_eqb p q = false <-> p <> q.
Proof. intros. rewrite <- v3_eqb_spec. destruct (v3_eqb p q); split; congruence. Qed.
Lemma lex_ltb_spec : forall p q, lex_ltb p q = true <-> lex_lt p q.
Proof.
  intros [a b c] [x y z]. unfold lex_ltb, lex_lt. cbn.
  rewrite !orb_true_iff, !andb_true_iff, !orb_true_iff, !andb_true_iff, !Z.ltb_lt, !Z.eqb_eq. tauto.
Qed.
Lemma lex_trans : forall p q r, lex_lt p q -> lex_lt q r -> lex_lt p r.
Proof. intros [a b c] [x y z] [u v w]. unfold lex_lt. cbn. lia. Qed.
Lemma lex_irrefl : forall p, ~ lex_lt p p.
Proof. intros [a b c]. unfold lex_lt. cbn. lia. Qed.
Lemma lex_total : forall p q, p <> q -> lex_lt p q \/ lex_lt q p.
Proof.
  intros [a b c] [x y z] N. unfold lex_lt. cbn.
  destruct (Z.eq_dec a x); [|lia]. destruct (Z.eq_dec b y); [|lia]. destruct (Z.eq_dec c z); [|lia]. subst. congruence.
Qed.

Section U.
  Context {A : Type}.
  Implicit Types (x y : V3 Z * A) (l : list (V3 Z * A)).
  Lemma insert_first_in : forall x l q d, StronglySorted lex_lt (map fst l) ->
    (In (q, d) (insert_first x l) <-> (q, d) = x \/ (q <> fst x /\ In (q, d) l)).
  Proof.
    intros x l q d. induction l as [|y r IH]; intros S.
    - cbn [insert_first]. split; [intros [E|[]]; left; congruence|intros [E|[_ []]]; left; congruence].
    - cbn [map] in S. apply StronglySorted_inv in S. destruct S as [S F]. cbn [insert_first].
      assert (G : forall e, In (fst x, e) r -> lex_lt (fst y) (fst x)).
      { intros e H. rewrite Forall_forall in F. apply F. apply in_map_iff. exists (fst x, e). auto. }
      destruct (v3_eqb (fst x) (fst y)) eqn:E1.
      + apply v3_eqb_spec in E1. cbn [In]. split.
        * intros [E|H]; [left; congruence|]. right. split; [|right; exact H]. intros ->. apply G in H. rewrite E1 in H. exact (lex_irrefl _ H).
        * intros [E|(N & [E|H])]; [left; congruence| |right; exact H]. exfalso. apply N. rewrite E1, E. reflexivity.
      + apply v3_eqb_neq in E1. destruct (lex_ltb (fst x) (fst y)) eqn:E2.
        * apply lex_ltb_spec in E2. cbn [In]. split.
          -- intros [E|[E|H]]; [left; congruence| |].
             ++ right. split; [|left; exact E]. intros ->. apply E1. rewrite E. reflexivity.
             ++ right. split; [|right; exact H]. intros ->. apply G in H. exact (lex_irrefl _ (lex_trans _ _ _ E2 H)).
          -- intros [E|(N & H)]; [left; congruence|right; exact H].
        * cbn [In]. rewrite (IH S). split.
          -- intros [E|[E|(N & H)]]; [|left; exact E|right; auto].
             right. split; [|left; exact E]. intros ->. apply E1. rewrite E. reflexivity.
          -- intros [E|(N & [E|H])]; [right; left; exact E|left; exact E|right; right; auto].
  Qed.
  Lemma insert_first_keys : forall x l q, In q (map fst (insert_first x l)) -> q = fst x \/ In q (map fst l).
  Proof.
    intros x l q. induction l as [|y r IH]; cbn [insert_first map In].
    - intros [E|[]]; auto.
    - destruct (v3_eqb (fst x) (fst y)) eqn:E1.
      + cbn [map In]. intuition auto.
      + destruct (lex_ltb (fst x) (fst y)); cbn [map In]; [intuition auto|]. intros [E|H]; [auto|]. destruct (IH H); auto.
  Qed.
  Lemma insert_first_sorted : forall x l, StronglySorted lex_lt (map fst l) -> StronglySorted lex_lt (map fst (insert_first x l)).
  Proof.
    intros x l. induction l as [|y r IH]; intros S.
    - repeat constructor.
    - cbn [map] in S. apply StronglySorted_inv in S. destruct S as [S F]. cbn [insert_first].
      destruct (v3_eqb (fst x) (fst y)) eqn:E1.
      + apply v3_eqb_spec in E1. cbn [map]. rewrite E1. constructor; assumption.
      + destruct (lex_ltb (fst x) (fst y)) eqn:E2.
        * apply lex_ltb_spec in E2. cbn [map]. constructor; [constructor; assumption|]. constructor; [exact E2|].
          rewrite Forall_forall in *. intros z Hz. eapply lex_trans; [exact E2|apply F, Hz].
        * cbn [map]. constructor; [apply IH, S|]. rewrite Forall_forall in *. intros z Hz. apply insert_first_keys in Hz.
          destruct Hz as [->|Hz]; [|apply F, Hz]. apply v3_eqb_neq in E1. destruct (lex_total _ _ E1) as [L|L]; [|exact L].
          exfalso. apply lex_ltb_spec in L. congruence.
  Qed.
  Lemma unique_first_sorted : forall l, StronglySorted lex_lt (map fst (unique_first l)).
  Proof. induction l; [constructor|]. apply insert_first_sorted. assumption. Qed.
  Lemma unique_first_in : forall l q d, In (q, d) (unique_first l) <->
    exists i, nth_error l i = Some (q, d) /\ forall j y, (j < i)%nat -> nth_error l j = Some y -> fst y <> q.
  Proof.
    induction l as [|x l IH]; intros q d.
    - split; [intros []|intros ([|i] & E & _); discriminate E].
    - change (unique_first (x :: l)) with (insert_first x (unique_first l)). rewrite insert_first_in by apply unique_first_sorted. rewrite IH. split.
      + intros [E|(N & i & E & F)].
        * exists 0%nat. split; [cbn; congruence|]. intros; lia.
        * exists (S i). split; [exact E|]. intros [|j] y Hj Ey; [cbn in Ey; congruence|]. apply (F j); [lia|exact Ey].
      + intros ([|i] & E & F).
        * left. cbn in E. congruence.
        * right. split; [intros ->; apply (F 0%nat x); [lia|reflexivity|reflexivity]|]. exists i. split; [exact E|].
          intros j y Hj Ey. apply (F (S j)); [lia|exact Ey].
  Qed.
  (** rows expanded to images *)
  Lemma unique_rows : forall (img : V3 Z -> list (V3 Z)) rows q d,
    In (q, d) (unique_first (flat_map (fun row : V3 Z * A => map (fun q => (q, snd row)) (img (fst row))) rows)) <->
    exists i p, nth_error rows i = Some (p, d) /\ In q (img p) /\ forall j y, (j < i)%nat -> nth_error rows j = Some y -> ~ In q (img (fst y)).
  Proof.
    intros img rows q d. induction rows as [|[p0 d0] rows IH].
    - split; [intros []|intros ([|i] & p & E & _); discriminate E].
    - cbn [flat_map fst snd].
      assert (G : forall (m : list (V3 Z)) (r : list (V3 Z * A)), In (q, d) (unique_first (map (fun q => (q, d0)) m ++ r)) <->
        (In q m /\ d = d0) \/ (~ In q m /\ In (q, d) (unique_first r))).
      { intros m r. induction m as [|x m IHm].
        - cbn [map app In]. tauto.
        - cbn [map app]. change (unique_first ((x, d0) :: map (fun q => (q, d0)) m ++ r)) with (insert_first (x, d0) (unique_first (map (fun q => (q, d0)) m ++ r))).
          rewrite insert_first_in by apply unique_first_sorted. rewrite IHm. cbn [fst In]. split.
          + intros [E|(N & [[H E]|[H E]])]; [inversion E; auto|auto|right; split; [|exact E]; intros [->|K]; auto].
          + intros [[[->|H] ->]|[N H]]; [auto| |].
            * destruct (v3_eqb q x) eqn:E; [apply v3_eqb_spec in E; left; congruence|apply v3_eqb_neq in E; right; auto].
            * right. split; [intros ->; apply N; auto|]. right. auto. }
      rewrite G, IH. split.
      + intros [(H & ->)|(N & i & p & E & H & F)].
        * exists 0%nat, p0. split; [reflexivity|]. split; [exact H|]. intros; lia.
        * exists (S i), p. split; [exact E|]. split; [exact H|]. intros [|j] y Hj Ey; [cbn in Ey; inversion Ey; exact N|]. apply (F j); [lia|exact Ey].
      + intros ([|i] & p & E & H & F).
        * left. cbn in E. inversion E; subst. auto.
        * right. split; [apply (F 0%nat (p0, d0)); [lia|reflexivity]|]. exists i, p. split; [exact E|]. split; [exact H|].
          intros j y Hj Ey. apply (F (S j)); [lia|exact Ey].
  Qed.
End U.

Lemma points_compatible_spec : forall n d, d <> 0 -> (points_compatible n d = true <-> forall i, (d | vget n i)).
Proof.
  intros n d Hd. unfold points_compatible. rewrite !andb_true_iff, !Z.eqb_eq, !Z.mod_divide by exact Hd. split.
  - intros [[A B] C] []; assumption.
  - intros H. exact (Logic.conj (Logic.conj (H X1) (H X2)) (H X3)).
Qed.
Section P1.
  Context {A : Type}.
  Variables (n : V3 Z) (elems : list Op) (shift : list (V3 Z * Z)) (centro : bool) (rows : list (V3 Z * A)).
  Hypothesis Hn : forall i, 0 < vget n i.
  Hypothesis He : forall e, In e elems -> grid_compatible n e.
  Hypothesis Hs : forall s, In s shift -> shift_compatible n s.
  Lemma p1_accepted : exists out, transform_to_p1 n elems shift centro rows = Some out.
  Proof.
    unfold transform_to_p1.
    assert (B1 : forallb (fun e => points_compatible n (e_d e)) elems = true).
    { apply forallb_forall. intros e Ie. destruct (He e Ie) as (D & H & _). apply points_compatible_spec; [lia|exact H]. }
    assert (B2 : forallb (fun s => points_compatible n (snd s)) shift = true).
    { apply forallb_forall. intros s Is. destruct (Hs s Is) as (D & H). apply points_compatible_spec; [lia|exact H]. }
    rewrite B1, B2. eexists. reflexivity.
  Qed.
  Lemma p1_members : forall out, transform_to_p1 n elems shift centro rows = Some out ->
    StronglySorted lex_lt (map fst out) /\
    forall q d, In (q, d) out <-> in_grid n q /\ exists i p, nth_error rows i = Some (p, d) /\ related n elems shift centro p q /\
      forall j y, (j < i)%nat -> nth_error rows j = Some y -> ~ related n elems shift centro (fst y) q.
  Proof.
    intros out E. unfold transform_to_p1 in E. destruct (_ && _); [|discriminate E]. inversion E as [E2]. clear E. split; [apply unique_first_sorted|].
    intros q d.
    set (img := fun p => let direct := flat_map (fun e => map (fun s => p1_index n e s p) shift) elems in if centro then direct ++ map (p1_inverted n) direct else direct).
    pose proof (unique_rows img rows q d) as U. unfold img in U at 1. rewrite U. clear U.
    assert (R : forall p, In q (img p) <-> in_grid n q /\ related n elems shift centro p q).
    { intros p. unfold img. apply images_related; assumption. }
    split.
    - intros (i & p & E & H & F). apply R in H. destruct H as [G H]. split; [exact G|]. exists i, p. split; [exact E|]. split; [exact H|].
      intros j y Hj Ey K. apply (F j y Hj Ey). apply R. auto.
    - intros (G & i & p & E & H & F). exists i, p. split; [exact E|]. split; [apply R; auto|].
      intros j y Hj Ey K. apply R in K. apply (F j y Hj Ey), K.
  Qed.
End P1.
Lemma p1_rejected : forall (A : Type) n elems shift centro (rows : list (V3 Z * A)),
  (forall e, In e elems -> 0 < e_d e) -> (forall s, In s shift -> 0 < snd s) ->
  (transform_to_p1 n elems shift centro rows = None <->
   (exists e i, In e elems /\ ~ (e_d e | vget n i)) \/ (exists s i, In s shift /\ ~ (snd s | vget n i))).
Proof.
  intros A n elems shift centro rows H1 H2. unfold transform_to_p1.
  assert (N : forall (B : Type) (den : B -> Z) (l : list B), (forall x, In x l -> 0 < den x) ->
    (forallb (fun x => points_compatible n (den x)) l = false <-> exists x i, In x l /\ ~ (den x | vget n i))).
  { intros B den l P. induction l as [|x l IH].
    - cbn. split; [discriminate|intros (x & i & [] & _)].
    - cbn [forallb]. rewrite andb_false_iff, IH by (intros; apply P; right; assumption).
      assert (Px : den x <> 0) by (specialize (P x (or_introl eq_refl)); lia). split.
      + intros [F|(y & i & Iy & K)]; [|exists y, i; split; [right|]; assumption].
        unfold points_compatible in F. rewrite !andb_false_iff, !Z.eqb_neq in F.
        assert (Q : exists i, ~ (den x | vget n i)).
        { destruct F as [[F|F]|F]; [exists X1|exists X2|exists X3]; rewrite <- Z.mod_divide by exact Px; exact F. }
        destruct Q as [i Q]. exists x, i. split; [left; reflexivity|exact Q].
      + intros (y & i & [<-|Iy] & K); [|right; eauto]. left. destruct (points_compatible n (den x)) eqn:E; [|reflexivity].
        exfalso. apply K. apply points_compatible_spec; assumption. }
  pose proof (N _ (fun e => e_d e) elems H1) as N1. pose proof (N _ (fun s : V3 Z * Z => snd s) shift H2) as N2. cbv beta in N1, N2.
  rewrite <- N1, <- N2. destruct (forallb _ elems), (forallb _ shift); cbn; intuition discriminate.
Qed.
