(** Site symmetry, orbits, expansion of reduced lists (C14, C15, C18, C19, C20). *)
From Coq Require Import Reals ZArith List Lra Lia Bool Znumtheory.
From Verif Require Import Spec.Lin3 Spec.Symm Spec.Cell Model.MatrixOps Model.UnitCell Model.Symmetry Proofs.SymmBaseP Proofs.UnitCellP.
Import ListNotations.
Open Scope R_scope.

Definition atom_pos (a : AtomElem) (u : ix -> R) : ix -> R :=
  match a with AtomPos b d => frac b d | AtomFull e => act e u end.
Definition atom_ok (a : AtomElem) : Prop := (0 < atom_d a)%Z.

(** integer displacement numerators *)
Definition rse (e : Op) (i j : ix) : Z := (mget (e_r e) i j - (match i, j with X1, X1 => 1 | X2, X2 => 1 | X3, X3 => 1 | _, _ => 0 end))%Z.
Definition p1 (e : Op) (a : AtomElem) (i : ix) : Z :=
  (e_d e * (rse e i X1 * vget (atom_b a) X1 + rse e i X2 * vget (atom_b a) X2 + rse e i X3 * vget (atom_b a) X3) + atom_d a * vget (e_b e) i)%Z.
Definition c1 (e : Op) (a : AtomElem) (i j : ix) : Z :=
  match a with AtomPos _ _ => 0%Z | AtomFull f =>
   (rse e i X1 * mget (e_r f) X1 j + rse e i X2 * mget (e_r f) X2 j + rse e i X3 * mget (e_r f) X3 j)%Z end.
Lemma flags_spec : forall e a, calc_symm_flags e a = true <->
  (forall i j, c1 e a i j = 0%Z) /\ (forall i, (p1 e a i mod (e_d e * atom_d a) = 0)%Z).
Proof.
  intros e a. unfold calc_symm_flags.
  destruct e as [[b1 b2 b3] d [r11 r12 r13 r21 r22 r23 r31 r32 r33]].
  cbn [e_b e_d e_r] in *.
  assert (P : forall i, p1 (mkE (mkV b1 b2 b3) d (mkM r11 r12 r13 r21 r22 r23 r31 r32 r33)) a i =
    match i with
    | X1 => d * ((r11 - 1) * v_1 (atom_b a) + r12 * v_2 (atom_b a) + r13 * v_3 (atom_b a)) + atom_d a * b1
    | X2 => d * (r21 * v_1 (atom_b a) + (r22 - 1) * v_2 (atom_b a) + r23 * v_3 (atom_b a)) + atom_d a * b2
    | X3 => d * (r31 * v_1 (atom_b a) + r32 * v_2 (atom_b a) + (r33 - 1) * v_3 (atom_b a)) + atom_d a * b3 end%Z).
  { intros []; unfold p1, rse; cbn; ring. }
  destruct (atom_b a) as [a1 a2 a3] eqn:Eb. cbn [v_1 v_2 v_3] in P.
  rewrite !andb_true_iff, !Z.eqb_eq. 
  assert (Q : (forall i, (p1 (mkE (mkV b1 b2 b3) d (mkM r11 r12 r13 r21 r22 r23 r31 r32 r33)) a i mod (d * atom_d a) = 0)%Z) <->
    (((d * ((r11 - 1) * a1 + r12 * a2 + r13 * a3) + atom_d a * b1) mod (d * atom_d a) = 0 /\
    (d * (r21 * a1 + (r22 - 1) * a2 + r23 * a3) + atom_d a * b2) mod (d * atom_d a) = 0) /\
    (d * (r31 * a1 + r32 * a2 + (r33 - 1) * a3) + atom_d a * b3) mod (d * atom_d a) = 0)%Z).
  { split.
    - intros H. pose proof (H X1) as H1. pose proof (H X2) as H2. pose proof (H X3) as H3. rewrite P in H1, H2, H3. auto.
    - intros [[H1 H2] H3] []; rewrite P; assumption. }
  rewrite Q. clear Q P Eb.
  destruct a as [b0 d0|[b0 d0 [s11 s12 s13 s21 s22 s23 s31 s32 s33]]]; cbn [e_r].
  - unfold c1. intuition reflexivity.
  - rewrite !andb_true_iff, !Z.eqb_eq.
    split.
    + intros [[[H1 H2] H3] H4]. split; [|tauto]. intros i j.
      destruct i, j; unfold c1, rse; cbn; rewrite ?Z.sub_0_r; tauto.
    + intros [H1 H2]. split; [|tauto]. split; [|tauto]. split; [|tauto].
      assert (G : forall i j, c1 (mkE (mkV b1 b2 b3) d (mkM r11 r12 r13 r21 r22 r23 r31 r32 r33)) (AtomFull (mkE b0 d0 (mkM s11 s12 s13 s21 s22 s23 s31 s32 s33))) i j = 0%Z) by exact H1.
      pose proof (G X1 X1). pose proof (G X1 X2). pose proof (G X1 X3). pose proof (G X2 X1). pose proof (G X2 X2).
      pose proof (G X2 X3). pose proof (G X3 X1). pose proof (G X3 X2). pose proof (G X3 X3).
      unfold c1, rse in *. cbn in *. rewrite ?Z.sub_0_r in *. tauto.
Qed.
Lemma displacement : forall e a u i, (0 < e_d e)%Z -> atom_ok a ->
  act e (atom_pos a u) i - atom_pos a u i =
  (IZR (c1 e a i X1) * u X1 + IZR (c1 e a i X2) * u X2 + IZR (c1 e a i X3) * u X3) + IZR (p1 e a i) / IZR (e_d e * atom_d a).
Proof.
  intros e a u i He Ha. unfold atom_ok in Ha.
  assert (N1 : IZR (e_d e) <> 0) by (apply not_0_IZR; lia). assert (N2 : IZR (atom_d a) <> 0) by (apply not_0_IZR; lia).
  unfold p1. destruct a as [b d|f]; unfold atom_pos, act, sum3, c1, frac, atom_b, atom_d in *;
  rewrite ?mult_IZR, ?plus_IZR, ?mult_IZR, ?plus_IZR, ?mult_IZR; unfold rse; destruct i; rewrite ?minus_IZR; field; auto.
Qed.
Definition half_at (j : ix) (h : R) : ix -> R := fun k => match j, k with X1, X1 => h | X2, X2 => h | X3, X3 => h | _, _ => 0 end.
(** A linear form with integer coefficients plus a constant that is always an integer has zero coefficients. *)
Lemma linear_integral : forall (c : ix -> Z) (p : R),
  (forall u : ix -> R, exists n : Z, IZR (c X1) * u X1 + IZR (c X2) * u X2 + IZR (c X3) * u X3 + p = IZR n) ->
  (forall j, c j = 0%Z) /\ exists n : Z, p = IZR n.
Proof.
  intros c p H. destruct (H (fun _ => 0)) as [n0 E0].
  assert (Ep : p = IZR n0) by lra.
  split; [|exists n0; exact Ep]. intros j.
  destruct (Z.eq_dec (c j) 0) as [E|N]; [exact E|exfalso].
  destruct (H (half_at j (/ (2 * IZR (c j))))) as [n E].
  assert (Nr : IZR (c j) <> 0) by (apply not_0_IZR; exact N).
  assert (F : IZR (c j) * / (2 * IZR (c j)) + p = IZR n).
  { rewrite <- E. destruct j; unfold half_at; ring. }
  assert (G : 1 = IZR (2 * (n - n0))).
  { rewrite mult_IZR, minus_IZR, <- F, <- Ep. field. exact Nr. }
  apply eq_IZR in G. lia.
Qed.
Lemma flags_stabiliser : forall e a, (0 < e_d e)%Z -> atom_ok a ->
  (calc_symm_flags e a = true <-> forall u, same_point (act e (atom_pos a u)) (atom_pos a u)).
Proof.
  intros e a He Ha. rewrite flags_spec. assert (HD : (0 < e_d e * atom_d a)%Z) by (unfold atom_ok in Ha; nia). split.
  - intros [H1 H2] u i. destruct (proj2 (frac_int (p1 e a i) _ HD) (H2 i)) as [n E]. exists n.
    pose proof (displacement e a u i He Ha) as D. rewrite !H1, E in D. lra.
  - intros H.
    assert (L : forall i, (forall j, c1 e a i j = 0%Z) /\ exists n : Z, IZR (p1 e a i) / IZR (e_d e * atom_d a) = IZR n).
    { intros i. apply linear_integral. intros u. destruct (H u i) as [n E]. exists n.
      rewrite <- (displacement e a u i He Ha). lra. }
    split; intros i; [apply (L i)|]. apply (frac_int _ _ HD). apply (L i).
Qed.

(** Equality of images as a boolean (proof device). *)
Definition all_ix (f : ix -> bool) : bool := f X1 && f X2 && f X3.
Lemma all_ix_true : forall f, all_ix f = true <-> forall i, f i = true.
Proof. intros f. unfold all_ix. rewrite !andb_true_iff. split; [intros [[? ?] ?] []; assumption | auto]. Qed.
Definition same_img (a : AtomElem) (e f : Op) : bool :=
  all_ix (fun i => all_ix (fun j => Z.eqb (c1 e a i j) (c1 f a i j))) &&
  all_ix (fun i => Z.eqb ((p1 e a i * e_d f - p1 f a i * e_d e) mod (e_d e * e_d f * atom_d a)) 0).
Lemma same_img_spec : forall a e f, (0 < e_d e)%Z -> (0 < e_d f)%Z -> atom_ok a ->
  (same_img a e f = true <-> forall u, same_point (act e (atom_pos a u)) (act f (atom_pos a u))).
Proof.
  intros a e f He Hf Ha. unfold atom_ok in Ha.
  assert (HD : (0 < e_d e * e_d f * atom_d a)%Z) by (apply Z.mul_pos_pos; [nia|assumption]).
  assert (R1 : IZR (e_d e) <> 0) by (apply not_0_IZR; lia). assert (R2 : IZR (e_d f) <> 0) by (apply not_0_IZR; lia).
  assert (R3 : IZR (atom_d a) <> 0) by (apply not_0_IZR; lia).
  assert (D : forall u i, act e (atom_pos a u) i - act f (atom_pos a u) i =
    (IZR (c1 e a i X1 - c1 f a i X1) * u X1 + IZR (c1 e a i X2 - c1 f a i X2) * u X2 + IZR (c1 e a i X3 - c1 f a i X3) * u X3) +
    IZR (p1 e a i * e_d f - p1 f a i * e_d e) / IZR (e_d e * e_d f * atom_d a)).
  { intros u i. pose proof (displacement e a u i He Ha) as D1. pose proof (displacement f a u i Hf Ha) as D2.
    transitivity ((act e (atom_pos a u) i - atom_pos a u i) - (act f (atom_pos a u) i - atom_pos a u i)); [ring|].
    rewrite D1, D2, !minus_IZR, !mult_IZR. field. auto. }
  unfold same_img. rewrite andb_true_iff, !all_ix_true. split.
  - intros [H1 H2] u i.
    assert (Z1 : forall j, c1 e a i j = c1 f a i j).
    { intros j. specialize (H1 i). rewrite all_ix_true in H1. apply Z.eqb_eq, H1. }
    specialize (H2 i). apply Z.eqb_eq in H2. destruct (proj2 (frac_int _ _ HD) H2) as [n E]. exists n.
    specialize (D u i). rewrite !Z1, !Z.sub_diag, E in D. lra.
  - intros H.
    assert (L : forall i, (forall j, (c1 e a i j - c1 f a i j)%Z = 0%Z) /\ exists n : Z, IZR (p1 e a i * e_d f - p1 f a i * e_d e) / IZR (e_d e * e_d f * atom_d a) = IZR n).
    { intros i. apply (linear_integral (fun j => c1 e a i j - c1 f a i j)%Z). intros u. destruct (H u i) as [n E]. exists n.
      rewrite <- (D u i). lra. }
    split; intros i.
    + rewrite all_ix_true. intros j. apply Z.eqb_eq. pose proof (proj1 (L i) j). lia.
    + apply Z.eqb_eq. apply (frac_int _ _ HD). apply (L i).
Qed.

(** Counting. *)
Lemma rel_pigeon : forall {A B : Type} (P : A -> B -> Prop) (la : list A) (lb : list B),
  ForallOrdPairs (fun a a' => forall b, P a b -> P a' b -> False) la ->
  (forall a, In a la -> exists b, In b lb /\ P a b) -> (length la <= length lb)%nat.
Proof.
  intros A B P la. induction la as [|a la IH]; intros lb Hp Hex; [simpl; lia|].
  inversion Hp as [|x l Hall Hrest]; subst.
  destruct (Hex a (or_introl eq_refl)) as (b & Hb & Pab).
  apply in_split in Hb. destruct Hb as (l1 & l2 & ->).
  assert (length la <= length (l1 ++ l2))%nat.
  { apply IH; [exact Hrest|]. intros a' Ha'. destruct (Hex a' (or_intror Ha')) as (b' & Hb' & Pb').
    exists b'. split; [|exact Pb']. apply in_app_or in Hb'. apply in_or_app.
    destruct Hb' as [|[->|]]; [left; assumption| |right; assumption].
    exfalso. rewrite Forall_forall in Hall. exact (Hall a' Ha' b' Pab Pb'). }
  rewrite app_length in *. simpl. lia.
Qed.
Lemma fop_filter : forall {A} (R : A -> A -> Prop) f l, ForallOrdPairs R l -> ForallOrdPairs R (filter f l).
Proof.
  intros A R f l H. induction H as [|a l Ha Hl IH]; simpl; [constructor|].
  destruct (f a); [|exact IH]. constructor; [|exact IH].
  rewrite Forall_forall in *. intros x Hx. apply filter_In in Hx. apply Ha, Hx.
Qed.
Lemma fop_weaken : forall {A} (R S : A -> A -> Prop) l, (forall a b, In a l -> In b l -> R a b -> S a b) -> ForallOrdPairs R l -> ForallOrdPairs S l.
Proof.
  intros A R S l H F. induction F as [|a l Ha Hl IH]; constructor.
  - rewrite Forall_forall in *. intros x Hx. apply H; [left; reflexivity|right; assumption|apply Ha, Hx].
  - apply IH. intros; apply H; try (right; assumption). assumption.
Qed.

(** Equivalence classes of equal size s partition a list. *)
Lemma filter_length_split : forall {A} (f : A -> bool) l, (length (filter f l) + length (filter (fun x => negb (f x)) l) = length l)%nat.
Proof. intros A f l. induction l as [|a l IH]; simpl; [reflexivity|]. destruct (f a); simpl; lia. Qed.
Lemma filter_filter_same : forall {A} (f g : A -> bool) l, (forall x, In x l -> f x = true -> g x = true) -> filter f (filter g l) = filter f l.
Proof.
  intros A f g l H. induction l as [|a l IH]; simpl; [reflexivity|].
  destruct (g a) eqn:G; simpl; destruct (f a) eqn:F.
  - f_equal. apply IH. intros; apply H; [right|]; assumption.
  - apply IH. intros; apply H; [right|]; assumption.
  - rewrite (H a (or_introl eq_refl) F) in G. discriminate.
  - apply IH. intros; apply H; [right|]; assumption.
Qed.
Lemma classes : forall {A} (eqv : A -> A -> bool) (s : nat) (n : nat) (l : list A), (length l <= n)%nat ->
  (forall a, In a l -> eqv a a = true) ->
  (forall a b, In a l -> In b l -> eqv a b = true -> eqv b a = true) ->
  (forall a b c, In a l -> In b l -> In c l -> eqv a b = true -> eqv b c = true -> eqv a c = true) ->
  (forall a, In a l -> length (filter (eqv a) l) = s) ->
  exists reps, (forall r, In r reps -> In r l) /\
    ForallOrdPairs (fun a b => eqv a b = false) reps /\
    (forall a, In a l -> exists r, In r reps /\ eqv r a = true) /\
    (length reps * s = length l)%nat.
Proof.
  intros A eqv s n. induction n as [|n IH]; intros l Hn Rf Sy Tr Cl.
  - destruct l; [|simpl in Hn; lia]. exists []. repeat split; try constructor; intros ? [].
  - destruct l as [|a l'].
    { exists []. repeat split; try constructor; intros ? []. }
    set (l := a :: l') in *.
    assert (Ha : In a l) by (left; reflexivity).
    set (rest := filter (fun x => negb (eqv a x)) l).
    pose proof (filter_length_split (eqv a) l) as Sp. fold rest in Sp.
    pose proof (Cl a Ha) as Ca.
    assert (Hs : (0 < s)%nat).
    { rewrite <- Ca. assert (In a (filter (eqv a) l)) by (apply filter_In; split; [exact Ha|apply Rf, Ha]).
      destruct (filter (eqv a) l); [contradiction|simpl; lia]. }
    assert (Sub : forall x, In x rest -> In x l /\ eqv a x = false).
    { intros x Hx. apply filter_In in Hx. destruct Hx as [? E]. split; [assumption|]. destruct (eqv a x); [discriminate|reflexivity]. }
    destruct (IH rest) as (reps & R1 & R2 & R3 & R4).
    + rewrite Ca in Sp. lia.
    + intros x Hx. apply Rf, Sub, Hx.
    + intros x y Hx Hy. apply Sy; apply Sub; assumption.
    + intros x y z Hx Hy Hz. apply Tr; apply Sub; assumption.
    + intros x Hx. rewrite <- (Cl x (proj1 (Sub x Hx))). f_equal. apply filter_filter_same.
      intros y Hy Exy. destruct (eqv a y) eqn:Ey; [|reflexivity]. exfalso.
      destruct (Sub x Hx) as [Hxl Eax].
      rewrite (Tr a y x Ha Hy Hxl Ey (Sy x y Hxl Hy Exy)) in Eax. discriminate.
    + exists (a :: reps). split; [|split; [|split]].
      * intros r [<-|Hr]; [exact Ha|]. apply Sub, R1, Hr.
      * constructor; [|exact R2]. rewrite Forall_forall. intros x Hx. apply Sub, R1, Hx.
      * intros x Hx. destruct (eqv a x) eqn:E.
        -- exists a. split; [left; reflexivity|exact E].
        -- destruct (R3 x) as (r & Hr & Er). { apply filter_In. rewrite E. auto. }
           exists r. split; [right; exact Hr|exact Er].
      * change (length (a :: reps)) with (S (length reps)). rewrite <- Sp, Ca. lia.
Qed.

Lemma group_fiber : forall l a e, symmetry_group l -> atom_ok a -> In e l ->
  length (filter (same_img a e) l) = length (filter (fun f => calc_symm_flags f a) l).
Proof.
  intros l a e (Hd & _ & Hc & Hi & Hn) Ha He.
  assert (Hfib : forall f, In f l -> (same_img a e f = true <-> forall u, same_point (act e (atom_pos a u)) (act f (atom_pos a u))))
    by (intros f Hf; apply same_img_spec; auto).
  assert (Hst : forall f, In f l -> (calc_symm_flags f a = true <-> forall u, same_point (act f (atom_pos a u)) (atom_pos a u)))
    by (intros f Hf; apply flags_stabiliser; auto).
  destruct (Hi e He) as (ei & Hei & Ei).
  apply Nat.le_antisymm.
  - (* fiber -> stabiliser by ei *)
    apply (rel_pigeon (fun f k => is_composition k ei f)).
    + apply fop_filter. apply (fop_weaken (fun e f => ~ same_op e f)); [|exact Hn].
      intros f g Hf Hg Nfg k Kf Kg. apply Nfg. intros x.
      (* ei f x ~ k x ~ ei g x ; apply inverse of ei *)
      destruct (Hi ei Hei) as (ej & Hej & Ej).
      apply sp_trans with (act ej (act ei (act f x))); [apply sp_sym, Ej|].
      apply sp_trans with (act ej (act ei (act g x))); [|apply Ej].
      apply act_sp. apply sp_trans with (act k x); [apply sp_sym, Kf|apply Kg].
    + intros f Hf. apply filter_In in Hf. destruct Hf as [Hf Ef].
      destruct (Hc ei f Hei Hf) as (k & Hk & Ck). exists k. split; [|exact Ck].
      apply filter_In. split; [exact Hk|]. apply Hst; [exact Hk|]. intros u.
      apply sp_trans with (act ei (act f (atom_pos a u))); [apply Ck|].
      apply sp_trans with (act ei (act e (atom_pos a u))); [apply act_sp, sp_sym, Hfib; assumption|apply Ei].
  - apply (rel_pigeon (fun f k => is_composition k e f)).
    + apply fop_filter. apply (fop_weaken (fun e f => ~ same_op e f)); [|exact Hn].
      intros f g Hf Hg Nfg k Kf Kg. apply Nfg. intros x.
      apply sp_trans with (act ei (act e (act f x))); [apply sp_sym, Ei|].
      apply sp_trans with (act ei (act e (act g x))); [|apply Ei].
      apply act_sp. apply sp_trans with (act k x); [apply sp_sym, Kf|apply Kg].
    + intros f Hf. apply filter_In in Hf. destruct Hf as [Hf Ef].
      destruct (Hc e f He Hf) as (k & Hk & Ck). exists k. split; [|exact Ck].
      apply filter_In. split; [exact Hk|]. apply Hfib; [exact Hk|]. intros u.
      apply sp_sym. apply sp_trans with (act e (act f (atom_pos a u))); [apply Ck|].
      apply act_sp. apply Hst; assumption.
Qed.
Lemma multiplicity_orbit : forall l a, symmetry_group l -> atom_ok a ->
  exists orbit, (forall f, In f orbit -> In f l) /\
    ForallOrdPairs (fun e f => ~ forall u, same_point (act e (atom_pos a u)) (act f (atom_pos a u))) orbit /\
    (forall e, In e l -> exists f, In f orbit /\ forall u, same_point (act e (atom_pos a u)) (act f (atom_pos a u))) /\
    calc_multiplicity l a = length orbit.
Proof.
  intros l a G Ha. pose proof G as (Hd & (e0 & He0 & E0) & _).
  assert (SI : forall e f, In e l -> In f l -> (same_img a e f = true <-> forall u, same_point (act e (atom_pos a u)) (act f (atom_pos a u))))
    by (intros; apply same_img_spec; auto).
  destruct (classes (same_img a) (length (filter (fun f => calc_symm_flags f a) l)) (length l) l (Nat.le_refl _)) as (reps & R1 & R2 & R3 & R4).
  - intros e He. apply SI; auto. intros; apply sp_refl.
  - intros e f He Hf H. apply SI; auto. intros u. apply sp_sym. apply SI; auto.
  - intros e f g He Hf Hg H1 H2. apply SI; auto. intros u. apply sp_trans with (act f (atom_pos a u)); apply SI; auto.
  - intros e He. apply group_fiber; assumption.
  - exists reps. split; [exact R1|]. split; [|split].
    + assert (F : ForallOrdPairs (fun e f => In e l /\ In f l /\ same_img a e f = false) reps).
      { revert R2. apply fop_weaken. auto. }
      revert F. apply fop_weaken. intros e f He Hf (Ie & If & E) Hs. apply SI in Hs; auto. rewrite Hs in E. discriminate.
    + intros e He. destruct (R3 e He) as (r & Hr & Er). exists r. split; [exact Hr|]. intros u. apply sp_sym. apply SI; auto.
    + unfold calc_multiplicity. rewrite <- R4.
      apply Nat.div_mul. 
      assert (In e0 (filter (fun f => calc_symm_flags f a) l)).
      { apply filter_In. split; [exact He0|]. apply flags_stabiliser; auto. }
      destruct (filter (fun f => calc_symm_flags f a) l); [contradiction|simpl; lia].
Qed.

(** * C18 expansion *)
Definition pos2 (cp : V3 Z * Z) : ix -> R := fun i => 2 * frac (fst cp) (snd cp) i.
Lemma act_unfold : forall e x i, act e x i = sum3 (fun j => IZR (mget (e_r e) i j) * x j) + frac (e_b e) (e_d e) i.
Proof. reflexivity. Qed.
Lemma add_translation_act : forall te e, (0 < snd te)%Z -> (0 < e_d e)%Z ->
  (0 < e_d (add_translation te e))%Z /\
  forall x, same_point (act (add_translation te e) x) (fun i => act e x i + frac (fst te) (snd te) i).
Proof.
  intros te e Ht He. unfold add_translation.
  pose proof (sum_b_value (e_b e) (e_d e) (fst te) (snd te) He Ht) as V.
  pose proof (sum_b_reduced (e_b e) (e_d e) (fst te) (snd te) He Ht) as Rd. cbv zeta in Rd.
  destruct (sum_b_elems (e_b e) (e_d e) (fst te) (snd te)) as [b d]. cbn [fst snd] in *. split; [apply Rd|].
  intros x i. destruct (V i) as [n E]. exists n. rewrite !act_unfold. cbn [e_b e_d e_r]. rewrite E. ring.
Qed.
Lemma invert_elem_act : forall cp e, (0 < snd cp)%Z -> (0 < e_d e)%Z ->
  (0 < e_d (invert_elem cp e))%Z /\
  forall x, same_point (act (invert_elem cp e) x) (fun i => pos2 cp i - act e x i).
Proof.
  intros cp e Ht He. unfold invert_elem.
  pose proof (sum_b_value (mkV (2 * v_1 (fst cp)) (2 * v_2 (fst cp)) (2 * v_3 (fst cp)))%Z (snd cp) (z_opp_v (e_b e)) (e_d e) Ht He) as V.
  pose proof (sum_b_reduced (mkV (2 * v_1 (fst cp)) (2 * v_2 (fst cp)) (2 * v_3 (fst cp)))%Z (snd cp) (z_opp_v (e_b e)) (e_d e) Ht He) as Rd. cbv zeta in Rd.
  destruct (sum_b_elems _ _ _ _) as [b d]. cbn [fst snd] in *. split; [apply Rd|].
  intros x i. destruct (V i) as [n E]. exists n. rewrite !act_unfold. cbn [e_b e_d e_r]. rewrite E.
  assert (N1 : IZR (snd cp) <> 0) by (apply not_0_IZR; lia). assert (N2 : IZR (e_d e) <> 0) by (apply not_0_IZR; lia).
  unfold pos2, frac, z_opp_v, z_opp_m, sum3. destruct i; cbn [vget mget v_1 v_2 v_3 m_11 m_12 m_13 m_21 m_22 m_23 m_31 m_32 m_33];
  rewrite !mult_IZR; field; auto.
Qed.
Lemma full_length : forall red c cp ts,
  length (calc_full_symm_elems_by_reduced red c cp ts) = ((if c then 2 else 1) * length ts * length red)%nat.
Proof.
  intros red c cp ts. unfold calc_full_symm_elems_by_reduced.
  assert (H : length (flat_map (fun te => map (add_translation te) red) ts) = (length ts * length red)%nat).
  { induction ts as [|t ts IH]; simpl; [reflexivity|]. rewrite app_length, map_length, IH. reflexivity. }
  destruct c; rewrite ?app_length, ?map_length, H; lia.
Qed.
(** product of (optional inversion at p) after (translation t) after (operation e) *)
Definition is_product (s : bool) (cp te : V3 Z * Z) (e f : Op) : Prop :=
  forall x, same_point (act f x) (fun i =>
    let y := act e x i + frac (fst te) (snd te) i in if s then 2 * frac (fst cp) (snd cp) i - y else y).
Lemma full_products : forall red c cp ts, (0 < snd cp)%Z ->
  (forall e, In e red -> (0 < e_d e)%Z) -> (forall t, In t ts -> (0 < snd t)%Z) ->
  (forall f, In f (calc_full_symm_elems_by_reduced red c cp ts) ->
     (0 < e_d f)%Z /\ exists s te e, (s = true -> c = true) /\ In te ts /\ In e red /\ is_product s cp te e f) /\
  (forall s te e, (s = true -> c = true) -> In te ts -> In e red ->
     exists f, In f (calc_full_symm_elems_by_reduced red c cp ts) /\ is_product s cp te e f).
Proof.
  intros red c cp ts Hcp Hr Ht.
  assert (A : forall te e, In te ts -> In e red -> is_product false cp te e (add_translation te e)).
  { intros te e Hte He x. apply add_translation_act; auto. }
  assert (B : forall te e, In te ts -> In e red -> is_product true cp te e (invert_elem cp (add_translation te e))).
  { intros te e Hte He x.
    destruct (add_translation_act te e (Ht _ Hte) (Hr _ He)) as [Hp P].
    eapply sp_trans; [apply invert_elem_act; auto|].
    intros i. destruct (P x i) as [n E]. exists (- n)%Z. unfold pos2. cbv zeta. rewrite E, opp_IZR. ring. }
  assert (Ia : forall f, In f (flat_map (fun te => map (add_translation te) red) ts) <-> exists te e, In te ts /\ In e red /\ f = add_translation te e).
  { intros f. rewrite in_flat_map. split.
    - intros (te & Hte & Hf). apply in_map_iff in Hf. destruct Hf as (e & <- & He). eauto.
    - intros (te & e & Hte & He & ->). exists te. split; [assumption|]. apply in_map. assumption. }
  unfold calc_full_symm_elems_by_reduced. split.
  - intros f Hf. destruct c.
    + apply in_app_or in Hf. destruct Hf as [Hf|Hf].
      * apply Ia in Hf. destruct Hf as (te & e & Hte & He & ->). split; [apply add_translation_act; auto|].
        exists false, te, e. repeat split; auto.
      * apply in_map_iff in Hf. destruct Hf as (g & <- & Hg). apply Ia in Hg. destruct Hg as (te & e & Hte & He & ->).
        split; [apply invert_elem_act; auto; apply add_translation_act; auto|].
        exists true, te, e. repeat split; auto.
    + apply Ia in Hf. destruct Hf as (te & e & Hte & He & ->). split; [apply add_translation_act; auto|].
      exists false, te, e. repeat split; auto.
  - intros s te e Hs Hte He. destruct s.
    + rewrite (Hs eq_refl). exists (invert_elem cp (add_translation te e)). split; [|apply B; auto].
      apply in_or_app. right. apply in_map. apply Ia. eauto.
    + exists (add_translation te e). split; [|apply A; auto]. destruct c; [apply in_or_app; left|]; apply Ia; eauto.
Qed.

(** * C19 *)
Lemma z_m1_m2_spec : forall a b i j, IZR (mget (z_m1_m2 a b) i j) = sum3 (fun k => IZR (mget a i k) * IZR (mget b k j)).
Proof. intros [a11 a12 a13 a21 a22 a23 a31 a32 a33] [b11 b12 b13 b21 b22 b23 b31 b32 b33] [] []; unfold sum3, z_m1_m2; cbn [mget m_11 m_12 m_13 m_21 m_22 m_23 m_31 m_32 m_33]; rewrite !plus_IZR, !mult_IZR; ring. Qed.
Lemma z_m_v_spec : forall a v i, IZR (vget (z_m_v a v) i) = sum3 (fun k => IZR (mget a i k) * IZR (vget v k)).
Proof. intros [a11 a12 a13 a21 a22 a23 a31 a32 a33] [v1 v2 v3] []; unfold sum3, z_m_v; cbn [vget v_1 v_2 v_3 mget m_11 m_12 m_13 m_21 m_22 m_23 m_31 m_32 m_33]; rewrite !plus_IZR, !mult_IZR; ring. Qed.
Definition gcd_chain (b1 : V3 Z) (d1 : Z) (b2 : V3 Z) (d2 : Z) : Prop :=
  forall i j, (Z.gcd (vget b1 i * d2 + vget b2 i * d1) (d1 * d2) | Z.gcd (vget b1 j * d2 + vget b2 j * d1) (d1 * d2))%Z \/
              (Z.gcd (vget b1 j * d2 + vget b2 j * d1) (d1 * d2) | Z.gcd (vget b1 i * d2 + vget b2 i * d1) (d1 * d2))%Z.
Lemma mag_compose_ok : forall eo to ec tc, (0 < e_d eo)%Z -> (0 < e_d ec)%Z ->
  z_m1_m2 (e_r eo) (e_r ec) = z_m1_m2 (e_r ec) (e_r eo) ->
  gcd_chain (z_m_v (e_r ec) (e_b eo)) (e_d eo) (e_b ec) (e_d ec) ->
  is_composition (fst (mag_compose (eo, to) (ec, tc))) ec eo /\ snd (mag_compose (eo, to) (ec, tc)) = (to * tc)%Z.
Proof.
  intros eo to ec tc Ho Hc Hcom Hg. unfold mag_compose.
  pose proof (sum_elem_ok _ _ _ _ Ho Hc Hg) as S. cbv zeta in S.
  destruct (sum_elem_symm_b _ _ _ _) as [b d]. cbn [fst snd] in *. destruct S as [_ S].
  split; [|reflexivity]. intros x. apply sp_ext. intros i. rewrite !act_unfold. cbn [e_b e_d e_r]. rewrite S.
  rewrite Hcom. unfold sum3. rewrite !z_m1_m2_spec. rewrite !act_unfold. unfold frac. rewrite z_m_v_spec. unfold sum3.
  field. split; apply not_0_IZR; lia.
Qed.
Lemma mag_refuted : exists eo ec, (0 < e_d eo)%Z /\ (0 < e_d ec)%Z /\
  ~ is_composition (fst (mag_compose (eo, 1%Z) (ec, 1%Z))) ec eo /\ ~ is_composition (fst (mag_compose (eo, 1%Z) (ec, 1%Z))) eo ec.
Proof.
  exists (mkE (mkV 0 1 0) 4 (mkM 0 (-1) 0 1 0 0 0 0 1))%Z, (mkE (mkV 0 0 0) 1 (mkM 1 0 0 0 (-1) 0 0 0 (-1)))%Z.
  split; [reflexivity|]. split; [reflexivity|].
  replace (fst (mag_compose _ _)) with (mkE (mkV 0 (-1) 0) 4 (mkM 0 1 0 1 0 0 0 0 (-1)))%Z by reflexivity.
  split; intros H.
  - destruct (H (fun i => match i with X2 => 1 / 4 | _ => 0 end) X1) as [n E]. unfold act, sum3 in E. cbn in E.
    assert (E2 : IZR (2 * n) = IZR 1) by (rewrite mult_IZR; lra). apply eq_IZR in E2. lia.
  - destruct (H (fun _ => 0) X2) as [n E]. unfold act, sum3 in E. cbn in E.
    assert (E2 : IZR (2 * n) = IZR (-1)) by (rewrite mult_IZR; lra). apply eq_IZR in E2. lia.
Qed.
Lemma full_mag_in : forall os cs r, In r (calc_full_mag_elems os cs) <-> exists o c, In o os /\ In c cs /\ r = mag_compose o c.
Proof.
  intros os cs r. unfold calc_full_mag_elems. rewrite in_flat_map. split.
  - intros (o & Ho & Hr). apply in_map_iff in Hr. destruct Hr as (c & <- & Hc). eauto.
  - intros (o & c & Ho & Hc & ->). exists o. split; [assumption|]. apply in_map. assumption.
Qed.

(** * C20 *)
Definition vR (v : V3 Z) : V3 R := mkV (IZR (v_1 v)) (IZR (v_2 v)) (IZR (v_3 v)).
Lemma vR_get : forall v i, vget (vR v) i = IZR (vget v i).
Proof. intros v []; reflexivity. Qed.
Lemma hkl_r_spec : forall h e i, IZR (vget (hkl_r h e) i) = sum3 (fun k => IZR (vget h k) * IZR (mget (e_r e) k i)).
Proof.
  intros [h k l] [b d [r11 r12 r13 r21 r22 r23 r31 r32 r33]] []; unfold hkl_r, sum3; cbn [e_r vget v_1 v_2 v_3 mget m_11 m_12 m_13 m_21 m_22 m_23 m_31 m_32 m_33];
  rewrite !plus_IZR, !mult_IZR; ring.
Qed.
(** a left inverse of a 3x3 matrix is a right inverse *)
Lemma left_inverse_right : forall s r : ix -> ix -> R,
  (forall i j, sum3 (fun k => s i k * r k j) = delta i j) -> forall i j, sum3 (fun k => r i k * s k j) = delta i j.
Proof.
  intros s r L.
  assert (Dm : det3 s * det3 r = 1).
  { transitivity (det3 (fun i j => sum3 (fun k => s i k * r k j))).
    - unfold det3, sum3. ring.
    - rewrite (det3_ext _ delta L). unfold det3, delta. ring. }
  assert (Hd : det3 r <> 0) by (intros E; rewrite E in Dm; lra).
  (* adjugate inverse *)
  set (d := det3 r) in *.
  set (a := fun i j : ix => match i, j with
    | X1, X1 => (r X2 X2 * r X3 X3 - r X2 X3 * r X3 X2) / d | X1, X2 => (r X1 X3 * r X3 X2 - r X1 X2 * r X3 X3) / d
    | X1, X3 => (r X1 X2 * r X2 X3 - r X1 X3 * r X2 X2) / d
    | X2, X1 => (r X2 X3 * r X3 X1 - r X2 X1 * r X3 X3) / d | X2, X2 => (r X1 X1 * r X3 X3 - r X1 X3 * r X3 X1) / d
    | X2, X3 => (r X1 X3 * r X2 X1 - r X1 X1 * r X2 X3) / d
    | X3, X1 => (r X2 X1 * r X3 X2 - r X2 X2 * r X3 X1) / d | X3, X2 => (r X1 X2 * r X3 X1 - r X1 X1 * r X3 X2) / d
    | X3, X3 => (r X1 X1 * r X2 X2 - r X1 X2 * r X2 X1) / d end).
  assert (Ra : forall i j, sum3 (fun k => r i k * a k j) = delta i j).
  { intros i j. destruct i, j; unfold a, sum3, delta; unfold d, det3 in Hd |- *; field; exact Hd. }
  assert (Es : forall i j, s i j = a i j).
  { intros i j. transitivity (sum3 (fun m => sum3 (fun k => s i k * r k m) * a m j)).
    - transitivity (sum3 (fun k => s i k * sum3 (fun m => r k m * a m j))).
      + transitivity (sum3 (fun k => s i k * delta k j)); [destruct j; unfold sum3, delta; ring|].
        apply sum3_ext; intros k. rewrite Ra. reflexivity.
      + unfold sum3. ring.
    - transitivity (sum3 (fun m => delta i m * a m j)).
      + apply sum3_ext; intros m. rewrite L. reflexivity.
      + destruct i; unfold sum3, delta; ring. }
  intros i j. rewrite <- Ra. apply sum3_ext; intros k. rewrite Es. reflexivity.
Qed.
(** R^T G R = G and G invertible give R G* R^T = G*. *)
Lemma dual_invariant : forall (r g gi : ix -> ix -> R), is_inverse g gi ->
  (forall i j, sum3 (fun k => sum3 (fun l => r k i * g k l * r l j)) = g i j) ->
  forall i j, sum3 (fun k => sum3 (fun l => r i k * gi k l * r j l)) = gi i j.
Proof.
  intros r g gi [I1 I2] H.
  (* s = gi r^T g is a left inverse of r ; hence also a right inverse *)
  set (s := fun i j => sum3 (fun k => sum3 (fun l => gi i k * r l k * g l j))).
  assert (L : forall i j, sum3 (fun k => s i k * r k j) = delta i j).
  { intros i j. transitivity (sum3 (fun k => gi i k * sum3 (fun m => sum3 (fun l => r m k * g m l * r l j)))).
    - unfold s, sum3. ring.
    - transitivity (sum3 (fun k => gi i k * g k j)); [|apply I2]. apply sum3_ext. intros k. rewrite H. reflexivity. }
  assert (Lr : forall i j, sum3 (fun k => r i k * s k j) = delta i j) by (exact (left_inverse_right s r L)).
  intros i j.
  (* r gi r^T = r (gi r^T g) gi = (r s) gi = gi *)
  transitivity (sum3 (fun m => sum3 (fun k => r i k * s k m) * gi m j)).
  - transitivity (sum3 (fun k => sum3 (fun l => r i k * gi k l * sum3 (fun p => r p l * sum3 (fun m => g p m * gi m j))))).
    + apply sum3_ext; intros k. apply sum3_ext; intros l. f_equal.
      transitivity (sum3 (fun p => r p l * delta p j)).
      * destruct j; unfold sum3, delta; ring.
      * apply sum3_ext; intros p. rewrite I1. reflexivity.
    + unfold s, sum3. ring.
  - transitivity (sum3 (fun m => delta i m * gi m j)).
    + apply sum3_ext; intros m. rewrite Lr. reflexivity.
    + destruct i; unfold sum3, delta; ring.
Qed.
Lemma inv_d_hkl_r : forall h e uc, nondegenerate uc -> metric_invariant uc e ->
  calc_inv_d (vR (hkl_r h e)) uc = calc_inv_d (vR h) uc.
Proof.
  intros h e uc H M. rewrite !inv_d_arg by assumption. f_equal.
  assert (G : is_inverse (metric uc) (qget (calc_m_reciprocal_g uc))).
  { destruct (g_inverse uc H) as [A B]. split; intros i j.
    - rewrite <- A. apply sum3_ext; intros k. rewrite m_g_metric. reflexivity.
    - rewrite <- B. apply sum3_ext; intros k. rewrite m_g_metric. reflexivity. }
  pose proof (dual_invariant (fun i j => IZR (mget (e_r e) i j)) _ _ G M) as D.
  unfold form_rg.
  transitivity (sum3 (fun i => sum3 (fun j => IZR (vget h i) * IZR (vget h j) *
      sum3 (fun k => sum3 (fun l => IZR (mget (e_r e) i k) * qget (calc_m_reciprocal_g uc) k l * IZR (mget (e_r e) j l)))))).
  - unfold sum3. rewrite !vR_get, !hkl_r_spec. unfold sum3. ring.
  - apply sum3_ext; intros i. apply sum3_ext; intros j. rewrite D, !vR_get. ring.
Qed.
Lemma inv_d_opp : forall h uc, nondegenerate uc -> calc_inv_d (vR (z_opp_v h)) uc = calc_inv_d (vR h) uc.
Proof.
  intros h uc H. rewrite !inv_d_arg by assumption. f_equal. unfold form_rg.
  apply sum3_ext; intros i. apply sum3_ext; intros j. rewrite !vR_get.
  assert (E : forall i, IZR (vget (z_opp_v h) i) = - IZR (vget h i)).
  { intros []; unfold z_opp_v; cbn [vget v_1 v_2 v_3]; rewrite mult_IZR; ring. }
  rewrite !E. ring.
Qed.
Lemma equivalent_d : forall h red c uc, nondegenerate uc -> (forall e, In e red -> metric_invariant uc e) ->
  forall h', In h' (calc_equivalent_reflections h red c) -> calc_inv_d (vR h') uc = calc_inv_d (vR h) uc.
Proof.
  intros h red c uc H M h' Hin. unfold calc_equivalent_reflections in Hin.
  assert (A : forall g, In g (map (hkl_r h) red) -> calc_inv_d (vR g) uc = calc_inv_d (vR h) uc).
  { intros g Hg. apply in_map_iff in Hg. destruct Hg as (e & <- & He). apply inv_d_hkl_r; auto. }
  destruct c; [|apply A; exact Hin]. apply in_app_or in Hin. destruct Hin as [Hin|Hin]; [apply A; exact Hin|].
  apply in_map_iff in Hin. destruct Hin as (g & <- & Hg). rewrite inv_d_opp by assumption. apply A; exact Hg.
Qed.
