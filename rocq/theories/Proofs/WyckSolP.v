(** The test whether a point lies on a Wyckoff position: elimination modulo 1. *)
From Coq Require Import Reals ZArith QArith Qround Qreals Qfield List Bool Lia Setoid Morphisms.
From Verif Require Import Spec.Lin3 Spec.Symm Spec.SgSpec Model.Strings Model.SpaceGroup.
Import ListNotations.
Open Scope list_scope.
Open Scope Q_scope.

Definition row (a b c : Q) : vec := [a; b; c].
Definition dot (r : vec) (t : nat -> Q) : Q := nth 0 r 0 * t 0%nat + nth 1 r 0 * t 1%nat + nth 2 r 0 * t 2%nat.
Definition upd (t : nat -> Q) (i : nat) (x : Q) : nat -> Q := fun k => if Nat.eqb k i then x else t k.
Definition len3 (r : vec) : Prop := List.length r = 3%nat.
(** equal modulo 1 *)
Definition eqm (a b : Q) : Prop := exists n : Z, a == b + inject_Z n.
Global Instance eqm_proper : Proper (Qeq ==> Qeq ==> iff) eqm.
Proof. intros a b E c d F. unfold eqm. split; intros [n N]; exists n; [rewrite <- E, <- F|rewrite E, F]; exact N. Qed.
Lemma eqm_refl : forall a b, a == b -> eqm a b. Proof. intros a b H. exists 0%Z. rewrite H. unfold inject_Z. ring. Qed.
Lemma eqm_trans : forall a b c, eqm a b -> eqm b c -> eqm a c.
Proof. intros a b c [n N] [m M]. exists (n + m)%Z. rewrite N, M, inject_Z_plus. ring. Qed.
Lemma eqm_sym : forall a b, eqm a b -> eqm b a. Proof. intros a b [n N]. exists (- n)%Z. rewrite N, inject_Z_opp. ring. Qed.
Lemma frac_mod_eqm : forall q, eqm (frac_mod_1 q) q.
Proof. intros q. exists (- Qfloor q)%Z. unfold frac_mod_1. rewrite Qred_correct, inject_Z_opp. ring. Qed.
Lemma frac_mod_range : forall q, 0 <= frac_mod_1 q < 1.
Proof.
  intros q. unfold frac_mod_1. rewrite Qred_correct. split.
  - apply (Qplus_le_r _ _ (inject_Z (Qfloor q))). ring_simplify. apply Qfloor_le.
  - apply (Qplus_lt_r _ _ (inject_Z (Qfloor q))). ring_simplify. generalize (Qlt_floor q). rewrite inject_Z_plus. unfold inject_Z. intros H. exact H.
Qed.
Lemma frac_mod_zero : forall q, eqm q 0 -> frac_mod_1 q == 0.
Proof.
  intros q [n N]. assert (frac_mod_1 q == inject_Z (n - Qfloor q)) as E.
  { unfold frac_mod_1. rewrite Qred_correct, N at 1. unfold Zminus. rewrite inject_Z_plus, inject_Z_opp. ring. }
  generalize (frac_mod_range q). rewrite E. unfold Qle, Qlt, inject_Z. cbn. intros [A B]. assert (n - Qfloor q = 0)%Z as -> by lia. reflexivity.
Qed.
Lemma len3_row : forall r, len3 r -> exists a b c, r = [a; b; c].
Proof. intros [|a [|b [|c [|]]]] H; try discriminate. now exists a, b, c. Qed.

(** ** Pivot search *)
Lemma first_pivot_some : forall r excl i x, len3 r -> first_pivot 0 r excl = Some (i, x) ->
  (i < 3)%nat /\ x = nth i r 0 /\ ~ x == 0 /\ existsb (Nat.eqb i) excl = false.
Proof.
  intros r excl i x L. destruct (len3_row r L) as [a [b [c ->]]]. cbn [first_pivot].
  repeat (match goal with |- context [if ?q then _ else _] => destruct q eqn:? end; [intros H; inversion H; subst; clear H;
    match goal with H : _ && _ = true |- _ => apply andb_prop in H as [H1 H2] end;
    apply negb_true_iff in H1; apply negb_true_iff in H2; apply Qeq_bool_neq in H2; split; [lia|]; split; [reflexivity|]; split; [exact H2|exact H1]|]).
  discriminate.
Qed.
Lemma first_pivot_none : forall r excl, len3 r -> first_pivot 0 r excl = None -> forall i, (i < 3)%nat -> existsb (Nat.eqb i) excl = false -> nth i r 0 == 0.
Proof.
  intros r excl L. destruct (len3_row r L) as [a [b [c ->]]]. cbn [first_pivot].
  destruct (negb (existsb (Nat.eqb 0) excl) && negb (Qeq_bool a 0)) eqn:A; [discriminate|].
  destruct (negb (existsb (Nat.eqb 1) excl) && negb (Qeq_bool b 0)) eqn:B; [discriminate|].
  destruct (negb (existsb (Nat.eqb 2) excl) && negb (Qeq_bool c 0)) eqn:C; [discriminate|]. intros _ i I E.
  destruct i as [|[|[|i]]]; [| | |lia]; rewrite E in *; cbn [negb andb nth] in *;
  apply Qeq_bool_eq; [destruct (Qeq_bool a 0)|destruct (Qeq_bool b 0)|destruct (Qeq_bool c 0)]; cbn in *; congruence.
Qed.
Lemma devide_some : forall r d v, len3 r -> ~ v == 0 -> let '(a, e) := devide r d (Some v) in len3 a /\ (forall k, (k < 3)%nat -> nth k a 0 == nth k r 0 / v) /\ e == d / v.
Proof.
  intros r d v L V. destruct (len3_row r L) as [x [y [z ->]]]. cbn [devide map]. split; [reflexivity|]. split; [|apply Qred_correct].
  intros [|[|[|k]]] K; try lia; cbn [nth]; apply Qred_correct.
Qed.
Lemma eliminate_ok : forall a e i r d, len3 a -> len3 r -> let '(r', d') := eliminate a e i r d in
  len3 r' /\ (forall k, (k < 3)%nat -> nth k r' 0 == nth k r 0 - nth i r 0 * nth k a 0) /\ d' = frac_mod_1 (d - nth i r 0 * e).
Proof.
  intros a e i r d La Lr. destruct (len3_row a La) as [x [y [z ->]]]. destruct (len3_row r Lr) as [u [v [w ->]]]. unfold eliminate. split; [reflexivity|].
  split; [|reflexivity]. set (q := nth i [u; v; w] 0). intros [|[|[|k]]] K; try lia; cbn [combine map nth fst snd]; apply Qred_correct.
Qed.

(** ** Solving *)
Lemma dot_upd : forall r t i x, (i < 3)%nat -> dot r (upd t i x) == dot r t + nth i r 0 * (x - t i).
Proof. intros r t [|[|[|i]]] x I; try lia; unfold dot, upd; cbn [Nat.eqb]; ring. Qed.
Lemma dot_zero : forall r t, (forall k, (k < 3)%nat -> nth k r 0 == 0) -> dot r t == 0.
Proof. intros r t H. unfold dot. rewrite (H 0%nat), (H 1%nat), (H 2%nat) by lia. ring. Qed.
Lemma dot_lin : forall a r r' v t, (forall k, (k < 3)%nat -> nth k r' 0 == nth k r 0 - v * nth k a 0) -> dot r' t == dot r t - v * dot a t.
Proof. intros a r r' v t H. unfold dot. rewrite (H 0%nat), (H 1%nat), (H 2%nat) by lia. ring. Qed.
Lemma dot_div : forall a r v t, ~ v == 0 -> (forall k, (k < 3)%nat -> nth k a 0 == nth k r 0 / v) -> dot r t == v * dot a t.
Proof. intros a r v t V H. unfold dot. rewrite (H 0%nat), (H 1%nat), (H 2%nat) by lia. field. exact V. Qed.

(** What the elimination of one row by a pivot gives. *)
Definition pivot_row (r : vec) (d : Q) (i : nat) (a : vec) (e : Q) : Prop :=
  len3 a /\ (i < 3)%nat /\ nth i a 0 == 1 /\ (forall t, dot a t == e <-> dot r t == d) /\ (forall k, (k < 3)%nat -> nth k r 0 == 0 -> nth k a 0 == 0).
Lemma one_line_some : forall r d excl a e i, len3 r -> one_line r d excl = ((a, e), Some i) -> pivot_row r d i a e /\ existsb (Nat.eqb i) excl = false.
Proof.
  intros r d excl a e i L H. unfold one_line in H. destruct (first_pivot 0 r excl) as [[j v]|] eqn:P; [|discriminate].
  cbn [option_map fst snd] in H. apply first_pivot_some in P as [J [-> [V X]]]; [|assumption].
  generalize (devide_some r d (nth j r 0) L V). destruct (devide r d (Some (nth j r 0))) as [a' e']. inversion H; subst; clear H. intros [La [Ha He]].
  split; [|exact X]. split; [exact La|]. split; [exact J|]. split; [rewrite (Ha i J); field; exact V|]. split.
  - intros t. rewrite (dot_div a r _ t V Ha), He. split; intros E; [rewrite E; field; exact V|]. rewrite <- E. field. exact V.
  - intros k K Z. rewrite (Ha k K), Z. field. exact V.
Qed.
Lemma one_line_none : forall r d excl a e, len3 r -> one_line r d excl = ((a, e), None) -> forall k, (k < 3)%nat -> existsb (Nat.eqb k) excl = false -> nth k r 0 == 0.
Proof.
  intros r d excl a e L H. unfold one_line in H. destruct (first_pivot 0 r excl) as [[j v]|] eqn:P; [discriminate|]. now apply first_pivot_none.
Qed.
(** Setting coordinate i solves the pivot row and keeps every row that has 0 there. *)
Lemma solve_at : forall r d i a e t, pivot_row r d i a e -> exists t', dot r t' == d /\ (forall q, nth i q 0 == 0 -> dot q t' == dot q t).
Proof.
  intros r d i a e t [La [I [P [E Z]]]]. exists (upd t i (t i + (e - dot a t))). split.
  - apply E. rewrite dot_upd by exact I. rewrite P. ring.
  - intros q Q0. rewrite dot_upd by exact I. rewrite Q0. ring.
Qed.
Lemma excl_1 : forall i k, existsb (Nat.eqb k) [i] = false <-> k <> i.
Proof. intros i k. cbn. rewrite orb_false_r. split; [apply Nat.eqb_neq|apply Nat.eqb_neq]. Qed.
Lemma excl_2 : forall i j k, existsb (Nat.eqb k) ([i] ++ [j]) = false <-> k <> i /\ k <> j.
Proof. intros i j k. cbn. rewrite orb_false_r, orb_false_iff, !Nat.eqb_neq. tauto. Qed.

Lemma solution_sound : forall r1 r2 r3 c1 c2 c3, len3 r1 -> len3 r2 -> len3 r3 -> is_solution_a_b r1 r2 r3 c1 c2 c3 = true ->
  exists t, eqm (dot r1 t) c1 /\ eqm (dot r2 t) c2 /\ eqm (dot r3 t) c3.
Proof.
  intros r1 r2 r3 c1 c2 c3 L1 L2 L3 H. unfold is_solution_a_b in H.
  destruct (Qeq_bool c1 0 && Qeq_bool c2 0 && Qeq_bool c3 0) eqn:Z0.
  { rewrite !andb_true_iff in Z0. destruct Z0 as [[Z1 Z2] Z3]. apply Qeq_bool_eq in Z1, Z2, Z3. exists (fun _ => 0).
    repeat split; apply eqm_refl; unfold dot; [rewrite Z1|rewrite Z2|rewrite Z3]; ring. }
  assert (F : forall r c t, eqm (dot r t) (frac_mod_1 c) -> eqm (dot r t) c) by (intros r c t E; eapply eqm_trans; [exact E|apply frac_mod_eqm]).
  assert (G : forall t, eqm (dot r1 t) (frac_mod_1 c1) -> eqm (dot r2 t) (frac_mod_1 c2) -> eqm (dot r3 t) (frac_mod_1 c3) ->
    exists t, eqm (dot r1 t) c1 /\ eqm (dot r2 t) c2 /\ eqm (dot r3 t) c3) by (intros t E1 E2 E3; exists t; auto).
  revert H G. generalize (frac_mod_1 c1), (frac_mod_1 c2), (frac_mod_1 c3). intros d1 d2 d3 H G. clear Z0 F.
  destruct (one_line r1 d1 []) as [[a1 e1] i1] eqn:O1. destruct i1 as [i1|].
  - (* pivot in row 1 *)
    apply one_line_some in O1 as [P1 _]; [|assumption]. assert (P1' := P1). destruct P1' as [La1 [I1 [U1 [E1 _]]]].
    generalize (eliminate_ok a1 e1 i1 r2 d2 La1 L2). destruct (eliminate a1 e1 i1 r2 d2) as [r2' d2']. intros [L2' [R2 D2]].
    generalize (eliminate_ok a1 e1 i1 r3 d3 La1 L3). destruct (eliminate a1 e1 i1 r3 d3) as [r3' d3']. intros [L3' [R3 D3]].
    cbn [negb] in H.
    assert (B2 : nth i1 r2' 0 == 0) by (rewrite (R2 i1 I1), U1; ring). assert (B3 : nth i1 r3' 0 == 0) by (rewrite (R3 i1 I1), U1; ring).
    assert (K : forall t, dot r1 t == d1 -> eqm (dot r2' t) d2' -> eqm (dot r3' t) d3' -> exists t, eqm (dot r1 t) c1 /\ eqm (dot r2 t) c2 /\ eqm (dot r3 t) c3).
    { intros t T1 T2 T3. apply (G t); [apply eqm_refl; exact T1| |].
      - assert (X : dot a1 t == e1) by (apply E1; exact T1). rewrite (dot_lin a1 r2 r2' _ t R2), X in T2. rewrite D2 in T2.
        destruct (eqm_trans _ _ _ T2 (frac_mod_eqm _)) as [n N]. exists n. apply (Qplus_inj_r _ _ (- (nth i1 r2 0 * e1))).
        transitivity (dot r2 t - nth i1 r2 0 * e1); [ring|]. rewrite N. ring.
      - assert (X : dot a1 t == e1) by (apply E1; exact T1). rewrite (dot_lin a1 r3 r3' _ t R3), X in T3. rewrite D3 in T3.
        destruct (eqm_trans _ _ _ T3 (frac_mod_eqm _)) as [n N]. exists n. apply (Qplus_inj_r _ _ (- (nth i1 r3 0 * e1))).
        transitivity (dot r3 t - nth i1 r3 0 * e1); [ring|]. rewrite N. ring. }
    clear G. destruct (one_line r2' d2' [i1]) as [[a2 e2] i2] eqn:O2. destruct i2 as [i2|].
    + apply one_line_some in O2 as [P2 X2]; [|assumption]. assert (P2' := P2). destruct P2' as [La2 [I2 [U2 [E2 N2]]]]. apply excl_1 in X2.
      generalize (eliminate_ok a2 e2 i2 r3' d3' La2 L3'). destruct (eliminate a2 e2 i2 r3' d3') as [r3'' d3'']. intros [L3'' [R3' D3']].
      cbn [negb] in H.
      assert (B3' : nth i2 r3'' 0 == 0) by (rewrite (R3' i2 I2), U2; ring).
      assert (B3'' : nth i1 r3'' 0 == 0) by (rewrite (R3' i1 I1), B3, (N2 i1 I1 B2); ring).
      assert (K2 : forall t, dot r1 t == d1 -> dot r2' t == d2' -> eqm (dot r3'' t) d3'' -> exists t, eqm (dot r1 t) c1 /\ eqm (dot r2 t) c2 /\ eqm (dot r3 t) c3).
      { intros t T1 T2 T3. apply (K t); [exact T1|apply eqm_refl; exact T2|]. assert (X : dot a2 t == e2) by (apply E2; exact T2).
        rewrite (dot_lin a2 r3' r3'' _ t R3'), X in T3. rewrite D3' in T3. destruct (eqm_trans _ _ _ T3 (frac_mod_eqm _)) as [n N]. exists n.
        apply (Qplus_inj_r _ _ (- (nth i2 r3' 0 * e2))). transitivity (dot r3' t - nth i2 r3' 0 * e2); [ring|]. rewrite N. ring. }
      assert (K3 : forall t, eqm (dot r3'' t) d3'' -> exists t, eqm (dot r1 t) c1 /\ eqm (dot r2 t) c2 /\ eqm (dot r3 t) c3).
      { intros t T. destruct (solve_at _ _ _ _ _ t P2) as [t2 [S2 Q2]]. destruct (solve_at _ _ _ _ _ t2 P1) as [t1 [S1 Q1]].
        apply (K2 t1); [exact S1|rewrite (Q1 r2' B2); exact S2|]. rewrite (Q1 r3'' B3''), (Q2 r3'' B3'). exact T. }
      destruct (one_line r3'' d3'' ([i1] ++ [i2])) as [[a3 e3] i3] eqn:O3. destruct i3 as [i3|].
      * apply one_line_some in O3 as [P3 X3]; [|assumption]. destruct (solve_at _ _ _ _ _ (fun _ => 0) P3) as [t3 [S3 _]]. apply (K3 t3). apply eqm_refl, S3.
      * apply Qeq_bool_eq in H. apply (K3 (fun _ => 0)). apply eqm_refl. rewrite H. unfold dot. ring.
    + cbn [negb] in H. destruct (Qeq_bool d2' 0) eqn:Z2; [|discriminate]. apply Qeq_bool_eq in Z2. cbn [negb] in H.
      assert (A2 : forall t, dot r2' t == 0).
      { intros t. apply dot_zero. intros k K0. destruct (Nat.eq_dec k i1) as [->|NK]; [exact B2|]. eapply one_line_none; [exact L2'|exact O2|exact K0|now apply excl_1]. }
      assert (K3 : forall t, eqm (dot r3' t) d3' -> exists t, eqm (dot r1 t) c1 /\ eqm (dot r2 t) c2 /\ eqm (dot r3 t) c3).
      { intros t T. destruct (solve_at _ _ _ _ _ t P1) as [t1 [S1 Q1]]. apply (K t1); [exact S1|apply eqm_refl; rewrite (A2 t1), Z2; reflexivity|rewrite (Q1 r3' B3); exact T]. }
      destruct (one_line r3' d3' [i1]) as [[a3 e3] i3] eqn:O3. destruct i3 as [i3|].
      * apply one_line_some in O3 as [P3 X3]; [|assumption]. destruct (solve_at _ _ _ _ _ (fun _ => 0) P3) as [t3 [S3 _]]. apply (K3 t3). apply eqm_refl, S3.
      * apply Qeq_bool_eq in H. apply (K3 (fun _ => 0)). apply eqm_refl. rewrite H. unfold dot. ring.
  - (* row 1 is zero *)
    destruct (Qeq_bool d1 0) eqn:Z1; [|discriminate]. apply Qeq_bool_eq in Z1. cbn [negb] in H.
    assert (A1 : forall t, dot r1 t == 0) by (intros t; apply dot_zero; intros k K0; eapply one_line_none; [exact L1|exact O1|exact K0|reflexivity]).
    assert (K : forall t, eqm (dot r2 t) d2 -> eqm (dot r3 t) d3 -> exists t, eqm (dot r1 t) c1 /\ eqm (dot r2 t) c2 /\ eqm (dot r3 t) c3).
    { intros t T2 T3. apply (G t); [apply eqm_refl; rewrite (A1 t), Z1; reflexivity|exact T2|exact T3]. }
    clear G. destruct (one_line r2 d2 []) as [[a2 e2] i2] eqn:O2. destruct i2 as [i2|].
    + apply one_line_some in O2 as [P2 _]; [|assumption]. assert (P2' := P2). destruct P2' as [La2 [I2 [U2 [E2 N2]]]].
      generalize (eliminate_ok a2 e2 i2 r3 d3 La2 L3). destruct (eliminate a2 e2 i2 r3 d3) as [r3'' d3'']. intros [L3'' [R3' D3']].
      cbn [negb] in H. assert (B3' : nth i2 r3'' 0 == 0) by (rewrite (R3' i2 I2), U2; ring).
      assert (K2 : forall t, dot r2 t == d2 -> eqm (dot r3'' t) d3'' -> exists t, eqm (dot r1 t) c1 /\ eqm (dot r2 t) c2 /\ eqm (dot r3 t) c3).
      { intros t T2 T3. apply (K t); [apply eqm_refl; exact T2|]. assert (X : dot a2 t == e2) by (apply E2; exact T2).
        rewrite (dot_lin a2 r3 r3'' _ t R3'), X in T3. rewrite D3' in T3. destruct (eqm_trans _ _ _ T3 (frac_mod_eqm _)) as [n N]. exists n.
        apply (Qplus_inj_r _ _ (- (nth i2 r3 0 * e2))). transitivity (dot r3 t - nth i2 r3 0 * e2); [ring|]. rewrite N. ring. }
      assert (K3 : forall t, eqm (dot r3'' t) d3'' -> exists t, eqm (dot r1 t) c1 /\ eqm (dot r2 t) c2 /\ eqm (dot r3 t) c3).
      { intros t T. destruct (solve_at _ _ _ _ _ t P2) as [t2 [S2 Q2]]. apply (K2 t2); [exact S2|rewrite (Q2 r3'' B3'); exact T]. }
      destruct (one_line r3'' d3'' ([] ++ [i2])) as [[a3 e3] i3] eqn:O3. destruct i3 as [i3|].
      * apply one_line_some in O3 as [P3 X3]; [|assumption]. destruct (solve_at _ _ _ _ _ (fun _ => 0) P3) as [t3 [S3 _]]. apply (K3 t3). apply eqm_refl, S3.
      * apply Qeq_bool_eq in H. apply (K3 (fun _ => 0)). apply eqm_refl. rewrite H. unfold dot. ring.
    + destruct (Qeq_bool d2 0) eqn:Z2; [|discriminate]. apply Qeq_bool_eq in Z2. cbn [negb] in H.
      assert (A2 : forall t, dot r2 t == 0) by (intros t; apply dot_zero; intros k K0; eapply one_line_none; [exact L2|exact O2|exact K0|reflexivity]).
      assert (K3 : forall t, eqm (dot r3 t) d3 -> exists t, eqm (dot r1 t) c1 /\ eqm (dot r2 t) c2 /\ eqm (dot r3 t) c3).
      { intros t T. apply (K t); [apply eqm_refl; rewrite (A2 t), Z2; reflexivity|exact T]. }
      destruct (one_line r3 d3 []) as [[a3 e3] i3] eqn:O3. destruct i3 as [i3|].
      * apply one_line_some in O3 as [P3 X3]; [|assumption]. destruct (solve_at _ _ _ _ _ (fun _ => 0) P3) as [t3 [S3 _]]. apply (K3 t3). apply eqm_refl, S3.
      * apply Qeq_bool_eq in H. apply (K3 (fun _ => 0)). apply eqm_refl. rewrite H. unfold dot. ring.
Qed.

(** ** When all pivots are 1 or -1 the test is complete *)
Definition isint (q : Q) : bool := Pos.eqb (Qden (Qred q)) 1.
Definition unit_q (q : Q) : bool := Qeq_bool q 1 || Qeq_bool q (-(1)).
Definition unit_pivots (r1 r2 r3 : vec) : bool :=
  let '(r2', r3', excl, ok1) :=
    match first_pivot 0 r1 [] with
    | Some (i, x) => let a1 := fst (devide r1 0 (Some x)) in
                     (fst (eliminate a1 0 i r2 0), fst (eliminate a1 0 i r3 0), [i], unit_q x && isint (nth i r2 0) && isint (nth i r3 0))
    | None => (r2, r3, [], true) end in
  ok1 && match first_pivot 0 r2' excl with
         | Some (i, x) => unit_q x && isint (nth i r3' 0)
         | None => true end.
Open Scope R_scope.
Definition dotR (r : vec) (t : ix -> R) : R := Q2R (nth 0 r 0%Q) * t X1 + Q2R (nth 1 r 0%Q) * t X2 + Q2R (nth 2 r 0%Q) * t X3.
Definition eqmR (a b : R) : Prop := exists n : Z, a = b + IZR n.
Lemma isint_ok : forall q, isint q = true -> exists z : Z, Q2R q = IZR z.
Proof.
  intros q H. unfold isint in H. apply Pos.eqb_eq in H. exists (Qnum (Qred q)). rewrite <- (Qeq_eqR _ _ (Qred_correct q)).
  destruct (Qred q) as [n d]. cbn in *. subst d. unfold Q2R. cbn. field.
Qed.
Lemma Q2R_inject : forall z, Q2R (inject_Z z) = IZR z.
Proof. intros z. unfold Q2R, inject_Z. cbn. field. Qed.
Lemma eqmR_frac : forall a q, eqmR a (Q2R q) -> eqmR a (Q2R (frac_mod_1 q)).
Proof.
  intros a q [n N]. destruct (frac_mod_eqm q) as [m M]. exists (n - m)%Z. apply Qeq_eqR in M. rewrite Q2R_plus, Q2R_inject in M.
  rewrite N, M, minus_IZR. ring.
Qed.
Lemma eqmR_zero : forall q, eqmR 0 (Q2R (frac_mod_1 q)) -> (frac_mod_1 q == 0)%Q.
Proof.
  intros q [n N]. generalize (frac_mod_range q). set (f := frac_mod_1 q) in *. intros [A B]. apply Qle_Rle in A. apply Qlt_Rlt in B.
  rewrite RMicromega.Q2R_0 in A. rewrite RMicromega.Q2R_1 in B.
  assert (Q2R f = IZR (- n)) as E by (rewrite opp_IZR; Lra.lra). rewrite E in A, B.
  assert (- n = 0)%Z as Z0 by (apply le_IZR in A; apply lt_IZR in B; lia). rewrite Z0 in E. apply eqR_Qeq. rewrite RMicromega.Q2R_0. exact E.
Qed.
Lemma dotR_zero : forall r t, (forall k, (k < 3)%nat -> (nth k r 0 == 0)%Q) -> dotR r t = 0.
Proof.
  intros r t H. unfold dotR. rewrite (Qeq_eqR _ _ (H 0%nat ltac:(lia))), (Qeq_eqR _ _ (H 1%nat ltac:(lia))), (Qeq_eqR _ _ (H 2%nat ltac:(lia))), RMicromega.Q2R_0. ring.
Qed.
Lemma elim_R : forall a e i r d t r' d', len3 a -> len3 r -> eliminate a e i r d = (r', d') -> isint (nth i r 0%Q) = true ->
  eqmR (dotR a t) (Q2R e) -> eqmR (dotR r t) (Q2R d) -> eqmR (dotR r' t) (Q2R d').
Proof.
  intros a e i r d t r' d' La Lr E W [n1 T1] [n2 T2]. generalize (eliminate_ok a e i r d La Lr). rewrite E. intros [_ [R ->]].
  destruct (isint_ok _ W) as [w Hw]. apply eqmR_frac. exists (n2 - w * n1)%Z.
  rewrite Q2R_minus, Q2R_mult, Hw. unfold dotR. rewrite (Qeq_eqR _ _ (R 0%nat ltac:(lia))), (Qeq_eqR _ _ (R 1%nat ltac:(lia))), (Qeq_eqR _ _ (R 2%nat ltac:(lia))).
  rewrite !Q2R_minus, !Q2R_mult, Hw, minus_IZR, mult_IZR. unfold dotR in T1, T2.
  transitivity ((Q2R (nth 0 r 0%Q) * t X1 + Q2R (nth 1 r 0%Q) * t X2 + Q2R (nth 2 r 0%Q) * t X3)
    - IZR w * (Q2R (nth 0 a 0%Q) * t X1 + Q2R (nth 1 a 0%Q) * t X2 + Q2R (nth 2 a 0%Q) * t X3)); [ring|]. rewrite T1, T2. ring.
Qed.
Lemma unit_R : forall q, unit_q q = true -> exists s : Z, (s = 1 \/ s = -1)%Z /\ Q2R q = IZR s /\ ~ (q == 0)%Q.
Proof.
  intros q H. unfold unit_q in H. apply orb_prop in H as [H|H]; apply Qeq_bool_eq in H; [exists 1%Z|exists (-1)%Z]; (split; [auto|]); split.
  - rewrite (Qeq_eqR _ _ H). apply RMicromega.Q2R_1.
  - rewrite H. discriminate.
  - rewrite (Qeq_eqR _ _ H). unfold Q2R. cbn. field.
  - rewrite H. discriminate.
Qed.
Lemma devide_R : forall r d x t a e, len3 r -> unit_q x = true -> devide r d (Some x) = (a, e) -> eqmR (dotR r t) (Q2R d) -> len3 a /\ eqmR (dotR a t) (Q2R e).
Proof.
  intros r d x t a e L U E [n N]. destruct (unit_R x U) as [s [S [X NX]]]. generalize (devide_some r d x L NX). rewrite E. intros [La [Ha He]]. split; [exact La|].
  assert (D : forall q, Q2R (q / x) = Q2R q * IZR s).
  { intros q. rewrite Q2R_div by exact NX. rewrite X. unfold Rdiv. f_equal. destruct S as [-> | ->]; field. }
  exists (s * n)%Z. rewrite (Qeq_eqR _ _ He), D, mult_IZR. unfold dotR.
  rewrite (Qeq_eqR _ _ (Ha 0%nat ltac:(lia))), (Qeq_eqR _ _ (Ha 1%nat ltac:(lia))), (Qeq_eqR _ _ (Ha 2%nat ltac:(lia))), !D.
  unfold dotR in N. transitivity ((Q2R (nth 0 r 0%Q) * t X1 + Q2R (nth 1 r 0%Q) * t X2 + Q2R (nth 2 r 0%Q) * t X3) * IZR s); [ring|]. rewrite N. ring.
Qed.
Lemma devide_fst : forall r d d' x, fst (devide r d x) = fst (devide r d' x).
Proof. intros r d d' [x|]; reflexivity. Qed.
Lemma eliminate_fst : forall a e e' i r d d', fst (eliminate a e i r d) = fst (eliminate a e' i r d').
Proof. reflexivity. Qed.
Lemma one_line_pivot : forall r d excl, one_line r d excl = (devide r d (option_map snd (first_pivot 0 r excl)), option_map fst (first_pivot 0 r excl)).
Proof. reflexivity. Qed.

Lemma solution_complete : forall r1 r2 r3 c1 c2 c3 t, len3 r1 -> len3 r2 -> len3 r3 -> unit_pivots r1 r2 r3 = true ->
  eqmR (dotR r1 t) (Q2R c1) -> eqmR (dotR r2 t) (Q2R c2) -> eqmR (dotR r3 t) (Q2R c3) -> is_solution_a_b r1 r2 r3 c1 c2 c3 = true.
Proof.
  intros r1 r2 r3 c1 c2 c3 t L1 L2 L3 U T1 T2 T3. unfold is_solution_a_b.
  destruct (Qeq_bool c1 0 && Qeq_bool c2 0 && Qeq_bool c3 0); [reflexivity|].
  assert (F1 := eqmR_frac _ _ T1). assert (F2 := eqmR_frac _ _ T2). assert (F3 := eqmR_frac _ _ T3). clear T1 T2 T3.
  assert (Z1 : eqmR 0 (Q2R (frac_mod_1 c1)) -> (frac_mod_1 c1 == 0)%Q) by (apply eqmR_zero).
  assert (Z2 : eqmR 0 (Q2R (frac_mod_1 c2)) -> (frac_mod_1 c2 == 0)%Q) by (apply eqmR_zero).
  assert (Z3 : eqmR 0 (Q2R (frac_mod_1 c3)) -> (frac_mod_1 c3 == 0)%Q) by (apply eqmR_zero).
  set (d1 := frac_mod_1 c1) in *. set (d2 := frac_mod_1 c2) in *. set (d3 := frac_mod_1 c3) in *. cbv zeta. clearbody d1 d2 d3.
  unfold unit_pivots in U. rewrite (one_line_pivot r1 d1 []). destruct (first_pivot 0 r1 []) as [[i1 x1]|] eqn:P1; cbn [option_map fst snd].
  - destruct (devide r1 d1 (Some x1)) as [a1 e1] eqn:D1. assert (FA : fst (devide r1 0 (Some x1)) = a1) by (rewrite (devide_fst r1 0 d1), D1; reflexivity).
    rewrite FA in U. apply andb_prop in U as [U1 U2]. apply andb_prop in U1 as [U1 W3]. apply andb_prop in U1 as [U1 W2].
    destruct (devide_R r1 d1 x1 t a1 e1 L1 U1 D1 F1) as [La1 G1].
    destruct (eliminate a1 e1 i1 r2 d2) as [r2' d2'] eqn:E2. destruct (eliminate a1 e1 i1 r3 d3) as [r3' d3'] eqn:E3.
    assert (Y2 := f_equal fst E2). rewrite (eliminate_fst a1 e1 0%Q i1 r2 d2 0%Q) in Y2. cbn [fst] in Y2. rewrite Y2 in U2.
    assert (Y3 := f_equal fst E3). rewrite (eliminate_fst a1 e1 0%Q i1 r3 d3 0%Q) in Y3. cbn [fst] in Y3. rewrite Y3 in U2.
    assert (G2 : eqmR (dotR r2' t) (Q2R d2')) by (eapply elim_R; [exact La1|exact L2|exact E2|exact W2|exact G1|exact F2]).
    assert (G3 : eqmR (dotR r3' t) (Q2R d3')) by (eapply elim_R; [exact La1|exact L3|exact E3|exact W3|exact G1|exact F3]).
    assert (L2' : len3 r2' /\ d2' = frac_mod_1 (d2 - nth i1 r2 0%Q * e1)) by (generalize (eliminate_ok a1 e1 i1 r2 d2 La1 L2); rewrite E2; tauto).
    assert (L3' : len3 r3' /\ d3' = frac_mod_1 (d3 - nth i1 r3 0%Q * e1)) by (generalize (eliminate_ok a1 e1 i1 r3 d3 La1 L3); rewrite E3; tauto).
    destruct L2' as [L2' DD2]. destruct L3' as [L3' DD3].
    (* column i1 of the eliminated rows is zero *)
    assert (PP : (i1 < 3)%nat /\ x1 = nth i1 r1 0%Q /\ ~ (x1 == 0)%Q) by (apply first_pivot_some in P1; tauto). destruct PP as [I1 [X1E X1N]].
    assert (A1 : (nth i1 a1 0 == 1)%Q).
    { generalize (devide_some r1 d1 x1 L1 X1N). rewrite D1. intros [_ [H _]]. rewrite (H i1 I1), <- X1E. field. exact X1N. }
    assert (B2 : (nth i1 r2' 0 == 0)%Q) by (generalize (eliminate_ok a1 e1 i1 r2 d2 La1 L2); rewrite E2; intros [_ [H _]]; rewrite (H i1 I1), A1; ring).
    assert (B3 : (nth i1 r3' 0 == 0)%Q) by (generalize (eliminate_ok a1 e1 i1 r3 d3 La1 L3); rewrite E3; intros [_ [H _]]; rewrite (H i1 I1), A1; ring).
    cbn [negb]. rewrite (one_line_pivot r2' d2' [i1]). destruct (first_pivot 0 r2' [i1]) as [[i2 x2]|] eqn:P2; cbn [option_map fst snd].
    + apply andb_prop in U2 as [V1 V2]. destruct (devide r2' d2' (Some x2)) as [a2 e2] eqn:D2'.
      destruct (devide_R r2' d2' x2 t a2 e2 L2' V1 D2' G2) as [La2 H2].
      destruct (eliminate a2 e2 i2 r3' d3') as [r3'' d3''] eqn:E3'.
      assert (H3 : eqmR (dotR r3'' t) (Q2R d3'')) by (eapply elim_R; [exact La2|exact L3'|exact E3'|exact V2|exact H2|exact G3]).
      assert (L3'' : len3 r3'' /\ d3'' = frac_mod_1 (d3' - nth i2 r3' 0%Q * e2)) by (generalize (eliminate_ok a2 e2 i2 r3' d3' La2 L3'); rewrite E3'; tauto).
      destruct L3'' as [L3'' DD]. cbn [negb]. rewrite (one_line_pivot r3'' d3'' ([i1] ++ [i2])).
      destruct (first_pivot 0 r3'' ([i1] ++ [i2])) as [[i3 x3]|] eqn:P3; cbn [option_map fst snd]; [reflexivity|].
      apply Qeq_bool_iff. rewrite DD. apply eqmR_zero. rewrite <- DD.
      replace 0 with (dotR r3'' t); [exact H3|]. apply dotR_zero. intros k K.
      assert (PP : (i2 < 3)%nat /\ x2 = nth i2 r2' 0%Q /\ ~ (x2 == 0)%Q) by (apply first_pivot_some in P2; tauto). destruct PP as [I2 [X2E X2N]].
      assert (A2 : forall j, (j < 3)%nat -> (nth j a2 0 == nth j r2' 0 / x2)%Q) by (generalize (devide_some r2' d2' x2 L2' X2N); rewrite D2'; tauto).
      assert (R3 : forall j, (j < 3)%nat -> (nth j r3'' 0 == nth j r3' 0 - nth i2 r3' 0 * nth j a2 0)%Q) by (generalize (eliminate_ok a2 e2 i2 r3' d3' La2 L3'); rewrite E3'; tauto).
      destruct (Nat.eq_dec k i1) as [->|K1]; [rewrite (R3 i1 I1), (A2 i1 I1), B2, B3; field; exact X2N|].
      destruct (Nat.eq_dec k i2) as [->|K2]; [rewrite (R3 i2 I2), (A2 i2 I2), <- X2E; field; exact X2N|].
      eapply first_pivot_none; [exact L3''|exact P3|exact K|apply excl_2; auto].
    + destruct (devide r2' d2' None) as [a2 e2].
      assert (Q2 : (d2' == 0)%Q).
      { rewrite DD2. apply eqmR_zero. rewrite <- DD2. replace 0 with (dotR r2' t); [exact G2|]. apply dotR_zero. intros k K.
        destruct (Nat.eq_dec k i1) as [->|K1]; [exact B2|]. eapply first_pivot_none; [exact L2'|exact P2|exact K|apply excl_1; auto]. }
      apply Qeq_bool_iff in Q2. rewrite Q2. cbn [negb]. rewrite (one_line_pivot r3' d3' [i1]).
      destruct (first_pivot 0 r3' [i1]) as [[i3 x3]|] eqn:P3; cbn [option_map fst snd]; [reflexivity|].
      apply Qeq_bool_iff. rewrite DD3. apply eqmR_zero. rewrite <- DD3. replace 0 with (dotR r3' t); [exact G3|]. apply dotR_zero. intros k K.
      destruct (Nat.eq_dec k i1) as [->|K1]; [exact B3|]. eapply first_pivot_none; [exact L3'|exact P3|exact K|apply excl_1; auto].
  - destruct (devide r1 d1 None) as [a1 e1].
    assert (Q1 : (d1 == 0)%Q).
    { apply Z1. replace 0 with (dotR r1 t); [exact F1|]. apply dotR_zero. intros k K. eapply first_pivot_none; [exact L1|exact P1|exact K|reflexivity]. }
    apply Qeq_bool_iff in Q1. rewrite Q1. cbn [negb]. cbn [andb] in U. rewrite (one_line_pivot r2 d2 []).
    destruct (first_pivot 0 r2 []) as [[i2 x2]|] eqn:P2; cbn [option_map fst snd].
    + apply andb_prop in U as [V1 V2]. destruct (devide r2 d2 (Some x2)) as [a2 e2] eqn:D2'.
      destruct (devide_R r2 d2 x2 t a2 e2 L2 V1 D2' F2) as [La2 H2].
      destruct (eliminate a2 e2 i2 r3 d3) as [r3'' d3''] eqn:E3'.
      assert (H3 : eqmR (dotR r3'' t) (Q2R d3'')) by (eapply elim_R; [exact La2|exact L3|exact E3'|exact V2|exact H2|exact F3]).
      assert (L3'' : len3 r3'' /\ d3'' = frac_mod_1 (d3 - nth i2 r3 0%Q * e2)) by (generalize (eliminate_ok a2 e2 i2 r3 d3 La2 L3); rewrite E3'; tauto).
      destruct L3'' as [L3'' DD]. cbn [negb]. rewrite (one_line_pivot r3'' d3'' ([] ++ [i2])).
      destruct (first_pivot 0 r3'' ([] ++ [i2])) as [[i3 x3]|] eqn:P3; cbn [option_map fst snd]; [reflexivity|].
      apply Qeq_bool_iff. rewrite DD. apply eqmR_zero. rewrite <- DD.
      replace 0 with (dotR r3'' t); [exact H3|]. apply dotR_zero. intros k K.
      assert (PP : (i2 < 3)%nat /\ x2 = nth i2 r2 0%Q /\ ~ (x2 == 0)%Q) by (apply first_pivot_some in P2; tauto). destruct PP as [I2 [X2E X2N]].
      assert (A2 : forall j, (j < 3)%nat -> (nth j a2 0 == nth j r2 0 / x2)%Q) by (generalize (devide_some r2 d2 x2 L2 X2N); rewrite D2'; tauto).
      assert (R3 : forall j, (j < 3)%nat -> (nth j r3'' 0 == nth j r3 0 - nth i2 r3 0 * nth j a2 0)%Q) by (generalize (eliminate_ok a2 e2 i2 r3 d3 La2 L3); rewrite E3'; tauto).
      destruct (Nat.eq_dec k i2) as [->|K2]; [rewrite (R3 i2 I2), (A2 i2 I2), <- X2E; field; exact X2N|].
      eapply first_pivot_none; [exact L3''|exact P3|exact K|apply excl_1; auto].
    + destruct (devide r2 d2 None) as [a2 e2].
      assert (Q2 : (d2 == 0)%Q).
      { apply Z2. replace 0 with (dotR r2 t); [exact F2|]. apply dotR_zero. intros k K. eapply first_pivot_none; [exact L2|exact P2|exact K|reflexivity]. }
      apply Qeq_bool_iff in Q2. rewrite Q2. cbn [negb]. rewrite (one_line_pivot r3 d3 []).
      destruct (first_pivot 0 r3 []) as [[i3 x3]|] eqn:P3; cbn [option_map fst snd]; [reflexivity|].
      apply Qeq_bool_iff. apply Z3. replace 0 with (dotR r3 t); [exact F3|]. apply dotR_zero. intros k K. eapply first_pivot_none; [exact L3|exact P3|exact K|reflexivity].
Qed.
