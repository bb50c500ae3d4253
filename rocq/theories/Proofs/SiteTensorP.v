(** The constraint matrix of a susceptibility at a site: C92. *)
From Coq Require Import Reals ZArith List Bool Arith Lra Lia String.
From Verif Require Import Spec.Lin3 Spec.Cell Spec.Symm Spec.SiteSpec Model.MatrixOps Model.UnitCell Model.Constraints Model.LocalSusc Model.SiteSymm
  Proofs.MatrixOpsP Proofs.UnitCellP Proofs.SymmGroupP Proofs.ConstraintsP Proofs.SiteSymmP Proofs.ConstrMatrixP.
From Verif Require Spec.LinN Proofs.LinNP.
Import ListNotations.
Open Scope list_scope.
Open Scope R_scope.

(** * scalar product of tensors *)
Definition frob (a b : ix -> ix -> R) : R := sum3 (fun i => sum3 (fun j => a i j * b i j)).
Definition wt (i : nat) : R := if Nat.ltb i 3 then 1 else 2.
Lemma frob_q : forall q r : Q6 R, frob (qget q) (qget r) = LinN.sumn 6 (fun i => wt i * q_nth 0 q i * q_nth 0 r i).
Proof. intros [q1 q2 q3 q4 q5 q6] [r1 r2 r3 r4 r5 r6]. unfold frob, sum3, wt. cbn. ring. Qed.
Lemma frob_comm : forall a b, frob a b = frob b a.
Proof. intros. unfold frob, sum3. ring. Qed.
Definition signed (l : list Op) : list (Op * Z) := map (fun e => (e, 1%Z)) l.
Lemma frob_conj : forall A x y : ix -> ix -> R, mul (tr A) A = delta ->
  frob (mul (mul A x) (tr A)) (mul (mul A y) (tr A)) = frob x y.
Proof.
  intros A x y O.
  assert (T : forall a b, frob a b = sum3 (fun i => mul (tr a) b i i)) by (intros; unfold frob, mul, tr, sum3; ring).
  assert (Tm : forall a b, tr (mul a b) = mul (tr b) (tr a)) by (intros; apply mat_ext; intros; unfold tr, mul, sum3; ring).
  assert (Tt : forall a, tr (tr a) = a) by (intros; apply mat_ext; intros; reflexivity).
  assert (C : forall a b, sum3 (fun i => mul a b i i) = sum3 (fun i => mul b a i i)) by (intros; unfold mul, sum3; ring).
  rewrite !T, !Tm, Tt. rewrite <- !mul_assoc. rewrite (C A). rewrite <- !mul_assoc. rewrite O, mul_one_r.
  rewrite (mul_assoc (tr A) A), O, mul_one_l. reflexivity.
Qed.
Section Site.
  Variables (uc : U6 R) (l : list Op).
  Hypothesis N : nondegenerate uc.
  Hypothesis PG : point_group (rotations l).
  Hypothesis MI : forall e, In e l -> metric_invariant uc e.
  Let P (q : Q6 R) : Q6 R := apply6 (calc_sc_chi (signed l) uc) q.
  Lemma signed_rot : signed_rotations (signed l) = rotations l.
  Proof. unfold signed_rotations, signed, rotations. rewrite map_map. reflexivity. Qed.
  Lemma PG' : point_group (signed_rotations (signed l)).
  Proof. rewrite signed_rot. exact PG. Qed.
  Lemma MI' : forall e, In e (signed l) -> metric_invariant uc (fst e).
  Proof. intros e He. apply in_map_iff in He. destruct He as (f & <- & Hf). apply MI. exact Hf. Qed.
  Definition ca (e : Op) : ix -> ix -> R := mget (cart uc (e_r e, 1%Z)).
  Lemma ca_orth : forall e, In e l -> mul (tr (ca e)) (ca e) = delta.
  Proof.
    intros e He. apply (cart_orth uc (signed l) N MI' (e, 1%Z)). unfold signed. apply in_map_iff. exists e. auto.
  Qed.
  Lemma ca_orth2 : forall e, In e l -> mul (ca e) (tr (ca e)) = delta.
  Proof.
    intros e He. apply mat_ext. intros p r. apply left_inverse_right. intros p' r'. exact (f_equal (fun f => f p' r') (ca_orth e He)).
  Qed.
  Lemma ca_frame : forall e, in_frame (mget (calc_m_m uc)) e (ca e).
  Proof. intros e i j. exact (f_equal (fun f => f i j) (cart_spec uc N (e_r e, 1%Z))). Qed.
  Lemma P_fixed : forall q e, In e l -> mul (mul (ca e) (qget (P q))) (tr (ca e)) = qget (P q).
  Proof.
    intros q e He.
    assert (E : mul (ca e) (qget (P q)) = mul (qget (P q)) (ca e)).
    { apply mat_ext. intros i j.
      pose proof (chi_invariant uc (signed l) N PG' MI' q (e, 1%Z) (ca e)) as H. cbn [fst snd] in H. unfold mul. unfold P.
      rewrite (H ltac:(unfold signed; apply in_map_iff; exists e; auto) (ca_frame e) i j). apply Rmult_1_l. }
    rewrite E, <- mul_assoc, ca_orth2, mul_one_r by exact He. reflexivity.
  Qed.
  Lemma B_conj : forall q e, In e l -> mget (calc_m_q_inv_m (cart uc (e_r e, 1%Z)) q) = mul (mul (ca e) (qget q)) (tr (ca e)).
  Proof.
    intros q e He. assert (Ha : In (e_r e, 1%Z) (signed_rotations (signed l))) by (rewrite signed_rot; unfold rotations; apply in_map_iff; exists e; auto).
    pose proof (Bq_ok uc (signed l) N PG' q _ Ha) as K. fold (ca e) in K. rewrite <- K, <- mul_assoc, ca_orth2, mul_one_r by exact He. reflexivity.
  Qed.
  Lemma P_avg : forall q i j, qget (P q) i j = nsum (fun e => mul (mul (ca e) (qget q)) (tr (ca e)) i j) l / size l.
  Proof.
    intros q i j. unfold P. rewrite (chi_is_avg uc (signed l) N PG' MI' q i j). unfold avg. rewrite signed_rot. unfold rotations.
    rewrite nsum_map. unfold signed. rewrite size_map. f_equal. apply nsum_ext. intros e He. cbn [snd]. rewrite B_conj by exact He. apply Rmult_1_l.
  Qed.
  Lemma size_l : 0 < size l.
  Proof. destruct PG as (_ & O & _). unfold rotations in O. apply in_map_iff in O. destruct O as (e & _ & He). exact (size_pos e l He). Qed.
  Lemma frob_avg : forall (f : Op -> ix -> ix -> R) (b : ix -> ix -> R),
    frob (fun i j => nsum (fun e => f e i j) l / size l) b = nsum (fun e => frob (f e) b) l / size l.
  Proof.
    intros f b. rewrite (nsum_ext _ (fun e => sum3 (fun k => sum3 (fun m => b k m * f e k m)))) by (intros; unfold frob, sum3; ring).
    rewrite <- nsum_lin9. unfold frob. apply sum3_ext. intro k. apply sum3_ext. intro p. apply Rmult_comm.
  Qed.
  Lemma frob_ext : forall a a' b b', (forall i j, a i j = a' i j) -> (forall i j, b i j = b' i j) -> frob a b = frob a' b'.
  Proof. intros a a' b b' H K. unfold frob, sum3. rewrite !H, !K. reflexivity. Qed.
  Lemma adjoint : forall q r, frob (qget (P q)) (qget (P r)) = frob (qget q) (qget (P r)).
  Proof.
    intros q r.
    transitivity (frob (fun i j => nsum (fun e => mul (mul (ca e) (qget q)) (tr (ca e)) i j) l / size l) (qget (P r))).
    { apply frob_ext; [apply P_avg|reflexivity]. }
    rewrite (frob_avg (fun e => mul (mul (ca e) (qget q)) (tr (ca e)))).
    rewrite (nsum_ext _ (fun _ => frob (qget q) (qget (P r)))).
    - rewrite nsum_const. field. pose proof size_l. lra.
    - intros e He. rewrite <- (P_fixed r e He) at 1. apply frob_conj. apply ca_orth. exact He.
  Qed.
  Lemma self_adjoint : forall q r, frob (qget q) (qget (P r)) = frob (qget r) (qget (P q)).
  Proof. intros q r. rewrite <- (adjoint q r), <- (adjoint r q). apply frob_comm. Qed.
  Lemma contraction : forall q, frob (qget q) (qget (P q)) <= frob (qget q) (qget q).
  Proof.
    intro q. pose proof (adjoint q q) as E. revert E. generalize (qget (P q)). generalize (qget q). clear. intros x y E.
    assert (S : 0 <= frob (fun i j => x i j - y i j) (fun i j => x i j - y i j)).
    { unfold frob, sum3. repeat apply Rplus_le_le_0_compat; apply Rle_0_sqr. }
    assert (X : frob (fun i j => x i j - y i j) (fun i j => x i j - y i j) = frob x x - 2 * frob x y + frob y y) by (unfold frob, sum3; ring).
    lra.
  Qed.
  Lemma mat_apply : forall (x : LinN.vec) i, (i < 6)%nat -> LinN.mulmv 6 (sc_mat (calc_sc_chi (signed l) uc)) x i = q_nth 0 (P (q_of x)) i.
  Proof.
    intros x i Hi. unfold P. generalize (calc_sc_chi (signed l) uc). intro sc. clear - Hi. destruct i as [|[|[|[|[|[|i]]]]]]; try lia;
      unfold LinN.mulmv, sc_mat, apply6, q_row_dot, q_of; cbn [LinN.sumn q_nth q_11 q_22 q_33 q_12 q_13 q_23]; ring.
  Qed.
  Lemma q_of_nth : forall (q : Q6 R), q_of (q_nth 0 q) = q.
  Proof. intros [a b c d e f]. reflexivity. Qed.
  Lemma nth_of : forall (x : LinN.vec) i, (i < 6)%nat -> q_nth 0 (q_of x) i = x i.
  Proof. intros x i Hi. destruct i as [|[|[|[|[|[|i]]]]]]; try lia; reflexivity. Qed.
  Lemma site_contraction : symmetric_contraction 6 wt (sc_mat (calc_sc_chi (signed l) uc)).
  Proof.
    set (M := sc_mat (calc_sc_chi (signed l) uc)).
    assert (F : forall x y : LinN.vec, LinN.sumn 6 (fun i => wt i * x i * LinN.mulmv 6 M y i) = frob (qget (q_of x)) (qget (P (q_of y)))).
    { intros x y. rewrite frob_q. apply LinNP.sumn_ext. intros i Hi. unfold M. rewrite mat_apply, nth_of by exact Hi. reflexivity. }
    split; [|split].
    - intros i _. unfold wt. destruct (Nat.ltb i 3); lra.
    - intros i j Hi Hj.
      assert (G : forall i j, (i < 6)%nat -> (j < 6)%nat ->
        LinN.sumn 6 (fun k => wt k * LinN.delta k i * LinN.mulmv 6 M (fun p => LinN.delta p j) k) = wt i * M i j).
      { intros a b Ha Hb. rewrite (LinNP.sumn_ext 6 _ (fun k => (wt k * M k b) * LinN.delta k a)).
        - apply (LinNP.sumn_delta 6 a (fun k => wt k * M k b)). exact Ha.
        - intros k Hk. unfold LinN.mulmv. rewrite (LinNP.sumn_delta 6 b (fun p => M k p)) by exact Hb. ring. }
      rewrite <- (G i j Hi Hj), <- (G j i Hj Hi), !F. apply self_adjoint.
    - intro x. rewrite F. rewrite (LinNP.sumn_ext 6 (fun i => wt i * x i * x i) (fun i => wt i * q_nth 0 (q_of x) i * q_nth 0 (q_of x) i)).
      + rewrite <- frob_q. apply contraction.
      + intros i Hi. rewrite nth_of by exact Hi. reflexivity.
  Qed.
  Lemma allowed_iff : forall q : Q6 R, allowed 6 (sc_mat (calc_sc_chi (signed l) uc)) (q_nth 0 q) <-> site_tensor (mget (calc_m_m uc)) (fun e => In e l) (qget q).
  Proof.
    intro q.
    assert (E : allowed 6 (sc_mat (calc_sc_chi (signed l) uc)) (q_nth 0 q) <-> P q = q).
    { split.
      - intro A. assert (H : forall i, (i < 6)%nat -> q_nth 0 (P q) i = q_nth 0 q i).
        { intros i Hi. rewrite <- (A i Hi), mat_apply, q_of_nth by exact Hi. reflexivity. }
        destruct (P q) as [a1 a2 a3 a4 a5 a6], q as [b1 b2 b3 b4 b5 b6].
        pose proof (H 0%nat ltac:(lia)). pose proof (H 1%nat ltac:(lia)). pose proof (H 2%nat ltac:(lia)). pose proof (H 3%nat ltac:(lia)).
        pose proof (H 4%nat ltac:(lia)). pose proof (H 5%nat ltac:(lia)). cbn in *. congruence.
      - intros A i Hi. rewrite mat_apply, q_of_nth, A by exact Hi. reflexivity. }
    rewrite E. split.
    - intros A e B He HB i j. rewrite <- A.
      pose proof (chi_invariant uc (signed l) N PG' MI' q (e, 1%Z) B) as H. cbn [fst snd] in H. unfold P.
      rewrite (H ltac:(unfold signed; apply in_map_iff; exists e; auto) HB i j). apply Rmult_1_l.
    - intro S. unfold P. apply (chi_kept uc (signed l) N PG' MI'). intros e B He HB i j.
      apply in_map_iff in He. destruct He as (f & <- & Hf). cbn [fst snd] in *. rewrite (S f B Hf HB i j). symmetry; apply Rmult_1_l.
  Qed.
  Lemma iso_allowed : exists q : LinN.vec, allowed 6 (sc_mat (calc_sc_chi (signed l) uc)) q /\ q 0%nat <> 0.
  Proof.
    exists (q_nth 0 (mkQ 1 1 1 0 0 0)). split; [|cbn; lra]. apply allowed_iff. intros e A He HA i j.
    assert (D : qget (mkQ 1 1 1 0 0 0) = delta) by (apply mat_ext; intros p r; destruct p, r; reflexivity).
    rewrite D. unfold sum3, delta. destruct i, j; cbn; ring.
  Qed.
End Site.
