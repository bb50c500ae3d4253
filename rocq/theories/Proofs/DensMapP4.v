(** transfer_to_density_3d and transfer_to_chi_3d (C102). *)
From Coq Require Import Reals ZArith List Lra Lia Bool Sorted Permutation.
From Verif Require Import Spec.Lin3 Spec.Symm Spec.DensityMap Model.MatrixOps Model.Symmetry Model.Matrices Model.DensityMaps
  Proofs.SymmBaseP Proofs.SymmGridP Proofs.SymmGroupP Proofs.ConstraintsP Proofs.Matrices2P Proofs.DensMapP Proofs.DensMapP2 Proofs.DensMapP3.
Import ListNotations.
Open Scope list_scope.
Open Scope Z_scope.

Lemma around_exact : forall k d, 0 < d -> around (k * d) d = k.
Proof. intros k d H. unfold around. rewrite Z.div_mul, Z.mod_mul by lia. cbv zeta. replace (2 * 0 <? d) with true; [reflexivity|]. symmetry. apply Z.ltb_lt. lia. Qed.
Lemma np_ind_apply : forall n e p, grid_pos n -> grid_compatible n e -> np_ind n e p = apply_symm_elem_to_index e p n.
Proof.
  intros n e p Hn (Hd & Hdiv & _). unfold np_ind, apply_symm_elem_to_index.
  destruct (Hdiv X1) as [q1 Q1], (Hdiv X2) as [q2 Q2], (Hdiv X3) as [q3 Q3].
  destruct e as [[b1 b2 b3] d [r11 r12 r13 r21 r22 r23 r31 r32 r33]], p as [p1 p2 p3], n as [n1 n2 n3].
  unfold z_m_v. cbn [e_b e_d e_r vget v_1 v_2 v_3] in *.
  replace (n1 / d) with q1 by (rewrite Q1, Z.div_mul; lia). replace (n2 / d) with q2 by (rewrite Q2, Z.div_mul; lia). replace (n3 / d) with q3 by (rewrite Q3, Z.div_mul; lia).
  f_equal; [replace ((r11 * p1 + r12 * p2 + r13 * p3) * d + n1 * b1) with ((r11 * p1 + r12 * p2 + r13 * p3 + b1 * q1) * d) by (rewrite Q1; ring)
           |replace ((r21 * p1 + r22 * p2 + r23 * p3) * d + n2 * b2) with ((r21 * p1 + r22 * p2 + r23 * p3 + b2 * q2) * d) by (rewrite Q2; ring)
           |replace ((r31 * p1 + r32 * p2 + r33 * p3) * d + n3 * b3) with ((r31 * p1 + r32 * p2 + r33 * p3 + b3 * q3) * d) by (rewrite Q3; ring)];
    rewrite around_exact by assumption; reflexivity.
Qed.

Section Fill.
  Context {A B : Type}.
  Variables (n : V3 Z) (value : Op -> A -> B).
  Lemma fill_row_spec : forall e rows (m : V3 Z -> B) q, let m' := fold_left (fun m row => assign m (np_ind n e (fst row)) (value e (snd row))) rows m in
    (exists p a, In (p, a) rows /\ np_ind n e p = q /\ m' q = value e a) \/ ((forall p a, In (p, a) rows -> np_ind n e p <> q) /\ m' q = m q).
  Proof.
    intros e rows. induction rows as [|[p a] rows IH]; intros m q.
    - right. split; [intros ? ? []|reflexivity].
    - cbn [fold_left fst snd]. destruct (IH (assign m (np_ind n e p) (value e a)) q) as [(p' & a' & I & E & V)|(N & V)].
      + left. exists p', a'. split; [right; exact I|]. auto.
      + cbv zeta in V. rewrite V. unfold assign at 1. destruct (v3_eqb (np_ind n e p) q) eqn:E.
        * apply v3_eqb_spec in E. left. exists p, a. split; [left; reflexivity|]. split; [exact E|].
          unfold assign. replace (v3_eqb (np_ind n e p) q) with true by (symmetry; apply v3_eqb_spec; exact E). reflexivity.
        * right. split; [|unfold assign; rewrite E; reflexivity]. intros p' a' [I|I]; [inversion I; subst; apply v3_eqb_neq, E|eapply N, I].
  Qed.
  Lemma fill_spec : forall elems rows (m : V3 Z -> B) q,
    (exists e p a, In e elems /\ In (p, a) rows /\ np_ind n e p = q /\ fill n value elems rows m q = value e a) \/
    ((forall e p a, In e elems -> In (p, a) rows -> np_ind n e p <> q) /\ fill n value elems rows m q = m q).
  Proof.
    intros elems rows. induction elems as [|e elems IH]; intros m q.
    - right. split; [intros ? ? ? []|reflexivity].
    - unfold fill. cbn [fold_left]. set (m1 := fold_left _ rows m).
      destruct (IH m1 q) as [(e' & p & a & Ie & Ip & E & V)|(N & V)].
      + left. exists e', p, a. split; [right; exact Ie|]. auto.
      + fold (fill n value elems rows m1). rewrite V. destruct (fill_row_spec e rows m q) as [(p & a & I & E & W)|(N2 & W)].
        * left. exists e, p, a. split; [left; reflexivity|]. split; [exact I|]. split; [exact E|exact W].
        * right. split; [|exact W]. intros e' p a [<-|Ie] Ip; [eapply N2, Ip|eapply N; eauto].
  Qed.
End Fill.

Section Maps.
  Variables (n : V3 Z) (l : list Op).
  Hypothesis Hn : forall i, 0 < vget n i.
  Hypothesis Hg : symmetry_group l.
  Hypothesis Hc : forall e, In e l -> grid_compatible n e.
  Lemma ind_iff : forall e p q, In e l -> in_grid n q -> (np_ind n e p = q <-> same_point (act e (grid_fract n p)) (grid_fract n q)).
  Proof. intros e p q I G. rewrite np_ind_apply by auto. apply apply_iff; auto. Qed.
  Lemma density_rows : forall rows q, in_grid n q ->
    ForallOrdPairs (fun a b => ~ grid_equivalent n l (fst a) (fst b)) rows ->
    (forall p d, In (p, d) rows -> grid_equivalent n l p q -> transfer_to_density_3d rows n l q = d) /\
    ((forall p d, In (p, d) rows -> ~ grid_equivalent n l p q) -> transfer_to_density_3d rows n l q = 0%R).
  Proof.
    intros rows q G F. unfold transfer_to_density_3d. split.
    - intros p d I E. destruct (fill_spec n (fun _ d => d) l rows (fun _ => 0%R) q) as [(e' & p' & d' & Ie & Ip & Q & V)|(N & V)]; rewrite V.
      + assert (E' : grid_equivalent n l p' q) by (exists e'; split; [exact Ie|apply ind_iff; assumption]).
        assert (X : grid_equivalent n l p p') by (eapply (ge_trans n l Hg); [exact E|apply (ge_sym n l Hg), E']).
        destruct (ForallOrdPairs_In F _ _ I Ip) as [Y|[Y|Y]]; [congruence| |]; cbn [fst] in Y; exfalso; apply Y; [exact X|apply (ge_sym n l Hg), X].
      + exfalso. destruct E as (e & Ie & E). apply (N e p d Ie I). apply ind_iff; assumption.
    - intros H. destruct (fill_spec n (fun _ d => d) l rows (fun _ => 0%R) q) as [(e' & p' & d' & Ie & Ip & Q & V)|(N & V)]; rewrite V; [|reflexivity].
      exfalso. apply (H p' d' Ip). exists e'. split; [exact Ie|apply ind_iff; assumption].
  Qed.
  Lemma density_invariant : forall rows p q, in_grid n p -> in_grid n q -> grid_equivalent n l p q ->
    ForallOrdPairs (fun a b => ~ grid_equivalent n l (fst a) (fst b)) rows -> transfer_to_density_3d rows n l p = transfer_to_density_3d rows n l q.
  Proof.
    intros rows p q Gp Gq E F. destruct (density_rows rows p Gp F) as [A1 B1]. destruct (density_rows rows q Gq F) as [A2 B2].
    unfold transfer_to_density_3d in *. destruct (fill_spec n (fun _ d => d) l rows (fun _ => 0%R) p) as [(e & r & d & Ie & Ir & Q & _)|(N & V)].
    - assert (E1 : grid_equivalent n l r p) by (exists e; split; [exact Ie|apply ind_iff; assumption]).
      rewrite (A1 r d Ir E1). symmetry. apply (A2 r d Ir). eapply (ge_trans n l Hg); eassumption.
    - rewrite V. symmetry. apply B2. intros r d Ir K. apply (ge_sym n l Hg) in E. pose proof (ge_trans n l Hg _ _ _ K E) as (e & Ie & S).
      apply (N e r d Ie Ir). apply ind_iff; assumption.
  Qed.
  (** ** tensors *)
  Lemma rotated_get : forall e q i j, qget (rotated_chi e q) i j = Symm.conj (rot_real e) (qget q) i j.
  Proof.
    intros e q i j.
    assert (A : mget (calc_mRmCmRT (op_matrix e) (chi_matrix q)) i j = Symm.conj (rot_real e) (qget q) i j).
    { rewrite rcrt_value. unfold Symm.conj, rot_real. destruct e as [b d [r11 r12 r13 r21 r22 r23 r31 r32 r33]], q. destruct i, j; reflexivity. }
    rewrite <- A. unfold rotated_chi.
    assert (Sy : forall i j, mget (calc_mRmCmRT (op_matrix e) (chi_matrix q)) i j = mget (calc_mRmCmRT (op_matrix e) (chi_matrix q)) j i).
    { intros i' j'. rewrite !rcrt_value. destruct e as [b d [r11 r12 r13 r21 r22 r23 r31 r32 r33]], q. unfold sum3. destruct i', j'; cbn; ring. }
    destruct i, j; try reflexivity; cbn [qget q_11 q_22 q_33 q_12 q_13 q_23]; [exact (Sy X1 X2)|exact (Sy X1 X3)|exact (Sy X2 X3)].
  Qed.
  Lemma conj_ext : forall r b c i j, (forall i j, b i j = c i j) -> Symm.conj r b i j = Symm.conj r c i j.
  Proof. intros r b c i j H. unfold Symm.conj, sum3. rewrite !H. reflexivity. Qed.
  Lemma conj_mul : forall a b c q i j, (forall i j, rot_real c i j = sum3 (fun k => rot_real a i k * rot_real b k j))%R ->
    Symm.conj (rot_real c) q i j = Symm.conj (rot_real a) (Symm.conj (rot_real b) q) i j.
  Proof. intros a b c q i j H. unfold Symm.conj, sum3. rewrite !H. unfold sum3. ring. Qed.
  Lemma chi_rows : forall rows p chi q e, in_grid n q ->
    ForallOrdPairs (fun a b => ~ grid_equivalent n l (fst a) (fst b)) rows -> In (p, chi) rows ->
    (forall f, In f l -> same_point (act f (grid_fract n p)) (grid_fract n p) -> forall i j, Symm.conj (rot_real f) (qget chi) i j = qget chi i j) ->
    In e l -> same_point (act e (grid_fract n p)) (grid_fract n q) ->
    forall i j, qget (transfer_to_chi_3d rows n l q) i j = Symm.conj (rot_real e) (qget chi) i j.
  Proof.
    intros rows p chi q e G F I Adm Ie Se i j. unfold transfer_to_chi_3d.
    destruct (fill_spec n rotated_chi l rows (fun _ => mkQ 0 0 0 0 0 0)%R q) as [(e' & p' & chi' & Ie' & Ip & Q & V)|(N & V)]; rewrite V.
    2:{ exfalso. apply (N e p chi Ie I). apply ind_iff; assumption. }
    apply ind_iff in Q; try assumption.
    assert (E : grid_equivalent n l p q) by (exists e; auto). assert (E' : grid_equivalent n l p' q) by (exists e'; auto).
    assert (X : grid_equivalent n l p p') by (eapply (ge_trans n l Hg); [exact E|apply (ge_sym n l Hg), E']).
    assert (Y : (p', chi') = (p, chi)).
    { destruct (ForallOrdPairs_In F _ _ I Ip) as [Y|[Y|Y]]; [congruence| |]; cbn [fst] in Y; exfalso; apply Y; [exact X|apply (ge_sym n l Hg), X]. }
    inversion Y; subst p' chi'. clear Y X E E'. rewrite rotated_get.
    destruct Hg as (Hd & _ & Hm & Hi & _).
    destruct (Hi e Ie) as (ei & Iei & Ei). destruct (Hm ei e' Iei Ie') as (f & If & Cf).
    assert (Sf : same_point (act f (grid_fract n p)) (grid_fract n p)).
    { eapply sp_trans; [apply Cf|]. eapply sp_trans; [apply act_sp, Q|]. eapply sp_trans; [apply act_sp, sp_sym, Se|]. apply Ei. }
    (* e o f is e' *)
    assert (R : forall i j, rot_real e' i j = sum3 (fun k => rot_real e i k * rot_real f k j)%R).
    { assert (C : is_composition e' e f).
      { intros x. assert (Ee : forall y, same_point (act e (act ei y)) y).
        { (* left inverse is right inverse *)
          intros y. destruct (Hi ei Iei) as (eii & Ieii & Eii). 
          eapply sp_trans; [apply sp_sym, Eii|]. eapply sp_trans; [apply act_sp, Ei|]. apply Eii. }
        apply sp_sym. eapply sp_trans; [apply act_sp, Cf|]. apply Ee. }
      intros i0 j0. pose proof (composition_rot e' e f (Hd _ Ie') (Hd _ Ie) (Hd _ If) C) as K. unfold rot_real. rewrite K. apply z_m1_m2_spec. }
    rewrite (conj_mul e f e' _ i j R). apply conj_ext. apply Adm; assumption.
  Qed.
End Maps.
