(** The constraint of one susceptibility item, end to end, and the two counterexamples: C91, C92. *)
From Coq Require Import Reals ZArith List Bool Arith Lra Lia String.
From Verif Require Import Spec.Lin3 Spec.Cell Spec.Symm Spec.SiteSpec Model.MatrixOps Model.UnitCell Model.Vibration Model.Constraints Model.LocalSusc Model.SiteSymm
  Proofs.MatrixOpsP Proofs.UnitCellP Proofs.SymmBaseP Proofs.SymmGroupP Proofs.ConstraintsP Proofs.SiteSymmP Proofs.ConstrMatrixP Proofs.SiteTensorP.
From Verif Require Spec.LinN Proofs.LinNP.
Import ListNotations.
Open Scope list_scope.
Open Scope R_scope.

Lemma site_group : forall symop v l f, symmetry_group symop -> l = filter f symop ->
  (forall e, In e l <-> In e symop /\ fixes e v) -> symmetry_group l.
Proof.
  intros symop v l f (Hd & (e0 & He0 & I0) & Hc & Hi & Hn) LF S.
  split; [|split; [|split; [|split]]].
  - intros e He. apply S in He. apply Hd, He.
  - exists e0. split; [apply S; split; [exact He0|apply I0]|exact I0].
  - intros e g He Hg. apply S in He. apply S in Hg. destruct He as [He Fe], Hg as [Hg Fg].
    destruct (Hc e g He Hg) as (h & Hh & C). exists h. split; [|exact C]. apply S. split; [exact Hh|].
    unfold fixes in *. eapply sp_trans; [apply C|]. eapply sp_trans; [apply act_sp, Fg|exact Fe].
  - intros e He. apply S in He. destruct He as [He Fe]. destruct (Hi e He) as (g & Hg & C). exists g. split; [|exact C].
    apply S. split; [exact Hg|]. unfold fixes in *. eapply sp_trans; [apply act_sp, sp_sym, Fe|apply C].
  - subst l. apply SymmGroupP.fop_filter. exact Hn.
Qed.
(** the elements found at a site whose images are clearly apart *)
Lemma site_list : forall symop v, symmetry_group symop ->
  (forall e, In e symop -> fixes e v \/ clearly_apart (act e (vget v)) (vget v)) ->
  exists l, calc_el_symm_for_xyz symop v = Some l /\ point_group (rotations l) /\ forall e, In e l <-> In e symop /\ fixes e v.
Proof.
  intros symop v G D.
  assert (F : exists e, In e symop /\ same_point (act e (vget v)) (vget v)).
  { destruct G as (_ & (e0 & He0 & I0) & _). exists e0. split; [exact He0|apply I0]. }
  destruct (site_exact symop v F D) as (l & E & S). exists l. split; [exact E|]. split; [|exact S].
  destruct (site_sublist symop v l E) as [f LF].
  apply (site_point_group l (vget v)); [exact (site_group symop v l f G LF S)|]. intros e He. apply S in He. apply He.
Qed.
Lemma item_not_cani : forall symop uc v it it', is_cani it = false -> apply_space_group_constraint symop uc v it = Some it' -> it' = it.
Proof.
  intros symop uc v it it' H. unfold apply_space_group_constraint. destruct (site_sc_chi symop uc v); [|discriminate].
  rewrite H. intro E. injection E as <-. reflexivity.
Qed.
Lemma item_allowed : forall symop uc v it, symmetry_group symop -> nondegenerate uc -> (forall e, In e symop -> metric_invariant uc e) ->
  (forall e, In e symop -> fixes e v \/ clearly_apart (act e (vget v)) (vget v)) ->
  exists it', apply_space_group_constraint symop uc v it = Some it' /\ su_type it' = su_type it /\
    (site_tensor (mget (calc_m_m uc)) (fun e => In e symop /\ fixes e v) (qget (su_chi it)) ->
     forall i j, Rabs (qget (su_chi it') i j - qget (su_chi it) i j) <= 1 / 2 / 10 ^ 10 * abs_sum (su_chi it)).
Proof.
  intros symop uc v it G N MI D. destruct (site_list symop v G D) as (l & E & PG & S).
  unfold apply_space_group_constraint, site_sc_chi. rewrite E. cbn [option_map]. eexists. split; [reflexivity|].
  assert (MIl : forall e, In e l -> metric_invariant uc e) by (intros e He; apply S in He; apply MI, He).
  destruct (is_cani it) eqn:K; cbn [su_type su_chi]; (split; [reflexivity|]).
  2:{ intros _ i j. rewrite Rminus_diag_eq, Rabs_R0 by reflexivity. unfold abs_sum.
      pose proof (Rabs_pos (q_11 (su_chi it))). pose proof (Rabs_pos (q_22 (su_chi it))). pose proof (Rabs_pos (q_33 (su_chi it))).
      pose proof (Rabs_pos (q_12 (su_chi it))). pose proof (Rabs_pos (q_13 (su_chi it))). pose proof (Rabs_pos (q_23 (su_chi it))).
      apply Rmult_le_pos; [|lra]. left. apply Rdiv_lt_0_compat; [lra|apply pow_lt; lra]. }
  intros T.
  assert (A : allowed 6 (sc_mat (calc_sc_chi (signed l) uc)) (q_nth 0 (su_chi it))).
  { apply allowed_iff; [exact N|exact PG|exact MIl|]. intros e A He. apply T. apply S. exact He. }
  pose proof (kernel_kept_rounded 6 _ _ ltac:(lia) A) as B. fold (signed l). unfold signed in *.
  set (c := calc_constr_matrix 6 (sc_mat (calc_sc_chi (map (fun e => (e, 1%Z)) l) uc))) in *. clearbody c.
  assert (AS : LinN.sumn 6 (fun k => Rabs (q_nth 0 (su_chi it) k)) = abs_sum (su_chi it)) by (unfold abs_sum; cbn; ring).
  rewrite AS in B.
  intros i j. destruct i, j; cbn [qget q_of q_11 q_22 q_33 q_12 q_13 q_23];
    [apply (B 0%nat)|apply (B 3%nat)|apply (B 4%nat)|apply (B 3%nat)|apply (B 1%nat)|apply (B 5%nat)|apply (B 4%nat)|apply (B 5%nat)|apply (B 2%nat)]; lia.
Qed.

(** * the structure of the constraints at a site (no tolerance, no rounding) *)
Lemma site_free : forall uc l, nondegenerate uc -> point_group (rotations l) -> (forall e, In e l -> metric_invariant uc e) ->
  let c := constr_matrix_unrounded 0 6 (sc_mat (calc_sc_chi (signed l) uc)) in
  let free := fun i => (i < 6)%nat /\ constr_con 6 c i = false in
  let is_site := fun q : Q6 R => site_tensor (mget (calc_m_m uc)) (fun e => In e l) (qget q) in
  (forall v : Q6 R, exists q, is_site q /\ forall i, free i -> q_nth 0 q i = q_nth 0 v i) /\
  (forall q r, is_site q -> is_site r -> (forall i, free i -> q_nth 0 q i = q_nth 0 r i) -> q = r) /\
  (forall v : Q6 R, is_site (times 6 (fun q => q_of (constr_values 6 c (q_nth 0 q))) v)) /\
  (forall v i, free i -> q_nth 0 (q_of (constr_values 6 c (q_nth 0 v))) i = q_nth 0 v i) /\
  (forall s i, free i -> 0 <= q_nth 0 s i -> constr_sigma 6 c (q_nth 0 s) i = q_nth 0 s i) /\
  (forall ref i, (i < 6)%nat -> constr_ref 6 c ref i = if constr_con 6 c i then false else ref i).
Proof.
  intros uc l N PG MI c free is_site.
  pose proof (site_contraction uc l N PG MI) as SC. pose proof (iso_allowed uc l N PG MI) as EX.
  set (m := sc_mat (calc_sc_chi (signed l) uc)) in *.
  assert (H6 : (0 < 6)%nat) by lia.
  assert (Ext : forall q r : Q6 R, (forall i, (i < 6)%nat -> q_nth 0 q i = q_nth 0 r i) -> q = r).
  { intros [a1 a2 a3 a4 a5 a6] [b1 b2 b3 b4 b5 b6] H.
    pose proof (H 0%nat ltac:(lia)). pose proof (H 1%nat ltac:(lia)). pose proof (H 2%nat ltac:(lia)). pose proof (H 3%nat ltac:(lia)).
    pose proof (H 4%nat ltac:(lia)). pose proof (H 5%nat ltac:(lia)). cbn in *. congruence. }
  assert (AL : forall q, is_site q <-> allowed 6 m (q_nth 0 q)).
  { intro q. symmetry. apply (allowed_iff uc l N PG MI q). }
  assert (ALv : forall x : LinN.vec, allowed 6 m x -> is_site (q_of x)).
  { intros x A. apply AL. intros i Hi. rewrite nth_of by exact Hi. rewrite <- (A i Hi). unfold LinN.mulmv. apply LinNP.sumn_ext. intros k Hk.
    rewrite nth_of by exact Hk. reflexivity. }
  split; [|split; [|split; [|split; [|split]]]].
  - intro v. destruct (exists_allowed 6 m wt H6 SC EX (q_nth 0 v)) as (x & A & F). exists (q_of x). split; [apply ALv, A|].
    intros i [Hi Fi]. rewrite nth_of by exact Hi. apply F; assumption.
  - intros q r Q R0 F. apply AL in Q, R0. apply Ext. apply (unique 6 m wt H6 SC EX _ _ Q R0). intros i Hi Fi. apply F. split; assumption.
  - intro v.
    assert (G : forall k i, (i < 6)%nat -> q_nth 0 (times k (fun q => q_of (constr_values 6 c (q_nth 0 q))) v) i = times k (constr_values 6 c) (q_nth 0 v) i).
    { induction k as [|k IH]; intros i Hi; [reflexivity|]. cbn [times]. rewrite nth_of by exact Hi.
      unfold constr_values at 1 3. unfold LinN.mulmv. apply LinNP.sumn_ext. intros j Hj. rewrite IH by exact Hj. reflexivity. }
    apply AL. intros i Hi. rewrite (G 6%nat i Hi).
    pose proof (repeated 6 m wt H6 SC EX (q_nth 0 v) i Hi) as RP. change (constr_matrix_unrounded 0 6 m) with c in RP.
    transitivity (LinN.mulmv 6 m (times 6 (constr_values 6 c) (q_nth 0 v)) i); [|exact RP]. unfold LinN.mulmv. apply LinNP.sumn_ext. intros j Hj. rewrite (G 6%nat j Hj). reflexivity.
  - intros v i [Hi Fi]. rewrite nth_of by exact Hi. apply (value_free 6 m wt H6 SC EX); assumption.
  - intros s i [Hi Fi] P. apply (sigma_free 6 m wt H6 SC EX); assumption.
  - intros ref i Hi. apply (ref_free 6 m wt H6 SC EX). exact Hi.
Qed.
