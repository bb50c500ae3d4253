(** Concrete sites: a three-fold axis along [111] of a cubic cell; a general position near a mirror plane. *)
From Coq Require Import Reals ZArith List Bool Arith Lra Lia String.
From Verif Require Import Spec.Lin3 Spec.Cell Spec.Symm Spec.SiteSpec Model.MatrixOps Model.UnitCell Model.Vibration Model.Constraints Model.LocalSusc Model.SiteSymm
  Proofs.MatrixOpsP Proofs.UnitCellP Proofs.SymmBaseP Proofs.ConstraintsP Proofs.SiteSymmP Proofs.ConstrMatrixP Proofs.SiteTensorP Proofs.SiteExP.
From Verif Require Spec.LinN Proofs.LinNP.
Import ListNotations.
Open Scope list_scope.
Open Scope R_scope.

Definition cubic : U6 R := mkU 1 1 1 (PI / 2) (PI / 2) (PI / 2).
Lemma cubic_nondegenerate : nondegenerate cubic.
Proof. unfold nondegenerate, cubic. cbn [u_a u_b u_c u_al u_be u_ga]. rewrite cos_PI2. pose proof PI_RGT_0. repeat split; lra. Qed.
Lemma m_m_cubic : calc_m_m cubic = mkM 1 0 0 0 1 0 0 0 1.
Proof.
  unfold calc_m_m, cubic, calc_phi, calc_phi_sq. cbn [u_a u_b u_c u_al u_be u_ga]. rewrite cos_PI2, sin_PI2. unfold Rsqr.
  replace (1 - 0 * 0 - 0 * 0 - 0 * 0 + 2 * 0 * 0 * 0) with 1 by ring. rewrite sqrt_1. f_equal; lra.
Qed.
Definition op3 : Op := mkE (mkV 0 0 0)%Z 1 (mkM 0 0 1 1 0 0 0 1 0)%Z.
Definition op9 : Op := mkE (mkV 0 0 0)%Z 1 (mkM 0 1 0 0 0 1 1 0 0)%Z.
Definition three : list Op := [op1; op3; op9].
Definition on_axis : V3 R := mkV (1 / 10) (1 / 10) (1 / 10).
Lemma cart_cubic : forall r, calc_m1_m2_inv_m1 (mkM 1 0 0 0 1 0 0 0 1) r = r.
Proof. intros [a b c d e f g h i]. unfold calc_m1_m2_inv_m1. f_equal; field. Qed.
Lemma m3_eq : forall a b c d e f g h i a' b' c' d' e' f' g' h' i' : R, a = a' -> b = b' -> c = c' -> d = d' -> e = e' -> f = f' -> g = g' -> h = h' -> i = i' ->
  mkM a b c d e f g h i = mkM a' b' c' d' e' f' g' h' i'.
Proof. intros. subst. reflexivity. Qed.
Lemma three_matrix : calc_sc_chi (signed three) cubic =
  mkQ (mkQ (1/3) (1/3) (1/3) 0 0 0) (mkQ (1/3) (1/3) (1/3) 0 0 0) (mkQ (1/3) (1/3) (1/3) 0 0 0)
      (mkQ 0 0 0 (1/3) (1/3) (1/3)) (mkQ 0 0 0 (1/3) (1/3) (1/3)) (mkQ 0 0 0 (1/3) (1/3) (1/3)).
Proof.
  unfold calc_sc_chi. rewrite m_m_cubic. cbv zeta. unfold q_mean, nsum. cbv zeta. unfold signed, three. cbn [map fold_right fst snd].
  rewrite !cart_cubic. unfold op1, op3, op9, m_real, size. cbn. f_equal; f_equal; lra.
Qed.
Lemma mirror_matrix : calc_sc_chi (signed [opm]) cubic =
  mkQ (mkQ 1 0 0 0 0 0) (mkQ 0 1 0 0 0 0) (mkQ 0 0 1 0 0 0) (mkQ 0 0 0 (-1) 0 0) (mkQ 0 0 0 0 (-1) 0) (mkQ 0 0 0 0 0 1).
Proof.
  unfold calc_sc_chi. rewrite m_m_cubic. cbv zeta. unfold q_mean, nsum. cbv zeta. unfold signed. cbn [map fold_right fst snd].
  rewrite !cart_cubic. unfold opm, m_real, size. cbn. f_equal; f_equal; lra.
Qed.
(** * the reduction, step by step *)
Definition agree (u v : LinN.mat) : Prop := forall i j, (i < 6)%nat -> (j < 6)%nat -> u i j = v i j.
Definition tab (rows : list (list R)) : LinN.mat := fun i j => nth j (nth i rows []) 0.
Lemma step_agree : forall tol i u v, (i < 6)%nat -> agree u v -> agree (reduce_step tol i u) (reduce_step tol i v).
Proof.
  intros tol i u v Hi H a b Ha Hb. unfold reduce_step. rewrite (H i i Hi Hi). destruct (Rle_dec (Rabs (v i i)) tol); [apply H; assumption|]. cbv zeta.
  rewrite (H i b Hi Hb), (H a b Ha Hb), (H a i Ha Hi). reflexivity.
Qed.
Lemma agree_trans : forall u v w, agree u v -> agree v w -> agree u w.
Proof. intros u v w H K i j Hi Hj. rewrite (H i j Hi Hj). apply K; assumption. Qed.
Lemma from_agree : forall tol k u v, (k < 6)%nat -> agree u v -> agree (reduce_from tol k u) (reduce_from tol k v).
Proof. intros tol k. induction k as [|k IH]; intros u v Hk H; cbn [reduce_from]; [exact H|]. apply IH; [lia|]. apply step_agree; [lia|exact H]. Qed.
Lemma step_zero : forall tol i u, 0 <= tol -> u i i = 0 -> reduce_step tol i u = u.
Proof. intros tol i u T Z. unfold reduce_step. rewrite Z, Rabs_R0. destruct (Rle_dec 0 tol); [reflexivity|contradiction]. Qed.
Lemma step_pivot : forall tol i u v, tol < Rabs (u i i) ->
  agree (fun a j => if Nat.eqb a i then u i j / u i i else if Nat.ltb a i then u a j - u i j / u i i * u a i else u a j) v -> agree (reduce_step tol i u) v.
Proof. intros tol i u v P H. unfold reduce_step. destruct (Rle_dec (Rabs (u i i)) tol); [lra|exact H]. Qed.
Lemma round_agree : forall (u : LinN.mat) (z : nat -> nat -> Z), (forall i j, (i < 6)%nat -> (j < 6)%nat -> u i j = IZR (z i j) / 10 ^ 10) ->
  forall i j, (i < 6)%nat -> (j < 6)%nat -> np_round 10 (u i j) = u i j.
Proof. intros u z H i j Hi Hj. rewrite (H i j Hi Hj). apply np_round_exact. Qed.
Definition tol10 : R := 1 / 10 ^ 10.
Lemma tol10_small : 0 <= tol10 < 1 / 1000.
Proof. unfold tol10. assert (E : 10 ^ 10 = 10000000000) by (simpl; lra). rewrite E. lra. Qed.
Ltac six := let i := fresh in let j := fresh in let Hi := fresh in let Hj := fresh in intros i j Hi Hj;
  destruct i as [|[|[|[|[|[|i]]]]]]; try lia; destruct j as [|[|[|[|[|[|j]]]]]]; try lia.
Definition u5 := tab [[-2/3;1/3;1/3;0;0;0];[1/3;-2/3;1/3;0;0;0];[1/3;1/3;-2/3;0;0;0];[0;0;0;-2/3;1/3;1/3];[0;0;0;1/3;-2/3;1/3];[0;0;0;1/3;1/3;-2/3]].
Definition u4 := tab [[-2/3;1/3;1/3;0;0;0];[1/3;-2/3;1/3;0;0;0];[1/3;1/3;-2/3;0;0;0];[0;0;0;-1/2;1/2;0];[0;0;0;1/2;-1/2;0];[0;0;0;-1/2;-1/2;1]].
Definition u3 := tab [[-2/3;1/3;1/3;0;0;0];[1/3;-2/3;1/3;0;0;0];[1/3;1/3;-2/3;0;0;0];[0;0;0;0;0;0];[0;0;0;-1;1;0];[0;0;0;-1/2;-1/2;1]].
Definition u1 := tab [[-1/2;1/2;0;0;0;0];[1/2;-1/2;0;0;0;0];[-1/2;-1/2;1;0;0;0];[0;0;0;0;0;0];[0;0;0;-1;1;0];[0;0;0;-1/2;-1/2;1]].
Definition u0 := tab [[0;0;0;0;0;0];[-1;1;0;0;0;0];[-1/2;-1/2;1;0;0;0];[0;0;0;0;0;0];[0;0;0;-1;1;0];[0;0;0;-1/2;-1/2;1]].
Ltac pivot := apply step_pivot; [unfold tab; cbn [nth]; pose proof tol10_small; rewrite Rabs_left; lra | six; unfold tab; cbn; lra].
Lemma r5 : agree (reduce_step tol10 5 u5) u4. Proof. unfold u5, u4. pivot. Qed.
Lemma r4 : agree (reduce_step tol10 4 u4) u3. Proof. unfold u4, u3. pivot. Qed.
Lemma r2 : agree (reduce_step tol10 2 u3) u1. Proof. unfold u3, u1. pivot. Qed.
Lemma r1 : agree (reduce_step tol10 1 u1) u0. Proof. unfold u1, u0. pivot. Qed.
Lemma three_reduced : agree (reduce_from tol10 5 (fun i j => sc_mat (calc_sc_chi (signed three) cubic) i j - LinN.delta i j)) u0.
Proof.
  rewrite three_matrix. eapply agree_trans; [apply (from_agree tol10 5 _ u5); [lia|]|].
  - six; unfold u5, tab, LinN.delta, sc_mat; cbn; lra.
  - cbn [reduce_from]. eapply agree_trans; [apply step_agree; [lia|]|exact r1].
    eapply agree_trans; [apply step_agree; [lia|]|exact r2].
    eapply agree_trans; [apply step_agree; [lia|]|].
    + eapply agree_trans; [apply step_agree; [lia|exact r5]|exact r4].
    + rewrite step_zero; [intros i j _ _; reflexivity|apply tol10_small|reflexivity].
Qed.
Definition c_three := tab [[1;0;0;0;0;0];[1;0;0;0;0;0];[1/2;1/2;0;0;0;0];[0;0;0;1;0;0];[0;0;0;1;0;0];[0;0;0;1/2;1/2;0]].
Definition z_three (i j : nat) : Z :=
  nth j (nth i [[10000000000;0;0;0;0;0]%Z;[10000000000;0;0;0;0;0]%Z;[5000000000;5000000000;0;0;0;0]%Z;[0;0;0;10000000000;0;0]%Z;[0;0;0;10000000000;0;0]%Z;[0;0;0;5000000000;5000000000;0]%Z] []) 0%Z.
Lemma ten10 : 10 ^ 10 = 10000000000. Proof. simpl; lra. Qed.
Lemma three_constr : agree (calc_constr_matrix 6 (sc_mat (calc_sc_chi (signed three) cubic))) c_three.
Proof.
  intros i j Hi Hj. unfold calc_constr_matrix, constr_matrix_unrounded. change (6 - 1)%nat with 5%nat. fold tol10.
  rewrite (three_reduced i j Hi Hj).
  assert (E : LinN.delta i j - u0 i j = IZR (z_three i j) / 10 ^ 10).
  { rewrite ten10. revert i j Hi Hj. six; unfold u0, tab, LinN.delta, z_three; cbn; lra. }
  rewrite E, np_round_exact, <- E. revert i j Hi Hj E. intros i j Hi Hj _. revert i j Hi Hj. six; unfold u0, c_three, tab, LinN.delta; cbn; lra.
Qed.

(** * the site on the three-fold axis *)
Lemma act_three : forall x i, act op1 x i = x i /\ act op3 x i = x (match i with X1 => X3 | X2 => X1 | X3 => X2 end)
  /\ act op9 x i = x (match i with X1 => X2 | X2 => X3 | X3 => X1 end).
Proof. intros x i. destruct i; unfold act, sum3, op1, op3, op9; cbn; repeat split; lra. Qed.
Lemma sp_ext : forall x y : ix -> R, (forall i, x i = y i) -> same_point x y.
Proof. intros x y H i. exists 0%Z. rewrite H. simpl. ring. Qed.
Lemma three_fix : forall e, In e three -> fixes e on_axis.
Proof.
  intros e [<-|[<-|[<-|[]]]]; apply sp_ext; intro i; destruct (act_three (vget on_axis) i) as (A & B & C); rewrite ?A, ?B, ?C; destruct i; reflexivity.
Qed.
Lemma three_group : symmetry_group three.
Proof.
  assert (A1 : forall x i, act op1 x i = x i) by (intros; apply act_three).
  assert (A3 : forall x i, act op3 x i = x (match i with X1 => X3 | X2 => X1 | X3 => X2 end)) by (intros; apply act_three).
  assert (A9 : forall x i, act op9 x i = x (match i with X1 => X2 | X2 => X3 | X3 => X1 end)) by (intros; apply act_three).
  split; [|split; [|split; [|split]]].
  - intros e [<-|[<-|[<-|[]]]]; reflexivity.
  - exists op1. split; [left; reflexivity|]. intro x. apply sp_ext, A1.
  - intros e f [<-|[<-|[<-|[]]]] [<-|[<-|[<-|[]]]];
      [exists op1|exists op3|exists op9|exists op3|exists op9|exists op1|exists op9|exists op1|exists op3];
      (split; [cbn; auto|]); intro x; apply sp_ext; intro i; rewrite ?A1, ?A3, ?A9; destruct i; rewrite ?A1, ?A3, ?A9; reflexivity.
  - intros e [<-|[<-|[<-|[]]]]; [exists op1|exists op9|exists op3]; (split; [cbn; auto|]); intro x; apply sp_ext; intro i;
      rewrite ?A1, ?A3, ?A9; destruct i; rewrite ?A1, ?A3, ?A9; reflexivity.
  - assert (P : forall e f, In e three -> In f three -> same_op e f -> e_r e = e_r f).
    { intros e f He Hf S. destruct He as [<-|[<-|[<-|[]]]], Hf as [<-|[<-|[<-|[]]]]; try reflexivity; exfalso;
      destruct (S (fun i => match i with X1 => 1 / 4 | X2 => 1 / 2 | X3 => 0 end) X1) as [n E]; rewrite ?A1, ?A3, ?A9 in E;
      (assert (Q : 4 * IZR n = 1 \/ 4 * IZR n = 2 \/ 4 * IZR n = -1 \/ 4 * IZR n = -2) by lra);
      rewrite <- mult_IZR in Q; destruct Q as [Q|[Q|[Q|Q]]]; apply eq_IZR in Q; lia. }
    repeat constructor; intro S; apply P in S; cbn; auto; discriminate.
Qed.
Lemma three_found : calc_el_symm_for_xyz three on_axis = Some three.
Proof.
  destruct (site_exact three on_axis) as (l & E & S).
  - exists op1. split; [left; reflexivity|]. apply three_fix. left; reflexivity.
  - intros e He. left. apply three_fix, He.
  - rewrite E. f_equal. destruct (site_sublist _ _ _ E) as [f ->].
    assert (F : forall e, In e three -> f e = true).
    { intros e He. assert (I : In e (filter f three)) by (apply S; split; [exact He|apply three_fix, He]). apply filter_In in I. apply I. }
    unfold three in *. cbn [filter]. rewrite (F op1), (F op3), (F op9) by (cbn; auto). reflexivity.
Qed.
Definition cani_item (q : Q6 R) : sus_item :=
  mkSus (Some "Cani"%string) q (mkQ 0 0 0 0 0 0) (mkQ true true true true true true) (mkQ false false false false false false).
Lemma three_result : forall q, exists it, apply_space_group_constraint three cubic on_axis (cani_item q) = Some it /\
  su_chi it = mkQ (q_11 q) (q_11 q) ((q_11 q + q_22 q) / 2) (q_12 q) (q_12 q) ((q_12 q + q_13 q) / 2).
Proof.
  intro q. unfold apply_space_group_constraint, site_sc_chi. rewrite three_found. cbn [option_map]. fold (signed three).
  eexists. split; [reflexivity|].
  change (is_cani (cani_item q)) with true. cbv iota. cbn [su_chi].
  pose proof three_constr as T. set (c := calc_constr_matrix 6 (sc_mat (calc_sc_chi (signed three) cubic))) in *. clearbody c.
  unfold q_of, constr_values, LinN.mulmv. cbn [LinN.sumn].
  rewrite !T by lia. unfold c_three, tab. cbn. f_equal; lra.
Qed.
Lemma op3_frame : in_frame (mget (calc_m_m cubic)) op3 (rot_real op3).
Proof. rewrite m_m_cubic. intros i j. destruct i, j; unfold sum3, rot_real, op3; cbn; ring. Qed.
Lemma three_metric : forall e, In e three -> metric_invariant cubic e.
Proof. intros e [<-|[<-|[<-|[]]]]; intros [] []; unfold sum3, metric; cbn; rewrite ?cos_PI2; ring. Qed.
Lemma not_averaged : exists it, apply_space_group_constraint three cubic on_axis (cani_item (mkQ 1 2 5 0 0 0)) = Some it /\
  su_chi it = mkQ 1 1 (3 / 2) 0 0 0 /\
  ~ site_tensor (mget (calc_m_m cubic)) (fun e => In e three /\ fixes e on_axis) (qget (su_chi it)).
Proof.
  destruct (three_result (mkQ 1 2 5 0 0 0)) as (it & E & C). exists it. split; [exact E|]. cbn in C.
  assert (C' : su_chi it = mkQ 1 1 (3 / 2) 0 0 0) by (rewrite C; f_equal; lra). split; [exact C'|].
  intro H. rewrite C' in H. specialize (H op3 (rot_real op3) (Logic.conj (or_intror (or_introl eq_refl)) (three_fix op3 (or_intror (or_introl eq_refl)))) op3_frame X1 X3).
  unfold sum3, rot_real, op3 in H. cbn in H. lra.
Qed.
(** * the atom near the mirror plane *)
Definition c_mirror := tab [[1;0;0;0;0;0];[0;1;0;0;0;0];[0;0;1;0;0;0];[0;0;0;0;0;0];[0;0;0;0;0;0];[0;0;0;0;0;1]].
Definition m0 := tab [[0;0;0;0;0;0];[0;0;0;0;0;0];[0;0;0;0;0;0];[0;0;0;1;0;0];[0;0;0;0;1;0];[0;0;0;0;0;0]].
Definition m4 := tab [[0;0;0;0;0;0];[0;0;0;0;0;0];[0;0;0;0;0;0];[0;0;0;-2;0;0];[0;0;0;0;1;0];[0;0;0;0;0;0]].
Definition m5 := tab [[0;0;0;0;0;0];[0;0;0;0;0;0];[0;0;0;0;0;0];[0;0;0;-2;0;0];[0;0;0;0;-2;0];[0;0;0;0;0;0]].
Lemma q4 : agree (reduce_step tol10 4 m5) m4. Proof. unfold m5, m4. pivot. Qed.
Lemma q3 : agree (reduce_step tol10 3 m4) m0. Proof. unfold m4, m0. pivot. Qed.
Lemma mirror_reduced : agree (reduce_from tol10 5 (fun i j => sc_mat (calc_sc_chi (signed [opm]) cubic) i j - LinN.delta i j)) m0.
Proof.
  rewrite mirror_matrix. eapply agree_trans; [apply (from_agree tol10 5 _ m5); [lia|]|].
  - six; unfold m5, tab, LinN.delta, sc_mat; cbn; lra.
  - pose proof tol10_small as [T _]. cbn [reduce_from]. rewrite (step_zero tol10 5 m5 T eq_refl).
    eapply agree_trans; [apply step_agree; [lia|]; apply step_agree; [lia|]; eapply agree_trans; [apply step_agree; [lia|exact q4]|exact q3]|].
    rewrite (step_zero tol10 2 m0 T eq_refl), (step_zero tol10 1 m0 T eq_refl). intros i j _ _. reflexivity.
Qed.
Lemma mirror_constr : agree (calc_constr_matrix 6 (sc_mat (calc_sc_chi (signed [opm]) cubic))) c_mirror.
Proof.
  intros i j Hi Hj. unfold calc_constr_matrix, constr_matrix_unrounded. change (6 - 1)%nat with 5%nat. fold tol10.
  rewrite (mirror_reduced i j Hi Hj).
  assert (E : LinN.delta i j - m0 i j = IZR (if Nat.eqb i j then if orb (Nat.eqb i 3) (Nat.eqb i 4) then 0 else 10000000000 else 0)%Z / 10 ^ 10).
  { rewrite ten10. revert i j Hi Hj. six; unfold m0, tab, LinN.delta; cbn; lra. }
  rewrite E, np_round_exact, <- E. clear E. revert i j Hi Hj. six; unfold m0, c_mirror, tab, LinN.delta; cbn; lra.
Qed.
Lemma near_mirror_lost : forall q, exists it, apply_space_group_constraint [op1; opm] cubic near_mirror (cani_item q) = Some it /\
  su_chi it = mkQ (q_11 q) (q_22 q) (q_33 q) 0 0 (q_23 q).
Proof.
  intro q. unfold apply_space_group_constraint, site_sc_chi. rewrite near_mirror_wrong. cbn [option_map]. fold (signed [opm]).
  eexists. split; [reflexivity|].
  change (is_cani (cani_item q)) with true. cbv iota. cbn [su_chi].
  pose proof mirror_constr as T. set (c := calc_constr_matrix 6 (sc_mat (calc_sc_chi (signed [opm]) cubic))) in *. clearbody c.
  unfold q_of, constr_values, LinN.mulmv. cbn [LinN.sumn].
  rewrite !T by lia. unfold c_mirror, tab. cbn. f_equal; lra.
Qed.
Lemma near_mirror_general : forall e, In e [op1; opm] -> fixes e near_mirror -> e = op1.
Proof. intros e [<-|[<-|[]]] F; [reflexivity|]. exfalso. exact (near_mirror_not_fixed F). Qed.
(** * general position *)
Lemma ident_frame : forall uc e A, nondegenerate uc -> e_r e = (mkM 1 0 0 0 1 0 0 0 1)%Z -> in_frame (mget (calc_m_m uc)) e A -> A = delta.
Proof.
  intros uc e A N E H. apply (mul_cancel_r _ _ (mget (calc_m_m uc))); [apply det_M, N|]. apply mat_ext. intros i j. unfold mul. rewrite (H i j), E.
  unfold sum3, delta. destruct i, j; cbn; ring.
Qed.
Lemma ident_matrix : forall uc l, nondegenerate uc -> point_group (rotations l) -> (forall e, In e l -> metric_invariant uc e) ->
  (forall e, In e l -> e_r e = (mkM 1 0 0 0 1 0 0 0 1)%Z) -> agree (sc_mat (calc_sc_chi (signed l) uc)) LinN.delta.
Proof.
  intros uc l N PG MI E i j Hi Hj.
  assert (A : allowed 6 (sc_mat (calc_sc_chi (signed l) uc)) (q_nth 0 (q_of (fun k => LinN.delta k j)))).
  { apply (allowed_iff uc l N PG MI). intros e A He HA p r. rewrite (ident_frame uc e A N (E e He) HA).
    unfold sum3, delta. destruct p, r; cbn; ring. }
  specialize (A i Hi). rewrite nth_of in A by exact Hi. rewrite <- A. unfold LinN.mulmv. symmetry.
  rewrite (LinNP.sumn_ext 6 _ (fun k => sc_mat (calc_sc_chi (signed l) uc) i k * LinN.delta k j)).
  - apply (LinNP.sumn_delta 6 j (fun k => sc_mat (calc_sc_chi (signed l) uc) i k)). exact Hj.
  - intros k Hk. rewrite nth_of by exact Hk. reflexivity.
Qed.
Lemma zero_from : forall k, reduce_from tol10 k (fun _ _ => 0) = (fun _ _ => 0).
Proof. induction k as [|k IH]; cbn [reduce_from]; [reflexivity|]. rewrite step_zero; [exact IH|apply tol10_small|reflexivity]. Qed.
Lemma ident_constr : forall m, agree m LinN.delta -> agree (calc_constr_matrix 6 m) LinN.delta.
Proof.
  intros m H i j Hi Hj. unfold calc_constr_matrix, constr_matrix_unrounded. change (6 - 1)%nat with 5%nat. fold tol10.
  assert (Z : agree (reduce_from tol10 5 (fun i j => m i j - LinN.delta i j)) (fun _ _ => 0)).
  { rewrite <- (zero_from 5). apply from_agree; [lia|]. intros a b Ha Hb. rewrite (H a b Ha Hb). ring. }
  rewrite (Z i j Hi Hj), Rminus_0_r.
  assert (E : LinN.delta i j = IZR (if Nat.eq_dec i j then 10000000000 else 0)%Z / 10 ^ 10) by (rewrite ten10; unfold LinN.delta; destruct (Nat.eq_dec i j); lra).
  rewrite E at 1. rewrite np_round_exact, <- E. reflexivity.
Qed.
Lemma q_ext : forall {A} (d : A) (f : nat -> A) (q : Q6 A), (forall i, (i < 6)%nat -> f i = q_nth d q i) -> q_of f = q.
Proof.
  intros A d f [a b c e g h] H. unfold q_of. rewrite (H 0%nat), (H 1%nat), (H 2%nat), (H 3%nat), (H 4%nat), (H 5%nat) by lia. reflexivity.
Qed.
Lemma general_position : forall symop uc v it, symmetry_group symop -> nondegenerate uc -> (forall e, In e symop -> metric_invariant uc e) ->
  (forall e, In e symop -> (fixes e v /\ e_r e = (mkM 1 0 0 0 1 0 0 0 1)%Z) \/ clearly_apart (act e (vget v)) (vget v)) ->
  is_cani it = true -> (forall i j, 0 <= qget (su_sigma it) i j) ->
  apply_space_group_constraint symop uc v it = Some (mkSus (su_type it) (su_chi it) (su_sigma it) (su_ref it) (mkQ false false false false false false)).
Proof.
  intros symop uc v it G N MI D K SG.
  assert (D' : forall e, In e symop -> fixes e v \/ clearly_apart (act e (vget v)) (vget v)) by (intros e He; destruct (D e He) as [[F _]|F]; auto).
  destruct (site_list symop v G D') as (l & E & PG & S).
  assert (ID : forall e, In e l -> e_r e = (mkM 1 0 0 0 1 0 0 0 1)%Z).
  { intros e He. apply S in He. destruct He as [He F]. destruct (D e He) as [[_ R0]|R0]; [exact R0|]. exfalso. destruct R0 as [i H].
    assert (Q : frac_part_of (act e (vget v) i) = frac_part_of (vget v i)) by (apply (mod1_eq_iff (act e (vget v) i) (vget v i)); apply F).
    rewrite Q, Rminus_diag_eq, Rabs_R0 in H by reflexivity. lra. }
  assert (MIl : forall e, In e l -> metric_invariant uc e) by (intros e He; apply S in He; apply MI, He).
  unfold apply_space_group_constraint, site_sc_chi. rewrite E. cbn [option_map]. fold (signed l). rewrite K.
  pose proof (ident_constr _ (ident_matrix uc l N PG MIl ID)) as C.
  set (c := calc_constr_matrix 6 (sc_mat (calc_sc_chi (signed l) uc))) in *. clearbody c.
  assert (L : lower01 6 c).
  { split; [|split].
    - intros a j Ha Hj. rewrite C by lia. apply delta_diff. lia.
    - intros a Ha. left. rewrite C by lia. apply delta_same.
    - rewrite C by lia. apply delta_same. }
  assert (CO : forall i, (i < 6)%nat -> constr_con 6 c i = false).
  { intros i Hi. apply (con_iff 6 c i ltac:(lia) L Hi). rewrite C by lia. apply delta_same. }
  f_equal. f_equal.
  - apply (q_ext 0). intros i Hi. unfold constr_values. rewrite <- (delta_row 6 (q_nth 0 (su_chi it)) i Hi). unfold LinN.mulmv.
    apply LinNP.sumn_ext. intros k Hk. rewrite C by assumption. reflexivity.
  - apply (q_ext 0). intros i Hi. unfold constr_sigma.
    rewrite (LinNP.sumn_ext 6 _ (fun k => LinN.delta i k * (q_nth 0 (su_sigma it) k)²)).
    + rewrite LinNP.sumn_delta' by exact Hi. apply sqrt_Rsqr.
      pose proof (SG X1 X1). pose proof (SG X2 X2). pose proof (SG X3 X3). pose proof (SG X1 X2). pose proof (SG X1 X3). pose proof (SG X2 X3).
      destruct i as [|[|[|[|[|[|i]]]]]]; try lia; assumption.
    + intros k Hk. rewrite C by assumption. f_equal. unfold LinN.delta. destruct (Nat.eq_dec i k); unfold Rsqr; ring.
  - apply (q_ext false). intros i Hi. unfold constr_ref. rewrite (CO i Hi). cbn [negb]. rewrite andb_true_r.
    apply eq_true_iff_eq. rewrite existsb_exists. split.
    + intros (k & Hk & Q). apply in_seq in Hk. rewrite (C i k Hi ltac:(lia)) in Q. destruct (Nat.eq_dec i k) as [<-|Ne].
      * apply andb_prop in Q. tauto.
      * rewrite delta_diff, not_zero5_zero in Q by exact Ne. discriminate.
    + intro Q. exists i. split; [apply in_seq; lia|]. rewrite (C i i Hi Hi), delta_same, not_zero5_one, Q. reflexivity.
  - apply (q_ext false). intros i Hi. rewrite (CO i Hi). destruct i as [|[|[|[|[|[|i]]]]]]; reflexivity.
Qed.
Lemma general_met : (forall e, In e [op1; opm] -> metric_invariant cubic e) /\
  (forall e, In e [op1; opm] -> (fixes e (mkV (1 / 10) 0 0) /\ e_r e = (mkM 1 0 0 0 1 0 0 0 1)%Z) \/ clearly_apart (act e (vget (mkV (1 / 10) 0 0))) (vget (mkV (1 / 10) 0 0))).
Proof.
  split.
  - intros e [<-|[<-|[]]]; intros [] []; unfold sum3, metric; cbn; rewrite ?cos_PI2; ring.
  - intros e He. destruct (exact_met e He) as [F|A]; [|right; exact A]. left. split; [exact F|].
    destruct He as [<-|[<-|[]]]; [reflexivity|]. exfalso. destruct (F X1) as [n Hn]. unfold act, sum3, opm in Hn. cbn in Hn.
    assert (Q : 10 * IZR n = 3) by lra. rewrite <- mult_IZR in Q. apply eq_IZR in Q. lia.
Qed.
(** * forms used by the property file *)
Lemma site_found_filter : forall symop v, (exists e, In e symop /\ fixes e v) ->
  exists l, calc_el_symm_for_xyz symop v = Some l /\ l <> [] /\ exists keep, l = filter keep symop.
Proof.
  intros symop v H. destruct (site_found symop v H) as (l & E & _ & e0 & I & _). exists l. split; [exact E|]. split; [intro Z; subst l; exact I|].
  exact (site_sublist symop v l E).
Qed.
Lemma near_mirror_refuted : exists symop v e1 e2, symmetry_group symop /\ symop = [e1; e2] /\
  (forall x i, act e1 x i = x i) /\ ~ fixes e2 v /\ calc_el_symm_for_xyz symop v = Some [e2].
Proof.
  exists [op1; opm], near_mirror, op1, opm. split; [exact near_mirror_group|]. split; [reflexivity|]. split; [intros; apply act_three|].
  split; [exact near_mirror_not_fixed|exact near_mirror_wrong].
Qed.
Lemma one_application_refuted : exists symop uc v it it', symmetry_group symop /\ nondegenerate uc /\
  (forall e, In e symop -> metric_invariant uc e /\ fixes e v) /\
  apply_space_group_constraint symop uc v it = Some it' /\ su_chi it = mkQ 1 2 5 0 0 0 /\ su_chi it' = mkQ 1 1 (3 / 2) 0 0 0 /\
  ~ site_tensor (mget (calc_m_m uc)) (fun e => In e symop /\ fixes e v) (qget (su_chi it')).
Proof.
  destruct not_averaged as (it & A & B & C). exists three, cubic, on_axis, (cani_item (mkQ 1 2 5 0 0 0)), it.
  split; [exact three_group|]. split; [exact cubic_nondegenerate|]. split; [intros e He; split; [apply three_metric, He|apply three_fix, He]|].
  split; [exact A|]. split; [reflexivity|]. split; [exact B|exact C].
Qed.
Lemma near_mirror_item_refuted : exists symop uc v, symmetry_group symop /\ nondegenerate uc /\
  (forall e, In e symop -> metric_invariant uc e) /\ (forall e, In e symop -> fixes e v -> forall x i, act e x i = x i) /\
  forall it, is_cani it = true -> exists it', apply_space_group_constraint symop uc v it = Some it' /\
    su_chi it' = mkQ (q_11 (su_chi it)) (q_22 (su_chi it)) (q_33 (su_chi it)) 0 0 (q_23 (su_chi it)).
Proof.
  exists [op1; opm], cubic, near_mirror. split; [exact near_mirror_group|]. split; [exact cubic_nondegenerate|]. split; [apply general_met|].
  split; [intros e He F x i; rewrite (near_mirror_general e He F); apply act_three|].
  intros it K. destruct (near_mirror_lost (su_chi it)) as (it0 & E & C).
  unfold apply_space_group_constraint in *. destruct (site_sc_chi [op1; opm] cubic near_mirror); [|discriminate]. rewrite K.
  eexists. split; [reflexivity|]. change (is_cani (cani_item (su_chi it))) with true in E. cbv iota in E. injection E as <-. exact C.
Qed.
Lemma three_met : symmetry_group three /\ nondegenerate cubic /\ (forall e, In e three -> metric_invariant cubic e) /\ point_group (rotations three) /\
  (forall e, In e three -> fixes e on_axis) /\ site_tensor (mget (calc_m_m cubic)) (fun e => In e three) (qget (mkQ 3 3 3 (-1) (-1) (-1))).
Proof.
  assert (PG : point_group (rotations three)) by (apply (site_point_group three (vget on_axis) three_group); exact three_fix).
  split; [exact three_group|]. split; [exact cubic_nondegenerate|]. split; [exact three_metric|]. split; [exact PG|]. split; [exact three_fix|].
  apply (allowed_iff cubic three cubic_nondegenerate PG three_metric). rewrite three_matrix. intros i Hi. unfold LinN.mulmv, sc_mat. cbn [LinN.sumn].
  destruct i as [|[|[|[|[|[|i]]]]]]; try lia; cbn; lra.
Qed.
