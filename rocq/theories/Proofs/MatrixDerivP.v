From Coq Require Import Reals Lra Psatz.
From Coquelicot Require Import Coquelicot.
From Verif Require Import Spec.Lin3 Spec.Deriv Model.MatrixOps Proofs.MatrixOpsP.
Open Scope R_scope.

Ltac cbng := cbn [mset mget qset qget vset vget m_11 m_12 m_13 m_21 m_22 m_23 m_31 m_32 m_33 q_11 q_22 q_33 q_12 q_13 q_23 v_1 v_2 v_3].

Ltac dpart := intros; dm; di; unfold is_partial_m, is_partial_q, is_partial_v;
  unfold calc_vector_product_v1_v2_v1, calc_vector_product_v1_v2_v1_dder_v2, row_dot;
  cbn [mset mget qset qget vset vget m_11 m_12 m_13 m_21 m_22 m_23 m_31 m_32 m_33
       q_11 q_22 q_33 q_12 q_13 q_23 v_1 v_2 v_3
       calc_mt_q_m calc_mt_q_m_dder_m calc_mt_q_m_dder_q calc_q_sq calc_q_sq_dder_q
       calc_m_sq calc_m_sq_dder_m calc_vt_m_v calc_vt_m_v_dder_m calc_vt_m_v_dder_v
       calc_vt_q_v calc_vt_q_v_dder_v calc_q_v calc_q_v_dder_q calc_q_v_dder_v
       calc_m_v calc_m_v_dder_m calc_m_v_dder_v calc_det_m calc_det_m_hh
       calc_vv_as_v1_v2_v1 calc_vv_as_v1_v2_v1_dder_v1 calc_m1_m2];
  unfold Rsqr; (auto_derive; first [exact I | ring | repeat split; exact I]).

Lemma mt_q_m_dm m q i j k l :
  is_partial_m (fun m' => qget (calc_mt_q_m m' q) i j) m k l (mget (qget (calc_mt_q_m_dder_m m q) i j) k l).
Proof. dpart. Qed.
Lemma mt_q_m_dq m q i j k l :
  is_partial_q (fun q' => qget (calc_mt_q_m m q') i j) q k l (qget (qget (calc_mt_q_m_dder_q m q) i j) k l).
Proof. dpart. Qed.
Lemma q_sq_dq q i j k l :
  is_partial_q (fun q' => qget (calc_q_sq q') i j) q k l (qget (qget (calc_q_sq_dder_q q) i j) k l).
Proof. dpart. Qed.
Lemma vt_m_v_dm m v k l :
  is_partial_m (fun m' => calc_vt_m_v m' v) m k l (mget (calc_vt_m_v_dder_m m v) k l).
Proof. dpart. Qed.
Lemma vt_m_v_dv m v k :
  is_partial_v (fun v' => calc_vt_m_v m v') v k (vget (calc_vt_m_v_dder_v m v) k).
Proof. dpart. Qed.
Lemma vt_q_v_dv q v k :
  is_partial_v (fun v' => calc_vt_q_v q v') v k (vget (calc_vt_q_v_dder_v q v) k).
Proof. dpart. Qed.
Lemma q_v_dv q v i k :
  is_partial_v (fun v' => vget (calc_q_v q v') i) v k (vget (vget (calc_q_v_dder_v q v) i) k).
Proof. dpart. Qed.
Lemma m_v_dm m v i k l :
  is_partial_m (fun m' => vget (calc_m_v m' v) i) m k l (mget (vget (calc_m_v_dder_m m v) i) k l).
Proof. dpart. Qed.
Lemma m_v_dv m v i k :
  is_partial_v (fun v' => vget (calc_m_v m v') i) v k (vget (vget (calc_m_v_dder_v m v) i) k).
Proof. dpart. Qed.
Lemma double_vprod_dv2 e v i k :
  is_partial_v (fun v' => vget (calc_vector_product_v1_v2_v1 e v') i) v k
    (vget (vget (calc_vector_product_v1_v2_v1_dder_v2 e v) i) k).
Proof. dpart. Qed.
Lemma vv_dv1 e i j k :
  is_partial_v (fun e' => vget (vget (calc_vv_as_v1_v2_v1 e') i) j) e k
    (vget (vget (vget (calc_vv_as_v1_v2_v1_dder_v1 e) i) j) k).
Proof. dpart. Qed.
(** dder["m"] of calc_m_sq is the derivative of the true square M M ... *)
Lemma m_sq_dm_of_product m i j k l :
  is_partial_m (fun m' => mget (calc_m1_m2 m' m') i j) m k l (mget (mget (calc_m_sq_dder_m m) i j) k l).
Proof. dpart. Qed.
(** ... and of the returned value except for output element 31. *)
Lemma m_sq_dm m i j k l : (i <> X3 \/ j <> X1) ->
  is_partial_m (fun m' => mget (calc_m_sq m') i j) m k l (mget (mget (calc_m_sq_dder_m m) i j) k l).
Proof.
  intros H. apply (is_derive_ext (fun t => mget (calc_m1_m2 (mset m k l t) (mset m k l t)) i j)).
  - intros t. rewrite m_sq_exact, m1_m2_spec. destruct i, j; try lra; destruct H as [H|H]; congruence.
  - apply m_sq_dm_of_product.
Qed.
Lemma m_sq_dm_refuted : exists m k l,
  ~ is_partial_m (fun m' => mget (calc_m_sq m') X3 X1) m k l (mget (mget (calc_m_sq_dder_m m) X3 X1) k l).
Proof.
  exists (mkM 1 0 0 0 1 0 0 0 1), X3, X3. unfold is_partial_m. intros H.
  cbn in H. unfold Rsqr in H.
  assert (H2 : is_derive (fun t : R => 1 * 0 + 0 * 0 + t * t) 1 2) by (auto_derive; [exact I| ring]).
  apply is_derive_unique in H. apply is_derive_unique in H2. rewrite H in H2. lra.
Qed.
Lemma q_v_dq_refuted : exists q v k l,
  ~ is_partial_q (fun q' => vget (calc_q_v q' v) X2) q k l (qget (vget (calc_q_v_dder_q q v) X2) k l).
Proof.
  exists (mkQ 1 1 1 0 0 0), (mkV 1 0 0), X1, X2. unfold is_partial_q. intros H. cbn in H.
  assert (H2 : is_derive (fun t : R => t * 1 + 1 * 0 + 0 * 0) 0 1) by (auto_derive; [exact I| ring]).
  apply is_derive_unique in H. apply is_derive_unique in H2. rewrite H in H2. lra.
Qed.
(** first output row is right *)
Lemma q_v_dq_row1 q v k l :
  is_partial_q (fun q' => vget (calc_q_v q' v) X1) q k l (qget (vget (calc_q_v_dder_q q v) X1) k l).
Proof. dpart. Qed.
(** the stack hh of calc_det_m is the gradient except in element 32, where the sign of m_11*m_23 is wrong *)
Lemma det_hh_dm m k l : (k <> X3 \/ l <> X2) ->
  is_partial_m calc_det_m m k l (mget (calc_det_m_hh m) k l).
Proof. intros H. destruct k, l; try (destruct H; congruence); dpart. Qed.
Lemma det_hh_refuted : exists m, ~ is_partial_m calc_det_m m X3 X2 (mget (calc_det_m_hh m) X3 X2).
Proof.
  exists (mkM 1 0 0 0 0 1 0 0 0). unfold is_partial_m. intros H. cbn in H.
  assert (H2 : is_derive (fun t : R => 1 * 0 * 0 - 1 * 1 * t - 0 * 0 * 0 + 0 * 1 * 0 + 0 * 0 * t - 0 * 0 * 0) 0 (-1))
    by (auto_derive; [exact I| ring]).
  apply is_derive_unique in H. apply is_derive_unique in H2. rewrite H in H2. lra.
Qed.
Lemma det_flag_raises m : calc_det_m_call m true = AttributeError.
Proof. reflexivity. Qed.
Lemma vt_q_v_flag_raises q v : calc_vt_q_v_call q v true = NameError.
Proof. reflexivity. Qed.

(** m q m^-1: linear in q; derivative right when det = 1 *)
Lemma m_q_inv_m_dq m q i j k l : det3 (mget m) <> 0 -> (k = X2 /\ l = X3 \/ k = X3 /\ l = X2 -> det3 (mget m) = 1) ->
  is_partial_q (fun q' => mget (calc_m_q_inv_m m q') i j) q k l (qget (mget (calc_m_q_inv_m_dder_q m q) i j) k l).
Proof.
  rewrite <- det_spec. intros Hd H1.
  dm. unfold is_partial_q.
  unfold calc_m_q_inv_m, calc_m_q_inv_m_dder_q.
  set (D := calc_det_m _) in *. clearbody D.
  destruct k, l; try (assert (E1 : D = 1) by (apply H1; tauto); subst D);
  destruct i, j;
  cbng;
  auto_derive; (repeat split; try exact I; try assumption; try (field; assumption); try field).
Qed.
Lemma m_q_inv_m_dq_refuted : exists m q,
  det3 (mget m) <> 0 /\
  ~ is_partial_q (fun q' => mget (calc_m_q_inv_m m q') X2 X3) q X2 X3
       (qget (mget (calc_m_q_inv_m_dder_q m q) X2 X3) X2 X3).
Proof.
  exists (mkM 2 0 0 0 1 0 0 0 1), (mkQ 1 1 1 0 0 0). split; [unf; lra|].
  unfold is_partial_q. intros H.
  assert (H2 : is_derive (fun t : R => mget (calc_m_q_inv_m (mkM 2 0 0 0 1 0 0 0 1) (qset (mkQ 1 1 1 0 0 0) X2 X3 t)) X2 X3) 0 1).
  { cbn. auto_derive; [repeat split; lra|field]. }
  apply is_derive_unique in H. cbn [qget q_23] in H. apply is_derive_unique in H2. rewrite H in H2.
  cbn in H2. lra.
Qed.

Lemma norm_v_dv v k : 1 / 100000000 < calc_norm_v v ->
  is_partial_v calc_norm_v v k (vget (calc_norm_v_dder_v v) k).
Proof.
  intros H. unfold is_partial_v.
  assert (Hp : 0 < dot (vget v) (vget v)).
  { rewrite norm_v_spec in H. destruct (Rle_or_lt (dot (vget v) (vget v)) 0) as [N|P]; [|exact P].
    rewrite sqrt_neg_0 in H; lra. }
  unfold calc_norm_v_dder_v, isclose0. rewrite (Rabs_pos_eq (calc_norm_v v)) by lra.
  destruct (Rle_dec _ _) as [N|_]; [lra|].
  apply (is_derive_ext (fun t => sqrt (dot (vget (vset v k t)) (vget (vset v k t)))));
   [intros t; symmetry; apply norm_v_spec|].
  rewrite norm_v_spec in *.
  destruct v as [a b c]. unfold dot, sum3 in *. 
  destruct k; cbn [vset vget v_1 v_2 v_3] in *; auto_derive; try exact Hp; try (split; [exact Hp|exact I]);
  field; lra.
Qed.
Lemma unity_v_dv_refuted : exists v i k, 1 / 100000000 < calc_norm_v v /\
  ~ is_partial_v (fun v' => vget (calc_unity_v v') i) v k (vget (vget (calc_unity_v_dder_v v) i) k).
Proof.
  exists (mkV 0 2 0), X1, X2.
  assert (N : forall t, calc_norm_v (mkV 0 t 0) = Rabs t).
  { intros t. rewrite norm_v_spec. unf. rewrite <- sqrt_Rsqr_abs. f_equal. unfold Rsqr. ring. }
  assert (N2 : calc_norm_v (mkV 0 2 0) = 2) by (rewrite N; apply Rabs_pos_eq; lra).
  split; [rewrite N2; lra|].
  unfold is_partial_v. intros H.
  assert (H2 : is_derive (fun t => vget (calc_unity_v (vset (mkV 0 2 0) X2 t)) X1) 2 0).
  { apply (is_derive_ext (fun _ => 0)).
    - intros t. cbn [vset vget v_1 v_2 v_3]. unfold calc_unity_v. cbn [vget v_1]. symmetry. apply Rmult_0_l.
    - apply @is_derive_const. }
  apply is_derive_unique in H. apply is_derive_unique in H2.
  assert (H3 := eq_trans (eq_sym H) H2). clear H H2. rename H3 into H2.
  unfold calc_unity_v_dder_v, calc_norm_v_dder_v, isclose0 in H2. cbn [vget v_1 v_2 v_3 delta] in H2.
  rewrite N2 in H2. rewrite (Rabs_pos_eq 2) in H2 by lra.
  destruct (Rle_dec _ _) as [Q|_] in H2; [lra|]. cbn [v_2] in H2. unfold Rsqr in H2. lra.
Qed.
