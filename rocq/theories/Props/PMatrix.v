(** Property theorems C01-C06 (matrix_operations.py). *)
From Coq Require Import Reals Lra.
From Coquelicot Require Import Coquelicot.
From Verif Require Import Spec.Lin3 Spec.Deriv Model.MatrixOps Proofs.MatrixOpsP Proofs.MatrixDerivP.
Open Scope R_scope.

(** * C01: products *)
Theorem C01_m_v : forall m v i, vget (calc_m_v m v) i = sum3 (fun k => mget m i k * vget v k).
Proof. exact m_v_spec. Qed.
Print Assumptions C01_m_v.
Theorem C01_q_v : forall q v i, vget (calc_q_v q v) i = sum3 (fun k => qget q i k * vget v k).
Proof. exact q_v_spec. Qed.
Print Assumptions C01_q_v.
Theorem C01_transpose : forall m i j, mget (transpose_m m) i j = mget m j i.
Proof. exact transpose_spec. Qed.
Print Assumptions C01_transpose.
Theorem C01_m1_m2 : forall a b i j, mget (calc_m1_m2 a b) i j = sum3 (fun k => mget a i k * mget b k j).
Proof. exact m1_m2_spec. Qed.
Print Assumptions C01_m1_m2.
Theorem C01_m_q_mt : forall m q i j,
  qget (calc_m_q_mt m q) i j = sum3 (fun k => sum3 (fun l => mget m i k * qget q k l * mget m j l)).
Proof. exact m_q_mt_spec. Qed.
Print Assumptions C01_m_q_mt.
Theorem C01_mt_q_m : forall m q i j,
  qget (calc_mt_q_m m q) i j = sum3 (fun k => sum3 (fun l => mget m k i * qget q k l * mget m l j)).
Proof. exact mt_q_m_spec. Qed.
Print Assumptions C01_mt_q_m.
Theorem C01_mt_m : forall m i j, qget (calc_mt_m m) i j = sum3 (fun k => mget m k i * mget m k j).
Proof. exact mt_m_spec. Qed.
Print Assumptions C01_mt_m.
Theorem C01_q_sq : forall q i j, qget (calc_q_sq q) i j = sum3 (fun k => qget q i k * qget q k j).
Proof. exact q_sq_spec. Qed.
Print Assumptions C01_q_sq.
Theorem C01_q1_q2_q1 : forall a b i j,
  qget (calc_q1_q2_q1 a b) i j = sum3 (fun k => sum3 (fun l => qget a i k * qget b k l * qget a l j)).
Proof. exact q1_q2_q1_spec. Qed.
Print Assumptions C01_q1_q2_q1.
Theorem C01_m1_m2_m1t : forall a b i j,
  mget (calc_m1_m2_m1t a b) i j = sum3 (fun k => sum3 (fun l => mget a i k * mget b k l * mget a j l)).
Proof. exact m1_m2_m1t_spec. Qed.
Print Assumptions C01_m1_m2_m1t.
Theorem C01_vt_m_v : forall m v,
  calc_vt_m_v m v = sum3 (fun k => sum3 (fun l => vget v k * mget m k l * vget v l)).
Proof. exact vt_m_v_spec. Qed.
Print Assumptions C01_vt_m_v.
Theorem C01_vt_q_v : forall q v,
  calc_vt_q_v q v = sum3 (fun k => sum3 (fun l => vget v k * qget q k l * vget v l)).
Proof. exact vt_q_v_spec. Qed.
Print Assumptions C01_vt_q_v.
Theorem C01_det : forall m, calc_det_m m = det3 (mget m).
Proof. exact det_spec. Qed.
Print Assumptions C01_det.

(** * C02: inverse *)
Theorem C02_inv_m : forall m,
  1 / 1000000000000 <= Rabs (det3 (mget m)) -> is_inverse (mget m) (mget (calc_inv_m m)).
Proof. exact inv_m_ok. Qed.
Print Assumptions C02_inv_m.
Theorem C02_inv_m_singular : forall m,
  Rabs (det3 (mget m)) < 1 / 1000000000000 -> forall i j, mget (calc_inv_m m) i j = 0.
Proof. exact inv_m_singular. Qed.
Print Assumptions C02_inv_m_singular.
Example C02_nonvacuous : 1 / 1000000000000 <= Rabs (det3 (mget (mkM 1 2 0 0 1 3 4 0 1))).
Proof. unfold det3; simpl. replace (_ - _ + _) with 25 by ring. rewrite Rabs_pos_eq; lra. Qed.
Example C02_nonvacuous_singular : Rabs (det3 (mget (mkM 1 2 3 2 4 6 0 0 1))) < 1 / 1000000000000.
Proof. unfold det3; simpl. replace (_ - _ + _) with 0 by ring. rewrite Rabs_R0; lra. Qed.

(** * C03: matrix square.  False of the code: element 31 uses m_33*m_33 instead of m_33*m_31. *)
Theorem C03_m_sq_refuted : exists m : M3 R, mget (calc_m_sq m) X3 X1 <> mget (calc_m1_m2 m m) X3 X1.
Proof. exact m_sq_refuted. Qed.
Print Assumptions C03_m_sq_refuted.
(** Exactly when the code is right: *)
Theorem C03_m_sq_partial : forall m,
  (forall i j, mget (calc_m_sq m) i j = mget (calc_m1_m2 m m) i j) <->
  (mget m X3 X3 = 0 \/ mget m X3 X3 = mget m X3 X1).
Proof. exact m_sq_iff. Qed.
Print Assumptions C03_m_sq_partial.
(** and by how much it is wrong otherwise: *)
Theorem C03_m_sq_error_partial : forall m i j,
  mget (calc_m_sq m) i j =
  sum3 (fun k => mget m i k * mget m k j) +
  (match i, j with X3, X1 => mget m X3 X3 * (mget m X3 X3 - mget m X3 X1) | _, _ => 0 end).
Proof. exact m_sq_exact. Qed.
Print Assumptions C03_m_sq_error_partial.

(** * C04: vector products *)
Theorem C04_orthogonal : forall a b,
  dot (vget a) (vget (calc_vector_product_v1_v2 a b)) = 0 /\
  dot (vget b) (vget (calc_vector_product_v1_v2 a b)) = 0.
Proof. exact (fun a b => conj (vprod_orth_l a b) (vprod_orth_r a b)). Qed.
Print Assumptions C04_orthogonal.
Theorem C04_anticommutes : forall a b i,
  vget (calc_vector_product_v1_v2 a b) i = - vget (calc_vector_product_v1_v2 b a) i.
Proof. exact vprod_anti. Qed.
Print Assumptions C04_anticommutes.
Theorem C04_length : forall a b,
  dot (vget (calc_vector_product_v1_v2 a b)) (vget (calc_vector_product_v1_v2 a b)) =
  dot (vget a) (vget a) * dot (vget b) (vget b) - (dot (vget a) (vget b))^2.
Proof. exact vprod_norm. Qed.
Print Assumptions C04_length.
Theorem C04_double_product : forall e v i,
  vget (calc_vector_product_v1_v2_v1 e v) i =
  dot (vget e) (vget e) * vget v i - dot (vget e) (vget v) * vget e i.
Proof. exact double_vprod_spec. Qed.
Print Assumptions C04_double_product.
Theorem C04_double_product_nested : forall e v,
  calc_vector_product_v1_v2_v1 e v = calc_vector_product_v1_v2 e (calc_vector_product_v1_v2 v e).
Proof. exact double_vprod_is_nested. Qed.
Print Assumptions C04_double_product_nested.
Theorem C04_projection_orthogonal : forall e v,
  dot (vget e) (vget (calc_vector_product_v1_v2_v1 e v)) = 0.
Proof. exact double_vprod_orth. Qed.
Print Assumptions C04_projection_orthogonal.
Theorem C04_projection_idempotent : forall e v, dot (vget e) (vget e) = 1 ->
  forall i, vget (calc_vector_product_v1_v2_v1 e (calc_vector_product_v1_v2_v1 e v)) i =
            vget (calc_vector_product_v1_v2_v1 e v) i.
Proof. exact double_vprod_idem. Qed.
Print Assumptions C04_projection_idempotent.
Theorem C04_projection_not_longer : forall e v, dot (vget e) (vget e) = 1 ->
  dot (vget (calc_vector_product_v1_v2_v1 e v)) (vget (calc_vector_product_v1_v2_v1 e v))
  <= dot (vget v) (vget v).
Proof. exact double_vprod_shorter. Qed.
Print Assumptions C04_projection_not_longer.
Theorem C04_unity : forall v, 1 / 100000000 < sqrt (dot (vget v) (vget v)) ->
  dot (vget (calc_unity_v v)) (vget (calc_unity_v v)) = 1 /\
  forall i, vget v i = calc_norm_v v * vget (calc_unity_v v) i.
Proof. exact (fun v H => unity_v_unit v (eq_ind_r (fun x => 1 / 100000000 < x) H (norm_v_spec v))). Qed.
Print Assumptions C04_unity.
Theorem C04_norm : forall v, calc_norm_v v = sqrt (dot (vget v) (vget v)).
Proof. exact norm_v_spec. Qed.
Print Assumptions C04_norm.
Example C04_nonvacuous : dot (vget (mkV (3/5) (4/5) 0)) (vget (mkV (3/5) (4/5) 0)) = 1.
Proof. unfold dot, sum3; simpl; lra. Qed.

(** * C05: similarity transforms *)
Theorem C05_m_q_inv_m : forall m q i j, det3 (mget m) <> 0 ->
  sum3 (fun k => mget (calc_m_q_inv_m m q) i k * mget m k j) = sum3 (fun k => mget m i k * qget q k j).
Proof. exact m_q_inv_m_spec. Qed.
Print Assumptions C05_m_q_inv_m.
Theorem C05_m1_m2_inv_m1 : forall a b i j, det3 (mget a) <> 0 ->
  sum3 (fun k => mget (calc_m1_m2_inv_m1 a b) i k * mget a k j) = sum3 (fun k => mget a i k * mget b k j).
Proof. exact m1_m2_inv_m1_spec. Qed.
Print Assumptions C05_m1_m2_inv_m1.
Theorem C05_trace_det_q : forall m q, det3 (mget m) <> 0 ->
  tr3 (mget (calc_m_q_inv_m m q)) = tr3 (qget q) /\ det3 (mget (calc_m_q_inv_m m q)) = det3 (qget q).
Proof. exact (fun m q H => conj (m_q_inv_m_trace m q H) (m_q_inv_m_det m q H)). Qed.
Print Assumptions C05_trace_det_q.
Theorem C05_trace_det_m : forall a b, det3 (mget a) <> 0 ->
  tr3 (mget (calc_m1_m2_inv_m1 a b)) = tr3 (mget b) /\ det3 (mget (calc_m1_m2_inv_m1 a b)) = det3 (mget b).
Proof. exact (fun a b H => conj (m1_m2_inv_m1_trace a b H) (m1_m2_inv_m1_det a b H)). Qed.
Print Assumptions C05_trace_det_m.
Theorem C05_operator_q : forall m q i j, det3 (mget m) <> 0 ->
  q_row_dot (mget (calc_mm_as_m_q_inv_m m) i j) q = mget (calc_m_q_inv_m m q) i j.
Proof. exact mm_q_spec. Qed.
Print Assumptions C05_operator_q.
Theorem C05_operator_m : forall m b i j, det3 (mget m) <> 0 ->
  m_row_dot (mget (calc_mm_as_m1_m2_inv_m1 m) i j) b = mget (calc_m1_m2_inv_m1 m b) i j.
Proof. exact mm_m_spec. Qed.
Print Assumptions C05_operator_m.
Example C05_nonvacuous : det3 (mget (mkM 1 2 0 0 1 3 4 0 1)) <> 0.
Proof. unfold det3; simpl. lra. Qed.

(** * C06: derivatives.  Right for the functions below ... *)
Theorem C06_mt_q_m_partial : forall m q i j k l,
  is_partial_m (fun m' => qget (calc_mt_q_m m' q) i j) m k l (mget (qget (calc_mt_q_m_dder_m m q) i j) k l) /\
  is_partial_q (fun q' => qget (calc_mt_q_m m q') i j) q k l (qget (qget (calc_mt_q_m_dder_q m q) i j) k l).
Proof. exact (fun m q i j k l => conj (mt_q_m_dm m q i j k l) (mt_q_m_dq m q i j k l)). Qed.
Print Assumptions C06_mt_q_m_partial.
Theorem C06_q_sq_partial : forall q i j k l,
  is_partial_q (fun q' => qget (calc_q_sq q') i j) q k l (qget (qget (calc_q_sq_dder_q q) i j) k l).
Proof. exact q_sq_dq. Qed.
Print Assumptions C06_q_sq_partial.
Theorem C06_vt_m_v_partial : forall m v k l,
  is_partial_m (fun m' => calc_vt_m_v m' v) m k l (mget (calc_vt_m_v_dder_m m v) k l) /\
  is_partial_v (fun v' => calc_vt_m_v m v') v k (vget (calc_vt_m_v_dder_v m v) k).
Proof. exact (fun m v k l => conj (vt_m_v_dm m v k l) (vt_m_v_dv m v k)). Qed.
Print Assumptions C06_vt_m_v_partial.
Theorem C06_vt_q_v_partial : forall q v k,
  is_partial_v (fun v' => calc_vt_q_v q v') v k (vget (calc_vt_q_v_dder_v q v) k).
Proof. exact vt_q_v_dv. Qed.
Print Assumptions C06_vt_q_v_partial.
Theorem C06_q_v_partial : forall q v i k,
  is_partial_v (fun v' => vget (calc_q_v q v') i) v k (vget (vget (calc_q_v_dder_v q v) i) k).
Proof. exact q_v_dv. Qed.
Print Assumptions C06_q_v_partial.
Theorem C06_m_v_partial : forall m v i k l,
  is_partial_m (fun m' => vget (calc_m_v m' v) i) m k l (mget (vget (calc_m_v_dder_m m v) i) k l) /\
  is_partial_v (fun v' => vget (calc_m_v m v') i) v k (vget (vget (calc_m_v_dder_v m v) i) k).
Proof. exact (fun m v i k l => conj (m_v_dm m v i k l) (m_v_dv m v i k)). Qed.
Print Assumptions C06_m_v_partial.
Theorem C06_double_product_partial : forall e v i k,
  is_partial_v (fun v' => vget (calc_vector_product_v1_v2_v1 e v') i) v k
    (vget (vget (calc_vector_product_v1_v2_v1_dder_v2 e v) i) k).
Proof. exact double_vprod_dv2. Qed.
Print Assumptions C06_double_product_partial.
Theorem C06_vv_partial : forall e i j k,
  is_partial_v (fun e' => vget (vget (calc_vv_as_v1_v2_v1 e') i) j) e k
    (vget (vget (vget (calc_vv_as_v1_v2_v1_dder_v1 e) i) j) k).
Proof. exact vv_dv1. Qed.
Print Assumptions C06_vv_partial.
Theorem C06_norm_partial : forall v k, 1 / 100000000 < calc_norm_v v ->
  is_partial_v calc_norm_v v k (vget (calc_norm_v_dder_v v) k).
Proof. exact norm_v_dv. Qed.
Print Assumptions C06_norm_partial.
Theorem C06_m_sq_partial : forall m i j k l, (i <> X3 \/ j <> X1) ->
  is_partial_m (fun m' => mget (calc_m_sq m') i j) m k l (mget (mget (calc_m_sq_dder_m m) i j) k l).
Proof. exact m_sq_dm. Qed.
Print Assumptions C06_m_sq_partial.
Theorem C06_m_q_inv_m_partial : forall m q i j k l,
  det3 (mget m) <> 0 -> (k = X2 /\ l = X3 \/ k = X3 /\ l = X2 -> det3 (mget m) = 1) ->
  is_partial_q (fun q' => mget (calc_m_q_inv_m m q') i j) q k l (qget (mget (calc_m_q_inv_m_dder_q m q) i j) k l).
Proof. exact m_q_inv_m_dq. Qed.
Print Assumptions C06_m_q_inv_m_partial.
(** ... and wrong for these: *)
Theorem C06_m_sq_refuted : exists m k l,
  ~ is_partial_m (fun m' => mget (calc_m_sq m') X3 X1) m k l (mget (mget (calc_m_sq_dder_m m) X3 X1) k l).
Proof. exact m_sq_dm_refuted. Qed.
Print Assumptions C06_m_sq_refuted.
Theorem C06_q_v_refuted : exists q v k l,
  ~ is_partial_q (fun q' => vget (calc_q_v q' v) X2) q k l (qget (vget (calc_q_v_dder_q q v) X2) k l).
Proof. exact q_v_dq_refuted. Qed.
Print Assumptions C06_q_v_refuted.
Theorem C06_unity_refuted : exists v i k, 1 / 100000000 < calc_norm_v v /\
  ~ is_partial_v (fun v' => vget (calc_unity_v v') i) v k (vget (vget (calc_unity_v_dder_v v) i) k).
Proof. exact unity_v_dv_refuted. Qed.
Print Assumptions C06_unity_refuted.
Theorem C06_m_q_inv_m_refuted : exists m q, det3 (mget m) <> 0 /\
  ~ is_partial_q (fun q' => mget (calc_m_q_inv_m m q') X2 X3) q X2 X3
       (qget (mget (calc_m_q_inv_m_dder_q m q) X2 X3) X2 X3).
Proof. exact m_q_inv_m_dq_refuted. Qed.
Print Assumptions C06_m_q_inv_m_refuted.
(** calc_det_m: asking for the derivative raises; the stack it builds has a wrong element 32. *)
Theorem C06_det_flag_raises_refuted : forall m, calc_det_m_call m true = AttributeError.
Proof. exact det_flag_raises. Qed.
Print Assumptions C06_det_flag_raises_refuted.
Theorem C06_det_hh_refuted : exists m, ~ is_partial_m calc_det_m m X3 X2 (mget (calc_det_m_hh m) X3 X2).
Proof. exact det_hh_refuted. Qed.
Print Assumptions C06_det_hh_refuted.
Theorem C06_vt_q_v_flag_raises_refuted : forall q v, calc_vt_q_v_call q v true = NameError.
Proof. exact vt_q_v_flag_raises. Qed.
Print Assumptions C06_vt_q_v_flag_raises_refuted.
