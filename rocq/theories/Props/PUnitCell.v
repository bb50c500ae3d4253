(** Property theorems C07-C11, C62 (unit_cell.py). *)
From Coq Require Import Reals Lra.
From Coquelicot Require Import Coquelicot.
From Verif Require Import Spec.Lin3 Spec.Cell Model.MatrixOps Model.UnitCell
  Proofs.UnitCellP Proofs.UnitCellDerivP Proofs.MatrixTP.
Open Scope R_scope.

(** The hypotheses are met: a cubic, a monoclinic and a triclinic cell. *)
Example nondegenerate_monoclinic : nondegenerate (mkU 1 1 1 (PI / 2) (PI / 3) (PI / 2)).
Proof. exact mono_nondegenerate. Qed.
Example nondegenerate_triclinic : nondegenerate (mkU 3 4 5 (PI / 3) (PI / 3) (PI / 3)).
Proof.
  unfold nondegenerate. cbn [u_a u_b u_c u_al u_be u_ga]. rewrite cos_PI3. pose proof PI_RGT_0.
  repeat split; lra.
Qed.
Example nondegenerate_cubic : nondegenerate (mkU 8 8 8 (PI / 2) (PI / 2) (PI / 2)).
Proof.
  unfold nondegenerate. cbn [u_a u_b u_c u_al u_be u_ga]. rewrite cos_PI2. pose proof PI_RGT_0.
  repeat split; lra.
Qed.

(** * C07: metric tensors and volume *)
Theorem C07_m_g_is_metric : forall uc i j, qget (calc_m_g uc) i j = metric uc i j.
Proof. exact m_g_metric. Qed.
Print Assumptions C07_m_g_is_metric.
Theorem C07_metrics_inverse : forall uc, nondegenerate uc ->
  is_inverse (qget (calc_m_g uc)) (qget (calc_m_reciprocal_g uc)).
Proof. exact g_inverse. Qed.
Print Assumptions C07_metrics_inverse.
Theorem C07_det_is_volume_squared : forall uc, nondegenerate uc ->
  det3 (metric uc) = (calc_volume_uc uc)^2.
Proof. exact det_metric. Qed.
Print Assumptions C07_det_is_volume_squared.
Theorem C07_volume_positive : forall uc, nondegenerate uc -> 0 < calc_volume_uc uc.
Proof. exact volume_pos. Qed.
Print Assumptions C07_volume_positive.
Theorem C07_volumes_reciprocal : forall uc, nondegenerate uc -> calc_volume_uc uc * calc_volume_ruc uc = 1.
Proof. exact volume_prod. Qed.
Print Assumptions C07_volumes_reciprocal.
(** the reciprocal cell has the reciprocal metric and volume, is itself a cell, and its reciprocal is the
    original cell *)
Theorem C07_reciprocal_cell_metric : forall uc, nondegenerate uc -> forall i j,
  metric (calc_reciprocal uc) i j = qget (calc_m_reciprocal_g uc) i j.
Proof. exact (fun uc H i j => eq_trans (eq_sym (m_g_metric _ i j)) (recip_metric uc H i j)). Qed.
Print Assumptions C07_reciprocal_cell_metric.
Theorem C07_reciprocal_cell_nondegenerate : forall uc, nondegenerate uc -> nondegenerate (calc_reciprocal uc).
Proof. exact recip_nondegenerate. Qed.
Print Assumptions C07_reciprocal_cell_nondegenerate.
Theorem C07_reciprocal_cell_volume : forall uc, nondegenerate uc ->
  calc_volume_uc (calc_reciprocal uc) = calc_volume_ruc uc.
Proof. exact recip_volume. Qed.
Print Assumptions C07_reciprocal_cell_volume.
Theorem C07_reciprocal_involution : forall uc, nondegenerate uc -> calc_reciprocal (calc_reciprocal uc) = uc.
Proof. exact recip_involutive. Qed.
Print Assumptions C07_reciprocal_involution.

(** * C08: orthogonalisation matrices *)
Theorem C08_MtM_is_metric : forall uc, nondegenerate uc -> forall i j,
  sum3 (fun k => mget (calc_m_m uc) k i * mget (calc_m_m uc) k j) = metric uc i j.
Proof. exact mt_m_metric. Qed.
Print Assumptions C08_MtM_is_metric.
Theorem C08_BtB_is_reciprocal_metric : forall uc, nondegenerate uc -> forall i j,
  sum3 (fun k => mget (calc_m_b uc) k i * mget (calc_m_b uc) k j) = qget (calc_m_reciprocal_g uc) i j.
Proof. exact bt_b_reciprocal. Qed.
Print Assumptions C08_BtB_is_reciprocal_metric.
Theorem C08_M_inverse : forall uc, nondegenerate uc -> is_inverse (mget (calc_m_m uc)) (mget (calc_m_inv_m uc)).
Proof. exact m_inverse. Qed.
Print Assumptions C08_M_inverse.
Theorem C08_B_inverse : forall uc, nondegenerate uc -> is_inverse (mget (calc_m_b uc)) (mget (calc_m_inv_b uc)).
Proof. exact b_inverse. Qed.
Print Assumptions C08_B_inverse.
Theorem C08_M_norm_inverse : forall uc, nondegenerate uc ->
  is_inverse (mget (calc_m_m_norm uc)) (mget (calc_m_inv_m_norm uc)).
Proof. exact m_norm_inverse. Qed.
Print Assumptions C08_M_norm_inverse.
Theorem C08_B_norm_inverse : forall uc, nondegenerate uc ->
  is_inverse (mget (calc_m_b_norm uc)) (mget (calc_m_inv_b_norm uc)).
Proof. exact b_norm_inverse. Qed.
Print Assumptions C08_B_norm_inverse.
Theorem C08_M_norm_metric : forall uc, nondegenerate uc -> forall i j,
  sum3 (fun k => mget (calc_m_m_norm uc) k i * mget (calc_m_m_norm uc) k j) = axis_cos uc i j.
Proof. exact mn_metric. Qed.
Print Assumptions C08_M_norm_metric.
Theorem C08_B_norm_metric : forall uc, nondegenerate uc -> forall i j,
  sum3 (fun k => mget (calc_m_b_norm uc) k i * mget (calc_m_b_norm uc) k j) = axis_cos (calc_reciprocal uc) i j.
Proof. exact bn_metric_cos. Qed.
Print Assumptions C08_B_norm_metric.
Theorem C08_M_B_dual : forall uc, nondegenerate uc -> forall i j,
  sum3 (fun k => mget (calc_m_b uc) k i * mget (calc_m_m uc) k j) = delta i j.
Proof. exact b_m_dual. Qed.
Print Assumptions C08_M_B_dual.
Theorem C08_det_M_volume : forall uc, nondegenerate uc -> det3 (mget (calc_m_m uc)) = calc_volume_uc uc.
Proof. exact det_m_volume. Qed.
Print Assumptions C08_det_M_volume.
Theorem C08_det_B_volume : forall uc, nondegenerate uc -> det3 (mget (calc_m_b uc)) = calc_volume_ruc uc.
Proof. exact det_b_volume. Qed.
Print Assumptions C08_det_B_volume.
Theorem C08_inv_M_B_norm_product : forall uc, nondegenerate uc ->
  is_mul (mget (calc_m_inv_m uc)) (mget (calc_m_b_norm uc)) (mget (calc_m_inv_m_b_norm uc)).
Proof. exact inv_m_b_norm_prod. Qed.
Print Assumptions C08_inv_M_B_norm_product.
Theorem C08_inv_B_norm_M_product : forall uc, nondegenerate uc ->
  is_mul (mget (calc_m_inv_b_norm uc)) (mget (calc_m_m uc)) (mget (calc_m_inv_b_norm_m uc)).
Proof. exact inv_b_norm_m_prod. Qed.
Print Assumptions C08_inv_B_norm_M_product.

(** * C09: 1/d, sin(theta)/lambda, scattering vector *)
Theorem C09_inv_d_squared : forall hkl uc, nondegenerate uc ->
  (calc_inv_d hkl uc)^2 =
  sum3 (fun i => sum3 (fun j => vget hkl i * qget (calc_m_reciprocal_g uc) i j * vget hkl j)).
Proof. exact inv_d_sq. Qed.
Print Assumptions C09_inv_d_squared.
Theorem C09_q_length : forall hkl uc, nondegenerate uc ->
  calc_inv_d hkl uc = sqrt (dot (vget (calc_q_ccs hkl uc)) (vget (calc_q_ccs hkl uc))).
Proof. exact inv_d_norm. Qed.
Print Assumptions C09_q_length.
Theorem C09_sthovl : forall hkl uc, calc_sthovl hkl uc = calc_inv_d hkl uc / 2.
Proof. exact sthovl_half. Qed.
Print Assumptions C09_sthovl.
Theorem C09_unit_vector : forall hkl uc, nondegenerate uc -> hkl <> mkV 0 0 0 ->
  dot (vget (calc_eq_ccs hkl uc)) (vget (calc_eq_ccs hkl uc)) = 1 /\
  forall i, vget (calc_q_ccs hkl uc) i = calc_inv_d hkl uc * vget (calc_eq_ccs hkl uc) i.
Proof. exact eq_ccs_spec. Qed.
Print Assumptions C09_unit_vector.
Theorem C09_unit_vector_000 : forall uc i, vget (calc_eq_ccs (mkV 0 0 0) uc) i = 0.
Proof. exact eq_ccs_zero. Qed.
Print Assumptions C09_unit_vector_000.
Theorem C09_inv_d_positive : forall hkl uc, nondegenerate uc -> hkl <> mkV 0 0 0 -> 0 < calc_inv_d hkl uc.
Proof. exact inv_d_pos. Qed.
Print Assumptions C09_inv_d_positive.

(** * C10: basis transformations of tensors *)
Theorem C10_roundtrips : forall q uc, nondegenerate uc ->
  transform_ccs_to_direct (transform_direct_to_ccs q uc) uc = q /\
  transform_direct_to_ccs (transform_ccs_to_direct q uc) uc = q /\
  transform_ccs_to_direct_norm (transform_direct_norm_to_ccs q uc) uc = q /\
  transform_direct_norm_to_ccs (transform_ccs_to_direct_norm q uc) uc = q /\
  transform_ccs_to_reciprocal (transform_reciprocal_to_ccs q uc) uc = q /\
  transform_reciprocal_to_ccs (transform_ccs_to_reciprocal q uc) uc = q /\
  transform_ccs_to_reciprocal_norm (transform_reciprocal_norm_to_ccs q uc) uc = q /\
  transform_reciprocal_norm_to_ccs (transform_ccs_to_reciprocal_norm q uc) uc = q.
Proof. exact roundtrips. Qed.
Print Assumptions C10_roundtrips.
(** A tensor given in the direct basis and evaluated on fractional coordinates x has the same value as the
    Cartesian tensor evaluated on the Cartesian coordinates M x; same for the reciprocal basis and B h. *)
Theorem C10_direct_form : forall q uc x, nondegenerate uc ->
  let form (t : Q6 R) (v : ix -> R) := sum3 (fun i => sum3 (fun j => v i * qget t i j * v j)) in
  let mx := fun i => sum3 (fun k => mget (calc_m_m uc) i k * vget x k) in
  form (transform_ccs_to_direct q uc) (vget x) = form q mx /\
  form (transform_direct_to_ccs q uc) mx = form q (vget x).
Proof. exact direct_form. Qed.
Print Assumptions C10_direct_form.
Theorem C10_reciprocal_form : forall q uc h, nondegenerate uc ->
  let form (t : Q6 R) (v : ix -> R) := sum3 (fun i => sum3 (fun j => v i * qget t i j * v j)) in
  let bh := fun i => sum3 (fun k => mget (calc_m_b uc) i k * vget h k) in
  form (transform_ccs_to_reciprocal q uc) (vget h) = form q bh /\
  form (transform_reciprocal_to_ccs q uc) bh = form q (vget h).
Proof. exact reciprocal_form. Qed.
Print Assumptions C10_reciprocal_form.
Theorem C10_direct_norm_form : forall q uc x, nondegenerate uc ->
  let form (t : Q6 R) (v : ix -> R) := sum3 (fun i => sum3 (fun j => v i * qget t i j * v j)) in
  let mx := fun i => sum3 (fun k => mget (calc_m_m_norm uc) i k * vget x k) in
  form (transform_ccs_to_direct_norm q uc) (vget x) = form q mx /\
  form (transform_direct_norm_to_ccs q uc) mx = form q (vget x).
Proof. exact direct_norm_form. Qed.
Print Assumptions C10_direct_norm_form.
Theorem C10_reciprocal_norm_form : forall q uc h, nondegenerate uc ->
  let form (t : Q6 R) (v : ix -> R) := sum3 (fun i => sum3 (fun j => v i * qget t i j * v j)) in
  let bh := fun i => sum3 (fun k => mget (calc_m_b_norm uc) i k * vget h k) in
  form (transform_ccs_to_reciprocal_norm q uc) (vget h) = form q bh /\
  form (transform_reciprocal_norm_to_ccs q uc) bh = form q (vget h).
Proof. exact reciprocal_norm_form. Qed.
Print Assumptions C10_reciprocal_norm_form.

(** * C11: derivatives with respect to the unit-cell parameters *)
Theorem C11_phi_sq : forall uc p, is_partial_u calc_phi_sq uc p (uget (calc_phi_sq_dder uc) p).
Proof. exact phi_sq_d. Qed.
Print Assumptions C11_phi_sq.
Theorem C11_phi : forall uc p, nondegenerate uc -> is_partial_u calc_phi uc p (uget (calc_phi_dder uc) p).
Proof. exact phi_d. Qed.
Print Assumptions C11_phi.
Theorem C11_m_g : forall uc p i j,
  is_partial_u (fun u => qget (calc_m_g u) i j) uc p (uget (qget (calc_m_g_dder uc) i j) p).
Proof. exact m_g_d. Qed.
Print Assumptions C11_m_g.
Theorem C11_m_reciprocal_g_norm : forall uc p i j, nondegenerate uc ->
  is_partial_u (fun u => qget (calc_m_reciprocal_g_norm u) i j) uc p
    (uget (qget (calc_m_reciprocal_g_norm_dder uc) i j) p).
Proof. exact m_rg_norm_d. Qed.
Print Assumptions C11_m_reciprocal_g_norm.
Theorem C11_volume_lengths_partial : forall uc p, nondegenerate uc -> p = Ua \/ p = Ub \/ p = Uc ->
  is_partial_u calc_volume_uc uc p (uget (calc_volume_uc_dder uc) p).
Proof. exact volume_d_len. Qed.
Print Assumptions C11_volume_lengths_partial.
Theorem C11_m_g_norm_angles_partial : forall uc p i j, p = Ual \/ p = Ube \/ p = Uga ->
  is_partial_u (fun u => qget (calc_m_g_norm u) i j) uc p (uget (qget (calc_m_g_norm_dder uc) i j) p).
Proof. exact m_g_norm_d_ang. Qed.
Print Assumptions C11_m_g_norm_angles_partial.
Theorem C11_m_b_partial : forall uc p i j, nondegenerate uc ->
  (i <> X1 \/ j <> X2 \/ p <> Ube) -> (i <> X2 \/ j <> X2 \/ p <> Ual) ->
  is_partial_u (fun u => mget (calc_m_b u) i j) uc p (uget (mget (calc_m_b_dder uc) i j) p).
Proof. exact m_b_d. Qed.
Print Assumptions C11_m_b_partial.
Theorem C11_m_m_norm_partial : forall uc p i j, nondegenerate uc ->
  (i <> X1 \/ j <> X1 \/ p = Ua \/ p = Ub \/ p = Uc) ->
  is_partial_u (fun u => mget (calc_m_m_norm u) i j) uc p (uget (mget (calc_m_m_norm_dder uc) i j) p).
Proof. exact m_m_norm_d. Qed.
Print Assumptions C11_m_m_norm_partial.
Theorem C11_q_ccs_partial : forall hkl uc p i, nondegenerate uc -> p <> Ube -> p <> Ual ->
  is_partial_u (fun u => vget (calc_q_ccs hkl u) i) uc p (uget (vget (calc_q_ccs_dder hkl uc) i) p).
Proof. exact q_ccs_d. Qed.
Print Assumptions C11_q_ccs_partial.
Theorem C11_eq_ccs_partial : forall hkl uc p i, nondegenerate uc -> hkl <> mkV 0 0 0 -> p <> Ube -> p <> Ual ->
  is_partial_u (fun u => vget (calc_eq_ccs hkl u) i) uc p (vget (calc_eq_ccs_dder hkl uc p) i).
Proof. exact eq_ccs_d. Qed.
Print Assumptions C11_eq_ccs_partial.
Theorem C11_inv_d_orthogonal_partial : forall hkl uc p, nondegenerate uc -> hkl <> mkV 0 0 0 ->
  u_al uc = PI / 2 -> u_be uc = PI / 2 -> u_ga uc = PI / 2 ->
  is_partial_u (calc_inv_d hkl) uc p (uget (calc_inv_d_dder hkl uc) p).
Proof. exact inv_d_d_ortho. Qed.
Print Assumptions C11_inv_d_orthogonal_partial.
(** Where the code is wrong it is wrong for every cell of the stated kind. *)
Theorem C11_volume_alpha_refuted : forall uc, nondegenerate uc -> cos (u_al uc) <> 0 ->
  ~ is_partial_u calc_volume_uc uc Ual (uget (calc_volume_uc_dder uc) Ual).
Proof. exact volume_al_wrong. Qed.
Print Assumptions C11_volume_alpha_refuted.
Theorem C11_m_b_12_beta_refuted : forall uc, nondegenerate uc -> cos (u_al uc) <> 0 ->
  ~ is_partial_u (fun u => mget (calc_m_b u) X1 X2) uc Ube (uget (mget (calc_m_b_dder uc) X1 X2) Ube).
Proof. exact m_b_12_be_wrong. Qed.
Print Assumptions C11_m_b_12_beta_refuted.
Theorem C11_m_b_22_alpha_refuted : forall uc, nondegenerate uc -> cos (u_al uc) <> 0 ->
  ~ is_partial_u (fun u => mget (calc_m_b u) X2 X2) uc Ual (uget (mget (calc_m_b_dder uc) X2 X2) Ual).
Proof. exact m_b_22_al_wrong. Qed.
Print Assumptions C11_m_b_22_alpha_refuted.
Theorem C11_m_m_norm_11_beta_refuted : forall uc, nondegenerate uc ->
  cos (u_be uc) <> cos (u_al uc) * cos (u_ga uc) ->
  ~ is_partial_u (fun u => mget (calc_m_m_norm u) X1 X1) uc Ube (uget (mget (calc_m_m_norm_dder uc) X1 X1) Ube).
Proof. exact m_m_norm_11_be_wrong. Qed.
Print Assumptions C11_m_m_norm_11_beta_refuted.
Theorem C11_reciprocal_a_refuted : forall uc, nondegenerate uc ->
  ~ is_partial_u (fun u => u_a (calc_reciprocal u)) uc Ua (uget (calc_reciprocal_dder_ia uc) Ua).
Proof. exact recip_ia_a_wrong. Qed.
Print Assumptions C11_reciprocal_a_refuted.
Theorem C11_m_g_norm_refuted : forall uc, nondegenerate uc -> cos (u_ga uc) <> 0 ->
  ~ is_partial_u (fun u => qget (calc_m_g_norm u) X1 X2) uc Ua (uget (qget (calc_m_g_norm_dder uc) X1 X2) Ua).
Proof. exact m_g_norm_12_a_wrong. Qed.
Print Assumptions C11_m_g_norm_refuted.
Theorem C11_m_reciprocal_g_refuted : forall uc, nondegenerate uc ->
  ~ is_partial_u (fun u => qget (calc_m_reciprocal_g u) X1 X1) uc Ua (uget (qget (calc_m_reciprocal_g_dder uc) X1 X1) Ua).
Proof. exact m_reciprocal_g_11_a_wrong. Qed.
Print Assumptions C11_m_reciprocal_g_refuted.
Theorem C11_m_m_refuted : forall uc,
  ~ is_partial_u (fun u => mget (calc_m_m u) X3 X3) uc Uc (uget (mget zero_dder_m X3 X3) Uc).
Proof. exact m_m_33_c_wrong. Qed.
Print Assumptions C11_m_m_refuted.
Theorem C11_inv_d_beta_refuted : exists hkl uc, nondegenerate uc /\
  ~ is_partial_u (calc_inv_d hkl) uc Ube (uget (calc_inv_d_dder hkl uc) Ube).
Proof. exact inv_d_be_wrong. Qed.
Print Assumptions C11_inv_d_beta_refuted.
Theorem C11_m_inv_b_norm_raises_refuted : forall uc, calc_m_inv_b_norm_call uc true = KeyError.
Proof. exact inv_b_norm_raises. Qed.
Print Assumptions C11_m_inv_b_norm_raises_refuted.

(** * C62: calc_matrix_t *)
Theorem C62_rotation_to_scattering_vector : forall hkl uc, nondegenerate uc -> hkl <> mkV 0 0 0 ->
  exists T, calc_matrix_t hkl uc = Some T /\
   (forall i j, sum3 (fun k => mget T i k * mget T j k) = delta i j) /\ det3 (mget T) = 1 /\
   (forall i, Rabs (mget T X3 i - vget (calc_eq_ccs hkl uc) i) <= 1 / 100000) /\
   (1 / 100000 < Rabs (vget (calc_eq_ccs hkl uc) X2) -> forall i, mget T X3 i = vget (calc_eq_ccs hkl uc) i).
Proof. exact matrix_t_some. Qed.
Print Assumptions C62_rotation_to_scattering_vector.
Theorem C62_zero_reflection_quits : forall uc, calc_matrix_t (mkV 0 0 0) uc = None.
Proof. exact matrix_t_zero. Qed.
Print Assumptions C62_zero_reflection_quits.
