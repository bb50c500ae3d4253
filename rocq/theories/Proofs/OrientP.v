(** Orientation matrix: cell, U, angles, vertical direction. *)
From Coq Require Import Reals ZArith List String Lra Lia.
From Verif Require Import Spec.Lin3 Spec.Cell Spec.Rotation Model.MatrixOps Model.UnitCell Model.Matrices Model.Profile Model.CellObj Model.Items Model.Containers Model.Orient
  Proofs.UnitCellP Proofs.ProfileDerivP Proofs.MatricesP Proofs.Matrices2P Proofs.CellItemP.
Import ListNotations.
Open Scope R_scope.

Lemma ccsl_gram : forall t ub i j, gram (mget (calc_ub_ccsl t ub)) i j = gram (mget ub) i j.
Proof.
  intros t [a1 a2 a3 b1 b2 b3 c1 c2 c3] i j. unfold calc_ub_ccsl.
  destruct (existsb _ ["XYZ"; "6T2@LLB"]%string); [reflexivity|]. destruct (existsb _ ["-YXZ"; "5C1@LLB"]%string); [|destruct (existsb _ _); [|reflexivity]];
  destruct i, j; unfold gram, sum3; cbn [mget m_11 m_12 m_13 m_21 m_22 m_23 m_31 m_32 m_33]; ring.
Qed.
Lemma ccsl_det : forall t ub, det3 (mget (calc_ub_ccsl t ub)) = det3 (mget ub).
Proof.
  intros t [a1 a2 a3 b1 b2 b3 c1 c2 c3]. unfold calc_ub_ccsl.
  destruct (existsb _ ["XYZ"; "6T2@LLB"]%string); [reflexivity|]. destruct (existsb _ ["-YXZ"; "5C1@LLB"]%string); [|destruct (existsb _ _); [|reflexivity]];
  unfold det3; cbn [mget m_11 m_12 m_13 m_21 m_22 m_23 m_31 m_32 m_33]; ring.
Qed.
(** the reciprocal cell spanned by the columns of a matrix *)
Definition column_cell (m : ix -> ix -> R) : U6 R :=
  let b i := sqrt (gram m i i) in let c i j := gram m i j / (b i * b j) in
  mkU (b X1) (b X2) (b X3) (acos (c X2 X3)) (acos (c X1 X3)) (acos (c X1 X2)).
Lemma gram_sym : forall m i j, gram m i j = gram m j i.
Proof. intros. unfold gram, sum3. ring. Qed.
Lemma acos_open : forall x, -1 < x < 1 -> 0 < acos x < PI /\ cos (acos x) = x.
Proof.
  intros x H. assert (C : cos (acos x) = x) by (apply cos_acos; lra). split; [|exact C]. pose proof (acos_bound x) as [L U].
  split; [destruct L as [L|L]; [exact L|rewrite <- L, cos_0 in C; lra]|destruct U as [U|U]; [exact U|rewrite U, cos_PI in C; lra]].
Qed.
Lemma ratio_open : forall g a b, 0 < a -> 0 < b -> 0 < a * b - g * g -> -1 < g / (sqrt a * sqrt b) < 1.
Proof.
  intros g a b A B H. pose proof (sqrt_lt_R0 a A). pose proof (sqrt_lt_R0 b B). assert (P : 0 < sqrt a * sqrt b) by nra.
  assert (Q : (sqrt a * sqrt b) * (sqrt a * sqrt b) = a * b) by (transitivity ((sqrt a * sqrt a) * (sqrt b * sqrt b)); [ring|rewrite !sqrt_sqrt by lra; reflexivity]).
  generalize dependent (sqrt a * sqrt b). intros s P Q. split; [apply (Rmult_lt_reg_r s); [exact P|]|apply (Rmult_lt_reg_r s); [exact P|]]; unfold Rdiv; rewrite Rmult_assoc, Rinv_l by lra; nra.
Qed.
Lemma column_cell_spec : forall m, det3 m <> 0 -> nondegenerate (column_cell m) /\ forall i j, metric (column_cell m) i j = gram m i j.
Proof.
  intros m D.
  assert (SQ : forall x y z : R, (x <> 0 \/ y <> 0 \/ z <> 0) -> 0 < x * x + y * y + z * z) by (intros x y z [H|[H|H]]; nra).
  assert (G : forall i, 0 < gram m i i).
  { intro i. unfold gram, sum3. apply SQ. destruct (Req_dec (m X1 i) 0) as [E1|]; [|tauto]. destruct (Req_dec (m X2 i) 0) as [E2|]; [|tauto]. right; right. intro E3. apply D. destruct i; unfold det3; rewrite E1, E2, E3; ring. }
  assert (W : forall i j, i <> j -> 0 < gram m i i * gram m j j - gram m i j * gram m i j).
  { intros i j N. replace (gram m i i * gram m j j - gram m i j * gram m i j) with
      ((m X2 i * m X3 j - m X3 i * m X2 j) * (m X2 i * m X3 j - m X3 i * m X2 j) + (m X3 i * m X1 j - m X1 i * m X3 j) * (m X3 i * m X1 j - m X1 i * m X3 j) + (m X1 i * m X2 j - m X2 i * m X1 j) * (m X1 i * m X2 j - m X2 i * m X1 j)) by (unfold gram, sum3; ring).
    apply SQ. destruct (Req_dec (m X2 i * m X3 j - m X3 i * m X2 j) 0) as [E1|]; [|tauto]. destruct (Req_dec (m X3 i * m X1 j - m X1 i * m X3 j) 0) as [E2|]; [|tauto]. right; right. intro E3. apply D.
    destruct i, j; try (exfalso; apply N; reflexivity); unfold det3.
    - transitivity (m X1 X3 * (m X2 X1 * m X3 X2 - m X3 X1 * m X2 X2) + m X2 X3 * (m X3 X1 * m X1 X2 - m X1 X1 * m X3 X2) + m X3 X3 * (m X1 X1 * m X2 X2 - m X2 X1 * m X1 X2)); [ring|]. rewrite E1, E2, E3. ring.
    - transitivity (- (m X1 X2 * (m X2 X1 * m X3 X3 - m X3 X1 * m X2 X3) + m X2 X2 * (m X3 X1 * m X1 X3 - m X1 X1 * m X3 X3) + m X3 X2 * (m X1 X1 * m X2 X3 - m X2 X1 * m X1 X3))); [ring|]. rewrite E1, E2, E3. ring.
    - transitivity (- (m X1 X3 * (m X2 X2 * m X3 X1 - m X3 X2 * m X2 X1) + m X2 X3 * (m X3 X2 * m X1 X1 - m X1 X2 * m X3 X1) + m X3 X3 * (m X1 X2 * m X2 X1 - m X2 X2 * m X1 X1))); [ring|]. rewrite E1, E2, E3. ring.
    - transitivity (m X1 X1 * (m X2 X2 * m X3 X3 - m X3 X2 * m X2 X3) + m X2 X1 * (m X3 X2 * m X1 X3 - m X1 X2 * m X3 X3) + m X3 X1 * (m X1 X2 * m X2 X3 - m X2 X2 * m X1 X3)); [ring|]. rewrite E1, E2, E3. ring.
    - transitivity (m X1 X2 * (m X2 X3 * m X3 X1 - m X3 X3 * m X2 X1) + m X2 X2 * (m X3 X3 * m X1 X1 - m X1 X3 * m X3 X1) + m X3 X2 * (m X1 X3 * m X2 X1 - m X2 X3 * m X1 X1)); [ring|]. rewrite E1, E2, E3. ring.
    - transitivity (- (m X1 X1 * (m X2 X3 * m X3 X2 - m X3 X3 * m X2 X2) + m X2 X1 * (m X3 X3 * m X1 X2 - m X1 X3 * m X3 X2) + m X3 X1 * (m X1 X3 * m X2 X2 - m X2 X3 * m X1 X2))); [ring|]. rewrite E1, E2, E3. ring. }
  assert (T : gram m X1 X1 * gram m X2 X2 * gram m X3 X3 - gram m X1 X1 * gram m X2 X3 * gram m X2 X3 - gram m X2 X2 * gram m X1 X3 * gram m X1 X3 - gram m X3 X3 * gram m X1 X2 * gram m X1 X2 + 2 * gram m X1 X2 * gram m X1 X3 * gram m X2 X3 = det3 m * det3 m)
    by (unfold gram, sum3, det3; ring).
  assert (T0 : 0 < det3 m * det3 m) by nra. rewrite <- T in T0. clear T.
  pose proof (ratio_open _ _ _ (G X2) (G X3) (W X2 X3 ltac:(discriminate))) as Ra. pose proof (ratio_open _ _ _ (G X1) (G X3) (W X1 X3 ltac:(discriminate))) as Rb. pose proof (ratio_open _ _ _ (G X1) (G X2) (W X1 X2 ltac:(discriminate))) as Rg.
  destruct (acos_open _ Ra) as [Ia Ca]. destruct (acos_open _ Rb) as [Ib Cb]. destruct (acos_open _ Rg) as [Ig Cg].
  pose proof (sqrt_lt_R0 _ (G X1)) as S1. pose proof (sqrt_lt_R0 _ (G X2)) as S2. pose proof (sqrt_lt_R0 _ (G X3)) as S3.
  pose proof (sqrt_sqrt (gram m X1 X1) ltac:(pose proof (G X1); lra)) as Q1. pose proof (sqrt_sqrt (gram m X2 X2) ltac:(pose proof (G X2); lra)) as Q2. pose proof (sqrt_sqrt (gram m X3 X3) ltac:(pose proof (G X3); lra)) as Q3.
  split.
  - unfold nondegenerate, column_cell; cbn [u_a u_b u_c u_al u_be u_ga]. rewrite Ca, Cb, Cg. do 6 (split; [assumption|]).
    clear Ca Cb Cg Ia Ib Ig Ra Rb Rg W SQ G D. rewrite <- Q1, <- Q2, <- Q3 in T0. clear Q1 Q2 Q3.
    revert T0 S1 S2 S3. generalize (sqrt (gram m X1 X1)) (sqrt (gram m X2 X2)) (sqrt (gram m X3 X3)) (gram m X1 X2) (gram m X1 X3) (gram m X2 X3). intros s1 s2 s3 g12 g13 g23 T0 S1 S2 S3.
    assert (P : 0 < s1 * s2 * s3) by (apply Rmult_lt_0_compat; [apply Rmult_lt_0_compat; assumption|exact S3]).
    apply (Rmult_lt_reg_r ((s1 * s2 * s3) * (s1 * s2 * s3))); [apply Rmult_lt_0_compat; exact P|]. rewrite Rmult_0_l. eapply Rlt_le_trans; [exact T0|]. right. field. repeat split; lra.
  - intros i j. unfold metric, column_cell. destruct i, j; cbn [axis_len axis_cos u_a u_b u_c u_al u_be u_ga]; rewrite ?Ca, ?Cb, ?Cg; rewrite ?Rmult_1_r; try assumption; rewrite ?(gram_sym m X2 X1), ?(gram_sym m X3 X1), ?(gram_sym m X3 X2); field; repeat split; lra.
Qed.

Lemma deg_deg : forall x, x * 180 / PI * PI / 180 = x.
Proof. intro x. pose proof PI_RGT_0. field. lra. Qed.
Lemma column_cos : forall m, det3 m <> 0 -> let b i := sqrt (gram m i i) in
  (forall i, 0 < b i) /\ cos (u_al (column_cell m)) = gram m X2 X3 / (b X2 * b X3) /\ cos (u_be (column_cell m)) = gram m X1 X3 / (b X1 * b X3) /\ cos (u_ga (column_cell m)) = gram m X1 X2 / (b X1 * b X2).
Proof.
  intros m D b. destruct (column_cell_spec m D) as [N M]. destruct N as (A & B & C & _).
  assert (P : forall i, 0 < b i) by (intro i; destruct i; assumption). split; [exact P|].
  pose proof (M X2 X3) as M1. pose proof (M X1 X3) as M2. pose proof (M X1 X2) as M3. unfold metric in M1, M2, M3. cbn [axis_len axis_cos] in M1, M2, M3.
  change (u_a (column_cell m)) with (b X1) in *. change (u_b (column_cell m)) with (b X2) in *. change (u_c (column_cell m)) with (b X3) in *.
  rewrite <- M1, <- M2, <- M3. pose proof (P X1). pose proof (P X2). pose proof (P X3). repeat split; field; split; lra.
Qed.
Lemma orient_cell_recip : forall t ub, det3 (mget ub) <> 0 -> get_unit_cell_parameters (orient_cell t ub) = calc_reciprocal (column_cell (mget (calc_ub_ccsl t ub))).
Proof.
  intros t ub D. rewrite <- (ccsl_det t) in D. unfold orient_cell. destruct (calc_ub_ccsl t ub) as [x1 x2 x3 y1 y2 y3 z1 z2 z3].
  destruct (column_cos _ D) as (P & Ca & Cb & Cg). set (m := mkM x1 x2 x3 y1 y2 y3 z1 z2 z3) in *.
  unfold get_unit_cell_parameters; cbn [u_a u_b u_c u_al u_be u_ga]. rewrite !deg_deg.
  change (x1 * x1 + y1 * y1 + z1 * z1) with (gram (mget m) X1 X1). change (x2 * x2 + y2 * y2 + z2 * z2) with (gram (mget m) X2 X2). change (x3 * x3 + y3 * y3 + z3 * z3) with (gram (mget m) X3 X3).
  change (x1 * x2 + y1 * y2 + z1 * z2) with (gram (mget m) X1 X2). change (x1 * x3 + y1 * y3 + z1 * z3) with (gram (mget m) X1 X3). change (x2 * x3 + y2 * y3 + z2 * z3) with (gram (mget m) X2 X3).
  change (acos (gram (mget m) X2 X3 / (sqrt (gram (mget m) X2 X2) * sqrt (gram (mget m) X3 X3)))) with (u_al (column_cell (mget m))).
  change (acos (gram (mget m) X1 X3 / (sqrt (gram (mget m) X1 X1) * sqrt (gram (mget m) X3 X3)))) with (u_be (column_cell (mget m))).
  change (acos (gram (mget m) X1 X2 / (sqrt (gram (mget m) X1 X1) * sqrt (gram (mget m) X2 X2)))) with (u_ga (column_cell (mget m))).
  rewrite <- Ca, <- Cb, <- Cg. change (sqrt (gram (mget m) X1 X1)) with (u_a (column_cell (mget m))). change (sqrt (gram (mget m) X2 X2)) with (u_b (column_cell (mget m))). change (sqrt (gram (mget m) X3 X3)) with (u_c (column_cell (mget m))).
  generalize (column_cell (mget m)). intro cc. unfold calc_reciprocal, calc_volume_uc, calc_phi, calc_phi_sq.
  replace (1 - cos (u_al cc) ^ 2 - cos (u_be cc) ^ 2 - cos (u_ga cc) ^ 2 + 2 * cos (u_al cc) * cos (u_be cc) * cos (u_ga cc)) with (1 - (cos (u_al cc))² - (cos (u_be cc))² - (cos (u_ga cc))² + 2 * cos (u_al cc) * cos (u_be cc) * cos (u_ga cc)) by (unfold Rsqr; ring).
  rewrite (Rmult_comm (u_c cc) (u_a cc)), (Rmult_comm (cos (u_ga cc)) (cos (u_al cc))), (Rmult_comm (sin (u_ga cc)) (sin (u_al cc))). reflexivity.
Qed.
(** the cell: its reciprocal metric is the table of scalar products of the columns of UB *)
Lemma orient_cell_spec : forall t ub, det3 (mget ub) <> 0 -> let uc := get_unit_cell_parameters (orient_cell t ub) in
  nondegenerate uc /\ is_inverse (metric uc) (gram (mget ub)) /\ (forall t', orient_cell t' ub = orient_cell t ub) /\ forall i j, qget (calc_m_reciprocal_g uc) i j = gram (mget ub) i j.
Proof.
  intros t ub D uc. assert (D' : det3 (mget (calc_ub_ccsl t ub)) <> 0) by (rewrite ccsl_det; exact D).
  destruct (column_cell_spec _ D') as [N M]. assert (E : uc = calc_reciprocal (column_cell (mget (calc_ub_ccsl t ub)))) by (apply orient_cell_recip; exact D).
  assert (NU : nondegenerate uc) by (rewrite E; apply recip_nondegenerate; exact N).
  assert (R : forall i j, qget (calc_m_reciprocal_g uc) i j = gram (mget ub) i j).
  { intros i j. rewrite <- recip_metric by exact NU. rewrite E, recip_involutive by exact N. rewrite m_g_metric, M, ccsl_gram. reflexivity. }
  split; [exact NU|]. split; [|split; [|exact R]].
  - destruct (g_inverse uc NU) as [I J]. split; intros i j.
    + rewrite <- I. apply sum3_ext; intro k. rewrite R, m_g_metric. reflexivity.
    + rewrite <- J. apply sum3_ext; intro k. rewrite R, m_g_metric. reflexivity.
  - intro t'. unfold orient_cell. pose proof (fun i j => eq_trans (ccsl_gram t' ub i j) (eq_sym (ccsl_gram t ub i j))) as Q.
    destruct (calc_ub_ccsl t' ub) as [x1 x2 x3 y1 y2 y3 z1 z2 z3]. destruct (calc_ub_ccsl t ub) as [a1 a2 a3 b1 b2 b3 c1 c2 c3].
    pose proof (Q X1 X1) as Q1. pose proof (Q X2 X2) as Q2. pose proof (Q X3 X3) as Q3. pose proof (Q X1 X2) as Q4. pose proof (Q X1 X3) as Q5. pose proof (Q X2 X3) as Q6.
    unfold gram, sum3 in Q1, Q2, Q3, Q4, Q5, Q6. cbn [mget m_11 m_12 m_13 m_21 m_22 m_23 m_31 m_32 m_33] in Q1, Q2, Q3, Q4, Q5, Q6.
    rewrite Q1, Q2, Q3, Q4, Q5, Q6. reflexivity.
Qed.
(** U B = UB, U keeps scalar products and has the handedness of UB *)
Lemma gram_mul : forall a b c, is_mul a b c -> forall i j, gram c i j = sum3 (fun k => sum3 (fun l => b k i * gram a k l * b l j)).
Proof. intros a b c H i j. unfold gram. rewrite (sum3_ext _ (fun k => sum3 (fun l => a k l * b l i) * sum3 (fun l => a k l * b l j))) by (intro k; rewrite !H; reflexivity). unfold sum3. ring. Qed.
Lemma det_mul : forall a b c, is_mul a b c -> det3 c = det3 a * det3 b.
Proof. intros a b c H. unfold det3. rewrite !H. unfold sum3. ring. Qed.
Lemma orient_u_spec : forall t ub, det3 (mget ub) <> 0 -> let uc := get_unit_cell_parameters (orient_cell t ub) in let u := orient_u t ub in
  is_mul (mget u) (mget (calc_m_b uc)) (mget (calc_ub_ccsl t ub)) /\ (forall v w, dot (apply_to (mget u) v) (apply_to (mget u) w) = dot v w) /\
  det3 (mget u) = det3 (mget ub) / Rabs (det3 (mget ub)).
Proof.
  intros t ub D uc u. destruct (orient_cell_spec t ub D) as (N & _ & _ & R). fold uc in N, R.
  destruct (cell_agrees (orient_cell t ub) N) as (_ & _ & _ & _ & _ & _ & B & _). fold uc in B.
  assert (DB : det3 (mget (calc_m_b uc)) <> 0).
  { rewrite det_b_volume by exact N. pose proof (volume_pos uc N). pose proof (volume_prod uc N). intro Z. rewrite Z in H0. lra. }
  pose proof (np_inv_spec _ DB) as I. set (ib := np_inv (calc_m_b uc)) in *.
  assert (U : is_mul (mget (calc_ub_ccsl t ub)) (mget ib) (mget u)) by (unfold u, orient_u; rewrite B; apply product_2_mul).
  assert (UB : is_mul (mget u) (mget (calc_m_b uc)) (mget (calc_ub_ccsl t ub))).
  { intros i j. symmetry. rewrite (sum3_ext _ (fun k => sum3 (fun l => mget (calc_ub_ccsl t ub) i l * mget ib l k) * mget (calc_m_b uc) k j)) by (intro k; rewrite U; reflexivity).
    transitivity (sum3 (fun l => mget (calc_ub_ccsl t ub) i l * sum3 (fun k => mget ib l k * mget (calc_m_b uc) k j))). { unfold sum3. ring. }
    rewrite (sum3_ext _ (fun l => mget (calc_ub_ccsl t ub) i l * delta l j)) by (intro l; destruct I as [_ I]; rewrite I; reflexivity). destruct j; unfold sum3, delta; ring. }
  assert (G : forall i j, gram (mget u) i j = delta i j).
  { intros i j. rewrite (gram_mul _ _ _ U). 
    rewrite (sum3_ext _ (fun k => sum3 (fun l => mget ib k i * sum3 (fun p => mget (calc_m_b uc) p k * mget (calc_m_b uc) p l) * mget ib l j))).
    2:{ intro k. apply sum3_ext; intro l. rewrite bt_b_reciprocal by exact N. rewrite R, ccsl_gram. reflexivity. }
    transitivity (sum3 (fun p => sum3 (fun k => mget (calc_m_b uc) p k * mget ib k i) * sum3 (fun l => mget (calc_m_b uc) p l * mget ib l j))). { unfold sum3. ring. }
    destruct I as [I _]. rewrite (sum3_ext _ (fun p => delta p i * delta p j)) by (intro p; rewrite !I; reflexivity). destruct i, j; unfold sum3, delta; ring. }
  split; [exact UB|]. split.
  - intros v w. transitivity (sum3 (fun i => sum3 (fun j => v i * gram (mget u) i j * w j))). { unfold dot, apply_to, gram, sum3. ring. }
    rewrite (sum3_ext _ (fun i => sum3 (fun j => v i * delta i j * w j))) by (intro i; apply sum3_ext; intro j; rewrite G; reflexivity). unfold dot, sum3, delta. ring.
  - pose proof (det_mul _ _ _ UB) as E. rewrite ccsl_det in E.
    assert (U2 : det3 (mget u) * det3 (mget u) = 1).
    { transitivity (det3 (gram (mget u))). { unfold det3, gram, sum3. ring. } transitivity (det3 delta); [apply det3_ext; exact G|unfold det3, delta; ring]. }
    assert (PB : 0 < det3 (mget (calc_m_b uc))). { rewrite det_b_volume by exact N. pose proof (volume_pos uc N). unfold calc_volume_ruc. apply Rdiv_lt_0_compat; lra. }
    rewrite E. clear E. revert U2 PB. generalize (det3 (mget u)) (det3 (mget (calc_m_b uc))). intros d b E2 Pb.
    rewrite Rabs_mult, (Rabs_pos_eq b) by lra. assert (d = 1 \/ d = -1) as [->| ->] by (assert ((d - 1) * (d + 1) = 0) by lra; destruct (Rmult_integral _ _ H); [left|right]; lra).
    + rewrite Rabs_R1. field. lra.
    + rewrite Rabs_left1 by lra. field. lra.
Qed.
(** * scattering angles *)
Definition sense (beam axes : string) : R :=
  if Bool.eqb (String.eqb (lower (strip beam)) "left") (String.eqb (lower (strip axes)) "anticlockwise") then 1 else -1.
Lemma deg_shift : forall t, cos (deg (t + 360)) = cos (deg t) /\ sin (deg (t + 360)) = sin (deg t).
Proof. intro t. unfold deg. replace ((t + 360) * PI / 180) with (t * PI / 180 + 2 * INR 1 * PI) by (cbn; field). rewrite cos_period, sin_period. split; reflexivity. Qed.
Lemma deg_of : forall x, deg (x / PI * 180) = x.
Proof. intro x. unfold deg. pose proof PI_RGT_0. field. lra. Qed.
Lemma range_fix : forall t, -360 < t <= 360 -> let t' := if Rlt_dec 0 t then t else t + 360 in 0 < t' <= 360 /\ cos (deg t') = cos (deg t) /\ sin (deg t') = sin (deg t).
Proof.
  intros t H. cbv zeta. destruct (Rlt_dec 0 t).
  - repeat split; lra.
  - destruct (deg_shift t) as [C S]. rewrite C, S. repeat split; lra.
Qed.
Lemma angle_core : forall (q : V3 R) lam, 0 < lam ->
  let qq := Rsqr (v_1 q) + Rsqr (v_2 q) + Rsqr (v_3 q) in let X := - qq * lam / 2 in let y2 := qq - X ^ 2 - v_3 q ^ 2 in
  0 <= y2 -> let nu := asin (v_3 q * lam) in let gamma := arctan2 (sqrt y2) (X + 1 / lam) in let phi := arctan2 (sqrt y2) X - arctan2 (v_2 q) (v_1 q) in
  (forall i, k_out lam gamma nu i - k_in lam i = turn X3 phi (vget q) i) /\ - (PI / 2) <= nu <= PI / 2 /\ 0 <= gamma <= PI /\ - PI <= phi < 2 * PI.
Proof.
  intros q lam L qq X y2 Y0 nu gamma phi. pose proof PI_RGT_0 as PP.
  set (Y := sqrt y2) in *. assert (YP : 0 <= Y) by apply sqrt_pos. assert (YY : Y * Y = y2) by (apply sqrt_sqrt; exact Y0).
  assert (XL : X / lam * 2 = - qq) by (unfold X; field; lra).
  assert (R2 : X * X + Y * Y = v_1 q * v_1 q + v_2 q * v_2 q) by (rewrite YY; unfold y2, qq, Rsqr; ring).
  destruct (polar X Y) as [SA CA]. destruct (polar (v_1 q) (v_2 q)) as [SB CB]. rewrite <- R2 in SB, CB. set (r := sqrt (X * X + Y * Y)) in *.
  set (A := arctan2 Y X) in *. set (B := arctan2 (v_2 q) (v_1 q)) in *.
  set (kx := X + 1 / lam) in *.
  assert (KK : kx * kx + Y * Y + v_3 q * v_3 q = / lam * / lam).
  { unfold kx. rewrite YY. unfold y2. replace ((X + 1 / lam) * (X + 1 / lam) + (qq - X ^ 2 - v_3 q ^ 2) + v_3 q * v_3 q) with (qq + X / lam * 2 + / lam * / lam) by (field; lra). rewrite XL. ring. }
  assert (LI : lam * / lam = 1) by (field; lra). assert (LP : 0 < / lam) by (apply Rinv_0_lt_compat; exact L).
  assert (ZZ : (v_3 q * lam) * (v_3 q * lam) = 1 - lam * lam * (kx * kx + Y * Y)).
  { replace (v_3 q * lam * (v_3 q * lam)) with (lam * lam * (v_3 q * v_3 q)) by ring. replace (v_3 q * v_3 q) with (/ lam * / lam - (kx * kx + Y * Y)) by lra.
    replace (lam * lam * (/ lam * / lam - (kx * kx + Y * Y))) with ((lam * / lam) * (lam * / lam) - lam * lam * (kx * kx + Y * Y)) by ring. rewrite LI. ring. }
  assert (P2 : 0 <= kx * kx + Y * Y) by nra. assert (LL : 0 < lam * lam) by nra.
  assert (Z1 : -1 <= v_3 q * lam <= 1). { assert (0 <= lam * lam * (kx * kx + Y * Y)) by nra. nra. }
  assert (SN : sin nu = v_3 q * lam) by (apply sin_asin; exact Z1).
  pose proof (asin_bound (v_3 q * lam)) as NB. fold nu in NB.
  assert (CN : cos nu = lam * sqrt (kx * kx + Y * Y)).
  { assert (C0 : 0 <= cos nu) by (apply cos_ge_0; lra). pose proof (sin2_cos2 nu) as T. unfold Rsqr in T. rewrite SN, ZZ in T.
    assert (S0 : 0 <= sqrt (kx * kx + Y * Y)) by apply sqrt_pos. pose proof (sqrt_sqrt _ P2) as SQ.
    assert (C2 : cos nu * cos nu = (lam * sqrt (kx * kx + Y * Y)) * (lam * sqrt (kx * kx + Y * Y))).
    { transitivity (lam * lam * (sqrt (kx * kx + Y * Y) * sqrt (kx * kx + Y * Y))); [rewrite SQ; lra|ring]. }
    apply Rsqr_inj; [exact C0|apply Rmult_le_pos; lra|exact C2]. }
  destruct (polar kx Y) as [SG CG]. fold gamma in SG, CG.
  assert (CN' : cos nu / lam = sqrt (kx * kx + Y * Y)) by (rewrite CN; field; lra).
  split; [|split; [lra|]].
  - intro i. unfold k_out, k_in, turn, phi. rewrite cos_minus, sin_minus. destruct i; cbn [vget].
    + replace (cos nu * cos gamma / lam) with (cos gamma * (cos nu / lam)) by (field; lra). rewrite CN', CG. rewrite <- CB, <- SB.
      pose proof (sin2_cos2 B) as T. unfold Rsqr in T. transitivity X; [unfold kx; ring|]. rewrite <- CA. transitivity (cos A * r * (sin B * sin B + cos B * cos B)); [rewrite T; ring|ring].
    + replace (cos nu * sin gamma / lam) with (sin gamma * (cos nu / lam)) by (field; lra). rewrite CN', SG. rewrite <- CB, <- SB.
      pose proof (sin2_cos2 B) as T. unfold Rsqr in T. rewrite Rminus_0_r. rewrite <- SA. transitivity (sin A * r * (sin B * sin B + cos B * cos B)); [rewrite T; ring|ring].
    + rewrite SN. field. lra.
  - assert (HP : forall x, 0 <= arctan2 Y x).
    { intro x. unfold arctan2. destruct (Rlt_dec 0 x).
      - assert (0 <= Y / x) by (unfold Rdiv; apply Rmult_le_pos; [exact YP|left; apply Rinv_0_lt_compat; assumption]). destruct H as [H|H]; [left; rewrite <- atan_0; apply atan_increasing; exact H|rewrite <- H, atan_0; lra].
      - destruct (Rlt_dec x 0). + destruct (Rle_dec 0 Y); [|lra]. pose proof (atan_bound (Y / x)). lra. + destruct (Rlt_dec 0 Y); [lra|]. destruct (Rlt_dec Y 0); lra. }
    pose proof (arctan2_range kx Y). pose proof (arctan2_range X Y) as RA. pose proof (arctan2_range (v_1 q) (v_2 q)) as RB. fold gamma in H. fold A in RA. fold B in RB. pose proof (HP kx) as HG. fold gamma in HG. pose proof (HP X) as HA. fold A in HA.
    unfold phi. split; [lra|]. split; [|lra]. lra.
Qed.
Lemma q_sq : forall q : V3 R, sqrt (Rsqr (v_1 q) + Rsqr (v_2 q) + Rsqr (v_3 q)) ^ 2 = Rsqr (v_1 q) + Rsqr (v_2 q) + Rsqr (v_3 q).
Proof. intro q. pose proof (Rle_0_sqr (v_1 q)). pose proof (Rle_0_sqr (v_2 q)). pose proof (Rle_0_sqr (v_3 q)). rewrite <- Rsqr_pow2. apply Rsqr_sqrt. lra. Qed.
Lemma turn_ext : forall n t v w i, (forall j, v j = w j) -> turn n t v i = turn n t w i.
Proof. intros n t v w i H. destruct n, i; unfold turn; rewrite !H; reflexivity. Qed.
Lemma turn_cs : forall t t' v i, cos t = cos t' -> sin t = sin t' -> turn X3 t v i = turn X3 t' v i.
Proof. intros t t' v i C S. destruct i; unfold turn; rewrite ?C, ?S; reflexivity. Qed.
Lemma k_out_cs : forall lam g g' nu i, cos g = cos g' -> sin g = sin g' -> k_out lam g nu i = k_out lam g' nu i.
Proof. intros. destruct i; unfold k_out; congruence. Qed.
Lemma angle_value : forall ub hkl lam beam axes, 0 < lam -> let q := calc_product_matrix_vector ub hkl in
  let qq := Rsqr (v_1 q) + Rsqr (v_2 q) + Rsqr (v_3 q) in let X := - qq * lam / 2 in let y2 := qq - X ^ 2 - v_3 q ^ 2 in
  (y2 < 0 /\ calc_angle ub hkl lam beam axes = None) \/
  (0 <= y2 /\ exists g n p, calc_angle ub hkl lam beam axes = Some (sense beam axes * g, n, sense beam axes * p) /\
    0 < g <= 360 /\ -90 <= n <= 90 /\ 0 < p <= 360 /\ 0 <= sin (deg g) /\
    (forall i, k_out lam (deg g) (deg n) i - k_in lam i = turn X3 (deg p) (vget q) i) /\
    n = asin (v_3 q * lam) / PI * 180 /\ (let g0 := arctan2 (sqrt y2) (X + 1 / lam) / PI * 180 in g = if Rlt_dec 0 g0 then g0 else g0 + 360)).
Proof.
  intros ub hkl lam beam axes L q qq X y2. unfold calc_angle. fold q. cbv zeta. rewrite q_sq. fold qq. fold X. fold y2. pose proof PI_RGT_0 as PP.
  destruct (Rlt_dec y2 0) as [N|N]; [left; split; [exact N|reflexivity]|right]. split; [lra|].
  rewrite !Rminus_0_r.
  destruct (angle_core q lam L ltac:(fold qq X y2; lra)) as (K & NB & GB & PB). fold qq in K, GB, PB. fold X in K, GB, PB. fold y2 in K, GB, PB.
  set (nu := asin (v_3 q * lam)) in *. set (g0 := arctan2 (sqrt y2) (X + 1 / lam)) in *. set (p0 := arctan2 (sqrt y2) X - arctan2 (v_2 q) (v_1 q)) in *.
  assert (SC : forall x lo hi, lo * PI <= x <= hi * PI -> lo * 180 <= x / PI * 180 <= hi * 180).
  { intros x lo hi [A B]. assert (x = (x / PI) * PI) by (field; lra). rewrite H in A, B. split; nra. }
  pose proof (SC nu (- (1 / 2)) (1 / 2) ltac:(lra)) as N1. pose proof (SC g0 0 1 ltac:(lra)) as G1. pose proof (SC p0 (-1) 2 ltac:(lra)) as P1.
  destruct (range_fix (g0 / PI * 180) ltac:(lra)) as (G2 & GC & GS). destruct (range_fix (p0 / PI * 180) ltac:(lra)) as (P2 & PC & PS). rewrite deg_of in GC, GS, PC, PS.
  exists (if Rlt_dec 0 (g0 / PI * 180) then g0 / PI * 180 else g0 / PI * 180 + 360), (nu / PI * 180), (if Rlt_dec 0 (p0 / PI * 180) then p0 / PI * 180 else p0 / PI * 180 + 360).
  split.
  { unfold sense. destruct (String.eqb (lower (strip beam)) "left"), (String.eqb (lower (strip axes)) "anticlockwise"); cbn [andb negb Bool.eqb]; rewrite ?Rmult_1_l; try reflexivity; do 2 f_equal; try ring; f_equal; ring. }
  split; [exact G2|]. split; [lra|]. split; [exact P2|]. split; [rewrite GS; apply sin_ge_0; lra|]. split; [|split; reflexivity].
  intro i. rewrite (k_out_cs _ _ _ _ _ GC GS), (turn_cs _ _ _ _ PC PS), deg_of. apply K.
Qed.
Lemma sense_cases : forall b a, sense b a = 1 \/ sense b a = -1.
Proof. intros. unfold sense. destruct (Bool.eqb _ _); tauto. Qed.
Lemma sense_twice : forall b a x, sense b a * (sense b a * x) = x.
Proof. intros b a x. destruct (sense_cases b a) as [-> | ->]; ring. Qed.
Lemma angle_spec : forall ub hkl lam beam axes gamma nu phi, 0 < lam -> calc_angle ub hkl lam beam axes = Some (gamma, nu, phi) ->
  let s := sense beam axes in
  (forall i, k_out lam (deg (s * gamma)) (deg nu) i - k_in lam i = turn X3 (deg (s * phi)) (apply_to (mget ub) (vget hkl)) i) /\
  0 < s * gamma <= 360 /\ 0 <= sin (deg (s * gamma)) /\ -90 <= nu <= 90 /\ 0 < s * phi <= 360.
Proof.
  intros ub hkl lam beam axes gamma nu phi L E s. destruct (angle_value ub hkl lam beam axes L) as [[_ N]|(_ & g & n & p & V & G & NB & P & S & K & _)]; rewrite E in *; [discriminate|].
  injection V as -> -> ->. unfold s. rewrite !sense_twice. split; [|repeat split; lra]. intro i. rewrite K. apply turn_ext. intro j. apply prod_mv.
Qed.
Lemma turn_norm : forall t v, dot (turn X3 t v) (turn X3 t v) = dot v v.
Proof. intros. apply turn_dot. Qed.
Lemma angle_none : forall ub hkl lam beam axes, 0 < lam ->
  (calc_angle ub hkl lam beam axes = None <->
   forall t, let k := fun i => k_in lam i + turn X3 t (apply_to (mget ub) (vget hkl)) i in dot k k <> dot (k_in lam) (k_in lam)).
Proof.
  intros ub hkl lam beam axes L. destruct (angle_value ub hkl lam beam axes L) as [[Y N]|(_ & g & n & p & V & _ & _ & _ & _ & K & _)].
  - split; [|intros _; exact N]. intros _ t k E. set (q := calc_product_matrix_vector ub hkl) in *.
    assert (Q : forall i, turn X3 t (apply_to (mget ub) (vget hkl)) i = turn X3 t (vget q) i) by (intro i; apply turn_ext; intro j; symmetry; apply prod_mv).
    set (v := turn X3 t (vget q)) in *. assert (VV : dot v v = Rsqr (v_1 q) + Rsqr (v_2 q) + Rsqr (v_3 q)) by (unfold v; rewrite turn_norm, dot_sqr; reflexivity).
    assert (V3' : v X3 = v_3 q) by reflexivity.
    unfold dot, sum3 in E. unfold k in E. rewrite (Q X1), (Q X2), (Q X3) in E. unfold k_in in E. unfold dot, sum3 in VV. rewrite V3' in *.
    assert (VX : v X1 = - (Rsqr (v_1 q) + Rsqr (v_2 q) + Rsqr (v_3 q)) * lam / 2).
    { rewrite <- VV. assert (H : v X1 * v X1 + v X2 * v X2 + v_3 q * v_3 q = - 2 * v X1 * (1 / lam)) by (apply Rminus_diag_uniq; apply Rminus_diag_eq in E; rewrite <- E; ring). rewrite H. field. lra. }
    rewrite <- VX in Y. rewrite <- VV in Y. nra.
  - split; [rewrite V; discriminate|]. intro H. exfalso. apply (H (deg p)). clear H.
    assert (Q : forall i, k_in lam i + turn X3 (deg p) (apply_to (mget ub) (vget hkl)) i = k_out lam (deg g) (deg n) i).
    { intro i. rewrite (turn_ext _ _ _ (vget (calc_product_matrix_vector ub hkl))) by (intro j; symmetry; apply prod_mv). rewrite <- K. ring. }
    unfold dot, sum3. rewrite !Q. unfold k_out, k_in.
    pose proof (sin2_cos2 (deg g)) as T1. pose proof (sin2_cos2 (deg n)) as T2. unfold Rsqr in T1, T2.
    transitivity ((cos (deg n) * cos (deg n) * (sin (deg g) * sin (deg g) + cos (deg g) * cos (deg g)) + sin (deg n) * sin (deg n)) / (lam * lam)); [field; lra|]. rewrite T1, Rmult_1_r. rewrite (Rplus_comm (_ * _)), T2. field. lra.
Qed.
(** the horizontal frame of UB is irrelevant for gamma and nu *)
Lemma angle_frame : forall ub ub' hkl lam beam axes a, 0 < lam -> (forall i, apply_to (mget ub') (vget hkl) i = turn X3 a (apply_to (mget ub) (vget hkl)) i) ->
  option_map fst (calc_angle ub' hkl lam beam axes) = option_map fst (calc_angle ub hkl lam beam axes).
Proof.
  intros ub ub' hkl lam beam axes a L H.
  assert (Z : v_3 (calc_product_matrix_vector ub' hkl) = v_3 (calc_product_matrix_vector ub hkl)).
  { change (vget (calc_product_matrix_vector ub' hkl) X3 = vget (calc_product_matrix_vector ub hkl) X3). rewrite !prod_mv, H. reflexivity. }
  assert (QQ : Rsqr (v_1 (calc_product_matrix_vector ub' hkl)) + Rsqr (v_2 (calc_product_matrix_vector ub' hkl)) + Rsqr (v_3 (calc_product_matrix_vector ub' hkl)) = Rsqr (v_1 (calc_product_matrix_vector ub hkl)) + Rsqr (v_2 (calc_product_matrix_vector ub hkl)) + Rsqr (v_3 (calc_product_matrix_vector ub hkl))).
  { rewrite !dot_sqr. transitivity (dot (turn X3 a (vget (calc_product_matrix_vector ub hkl))) (turn X3 a (vget (calc_product_matrix_vector ub hkl)))); [|apply turn_norm].
    unfold dot. apply sum3_ext; intro i. rewrite prod_mv, H. rewrite (turn_ext _ _ (apply_to _ _) (vget (calc_product_matrix_vector ub hkl))) by (intro j; symmetry; apply prod_mv). reflexivity. }
  destruct (angle_value ub' hkl lam beam axes L) as [[Y N]|(Y & g & n & p & V & _ & _ & _ & _ & _ & E1 & E2)]; destruct (angle_value ub hkl lam beam axes L) as [[Y' N']|(Y' & g' & n' & p' & V' & _ & _ & _ & _ & _ & E1' & E2')].
  - rewrite N, N'. reflexivity.
  - exfalso. rewrite QQ, Z in Y. lra.
  - exfalso. rewrite QQ, Z in Y. lra.
  - rewrite V, V'. cbn [option_map fst]. do 3 f_equal.
    + rewrite E2, E2'. cbv zeta. rewrite QQ, Z. reflexivity.
    + rewrite E1, E1', Z. reflexivity.
Qed.

(** * the vertical direction *)
Lemma dot_gram : forall m, (forall v w, dot (apply_to m v) (apply_to m w) = dot v w) -> forall i j, gram m i j = delta i j.
Proof.
  intros m H i j. pose proof (H (axis i) (axis j)) as E. transitivity (dot (apply_to m (axis i)) (apply_to m (axis j))); [|rewrite E; destruct i, j; unfold dot, axis, sum3, delta; ring].
  destruct i, j; unfold gram, dot, apply_to, axis, sum3, delta; ring.
Qed.
Lemma gram_rows : forall m : M3 R, (forall i j, gram (mget m) i j = delta i j) -> forall i j, sum3 (fun k => mget m i k * mget m j k) = delta i j.
Proof.
  intros m G.
  assert (D : det3 (mget m) * det3 (mget m) = 1). { transitivity (det3 (gram (mget m))). { unfold det3, gram, sum3. ring. } transitivity (det3 delta); [apply det3_ext; exact G|unfold det3, delta; ring]. }
  assert (D0 : det3 (mget m) <> 0) by (intro Z; rewrite Z in D; lra). destruct (np_inv_spec m D0) as [I _]. set (n := np_inv m) in *.
  assert (T : forall k j, mget m j k = mget n k j).
  { intros k j. transitivity (sum3 (fun p => mget m p k * sum3 (fun l => mget m p l * mget n l j))).
    - rewrite (sum3_ext _ (fun p => mget m p k * delta p j)) by (intro p; rewrite I; reflexivity). destruct j; unfold sum3, delta; ring.
    - transitivity (sum3 (fun l => gram (mget m) k l * mget n l j)). { unfold gram, sum3. ring. } rewrite (sum3_ext _ (fun l => delta k l * mget n l j)) by (intro l; rewrite G; reflexivity). destruct k; unfold sum3, delta; ring. }
  intros i j. rewrite <- I. apply sum3_ext; intro k. rewrite (T k j). reflexivity.
Qed.
Lemma e_up_spec : forall u phi omega chi, (forall v w, dot (apply_to (mget u) v) (apply_to (mget u) w) = dot v w) ->
  let e := vget (calc_e_up u phi omega chi) in
  (forall i, turn X3 (- omega) (turn X2 chi (turn X3 (- phi) (apply_to (mget u) e))) i = axis X3 i) /\ dot e e = 1.
Proof.
  intros u phi omega chi H e. pose proof (gram_rows u (dot_gram _ H)) as R.
  set (w := fun i => match i with X1 => - sin chi * cos phi | X2 => - sin chi * sin phi | X3 => cos chi end).
  assert (E : forall i, e i = sum3 (fun k => mget u k i * w k)).
  { unfold e, calc_e_up. destruct u as [u1 u2 u3 u4 u5 u6 u7 u8 u9]. intro i. destruct i; unfold sum3, w; cbn; ring. }
  assert (U : forall i, apply_to (mget u) e i = w i).
  { intro i. unfold apply_to. rewrite (sum3_ext _ (fun k => mget u i k * sum3 (fun l => mget u l k * w l))) by (intro k; rewrite E; reflexivity).
    transitivity (sum3 (fun l => sum3 (fun k => mget u i k * mget u l k) * w l)). { unfold sum3. ring. } rewrite (sum3_ext _ (fun l => delta i l * w l)) by (intro l; rewrite R; reflexivity). destruct i; unfold sum3, delta; ring. }
  pose proof (sin2_cos2 phi) as T1. pose proof (sin2_cos2 chi) as T2. unfold Rsqr in T1, T2.
  split.
  - intro i. transitivity (turn X3 (- omega) (turn X2 chi (turn X3 (- phi) w)) i).
    { apply turn_ext; intro j. apply turn_ext; intro k. apply turn_ext. exact U. }
    destruct i; unfold turn, w, axis, delta; rewrite ?sin_neg, ?cos_neg.
    + transitivity (cos omega * (sin chi * cos chi - cos chi * sin chi * (sin phi * sin phi + cos phi * cos phi))); [ring|rewrite T1; ring].
    + transitivity (- sin omega * (sin chi * cos chi - cos chi * sin chi * (sin phi * sin phi + cos phi * cos phi))); [ring|rewrite T1; ring].
    + transitivity (cos chi * cos chi + sin chi * sin chi * (sin phi * sin phi + cos phi * cos phi)); [ring|rewrite T1, Rmult_1_r, Rplus_comm; exact T2].
  - rewrite <- H. transitivity (dot w w); [unfold dot; apply sum3_ext; intro i; rewrite U; reflexivity|]. unfold dot, sum3, w.
    transitivity (cos chi * cos chi + sin chi * sin chi * (sin phi * sin phi + cos phi * cos phi)); [ring|rewrite T1, Rmult_1_r, Rplus_comm; exact T2].
Qed.
Lemma e_up_zero : forall u i, vget (calc_e_up u 0 0 0) i = mget u X3 i.
Proof. intros [u1 u2 u3 u4 u5 u6 u7 u8 u9] i. unfold calc_e_up. rewrite cos_0, sin_0. destruct i; cbn; ring. Qed.
Lemma sq3_nonneg : forall x y z : R, 0 <= x * x + y * y + z * z.
Proof. intros. nra. Qed.
Lemma q2_spec : forall u hkl cell, (forall v w, dot (apply_to (mget u) v) (apply_to (mget u) w) = dot v w) -> nondegenerate (get_unit_cell_parameters cell) -> hkl <> mkV 0 0 0 ->
  exists t, 0 <= t <= PI /\ calc_q2 u hkl cell = (sin t) ^ 2 /\
    dot (apply_to (mget (calc_m_b (get_unit_cell_parameters cell))) (vget hkl)) (vget (calc_e_up u 0 0 0)) = 2 * cell_sthovl cell hkl * cos t.
Proof.
  intros u hkl cell H N Z. destruct (k_loc_spec cell hkl N Z) as [K1 K2]. set (e := vget (calc_e_up u 0 0 0)). destruct (e_up_spec u 0 0 0 H) as [_ E1]. fold e in E1.
  set (k := cell_k_loc cell hkl) in *. set (c := dot (vget k) e).
  assert (C : -1 <= c <= 1).
  { assert (Q : 0 <= (e X1 * vget k X2 - e X2 * vget k X1) * (e X1 * vget k X2 - e X2 * vget k X1) + (e X2 * vget k X3 - e X3 * vget k X2) * (e X2 * vget k X3 - e X3 * vget k X2) + (e X3 * vget k X1 - e X1 * vget k X3) * (e X3 * vget k X1 - e X1 * vget k X3)) by apply sq3_nonneg.
    replace ((e X1 * vget k X2 - e X2 * vget k X1) * (e X1 * vget k X2 - e X2 * vget k X1) + (e X2 * vget k X3 - e X3 * vget k X2) * (e X2 * vget k X3 - e X3 * vget k X2) + (e X3 * vget k X1 - e X1 * vget k X3) * (e X3 * vget k X1 - e X1 * vget k X3))
      with (dot e e * dot (vget k) (vget k) - c * c) in Q by (unfold c, dot, sum3; ring). rewrite E1, K1 in Q. nra. }
  exists (acos c). split; [apply acos_bound|]. assert (CA : cos (acos c) = c) by (apply cos_acos; exact C). split.
  - pose proof (sin2_cos2 (acos c)) as T. unfold Rsqr in T. rewrite CA in T. unfold calc_q2. fold k.
    replace (v_1 k * m_31 u + v_2 k * m_32 u + v_3 k * m_33 u) with c by (unfold c, dot, sum3, e; rewrite !e_up_zero; cbn; ring). lra.
  - rewrite CA. unfold dot. rewrite (sum3_ext _ (fun i => 2 * cell_sthovl cell hkl * vget k i * e i)) by (intro i; rewrite K2; reflexivity). unfold c, dot, sum3. ring.
Qed.
Lemma from_ccsl_raises : (forall t m, calc_matrix_from_ccsl t m = AttributeError) /\ forall u t abc, calc_ub u t abc = AttributeError.
Proof. split; reflexivity. Qed.
Lemma types_table : forall ub,
  (forall t, In t ["CCSL"; "6T2@LLB"; "X-YZ"; "XYZ"]%string -> calc_ub_ccsl t ub = ub) /\
  (forall t v i, In t ["5C1@LLB"; "-YXZ"]%string -> apply_to (mget (calc_ub_ccsl t ub)) v i = turn X3 (PI / 2) (apply_to (mget ub) v) i) /\
  (forall v i, apply_to (mget (calc_ub_ccsl "BusingLevy" ub)) v i = turn X3 (- (PI / 2)) (apply_to (mget ub) v) i).
Proof.
  intros [a1 a2 a3 b1 b2 b3 c1 c2 c3]. split; [|split].
  - intros t H. repeat (destruct H as [<-|H]; [reflexivity|]). destruct H.
  - intros t v i H. unfold turn. rewrite cos_PI2, sin_PI2. repeat (destruct H as [<-|H]; [destruct i; unfold apply_to, sum3; cbn; ring|]). destruct H.
  - intros v i. unfold turn. rewrite cos_neg, sin_neg, cos_PI2, sin_PI2. destruct i; unfold apply_to, sum3; cbn; ring.
Qed.
Definition ub_ex : M3 R := mkM (1/5) 0 (1/50) 0 (1/4) 0 0 (1/20) (1/10).
Lemma ub_met : det3 (mget ub_ex) <> 0 /\ exists r, calc_angle ub_ex (mkV 1 1 0) 1 "left" "anticlockwise" = Some r.
Proof.
  split; [unfold det3, ub_ex; cbn; lra|].
  destruct (angle_value ub_ex (mkV 1 1 0) 1 "left" "anticlockwise" ltac:(lra)) as [[Y _]|(_ & g & n & p & V & _)]; [exfalso|eexists; exact V].
  unfold calc_product_matrix_vector, ub_ex, Rsqr in Y; cbn in Y. lra.
Qed.

(** A tensor given along the unit vectors of the cell edges, in Cartesian axes (C98). *)
Lemma orthogonalised : forall cell, nondegenerate (get_unit_cell_parameters cell) -> forall m i j,
  let e := fun k x => vget (calc_position_by_coordinate cell (match k with X1 => mkV 1 0 0 | X2 => mkV 0 1 0 | X3 => mkV 0 0 1 end)) x / axis_len cell k in
  mget (cell_ortogonalize_matrix cell m) i j = sum3 (fun k => sum3 (fun l => mget m k l * e k i * e l j)).
Proof.
  intros cell N m i j. cbv zeta. unfold cell_ortogonalize_matrix, ortogonalize_matrix. rewrite rcrt_value.
  destruct (cell_agrees cell N) as (_ & _ & EN & _ & _ & _ & _ & EM). rewrite EN. unfold calc_position_by_coordinate. rewrite EM.
  pose proof (nd_facts _ N) as P. destruct P as (Pa & Pb & Pc & Qa & Qb & Qg & _ & Pp & _ & _ & Ta & Tb & Tg).
  unfold sum3, axis_len, calc_product_matrix_vector, calc_m_v, calc_m_m_norm, calc_m_m, get_unit_cell_parameters in *. cbn [u_a u_b u_c u_al u_be u_ga] in *.
  set (ph := calc_phi _) in *. clearbody ph. set (ca := cos _) in *. set (cb := cos _) in *. set (cg := cos _) in *. set (sa := sin _) in *.
  destruct m as [m1 m2 m3 m4 m5 m6 m7 m8 m9].
  destruct i, j; cbn [mget vget m_11 m_12 m_13 m_21 m_22 m_23 m_31 m_32 m_33 v_1 v_2 v_3]; field; repeat split; lra.
Qed.
