(** The Cell object (Model/CellObj.v) agrees with unit_cell.py (Model/UnitCell.v), and its functions do what they say. *)
From Coq Require Import Reals ZArith List Lra Lia Permutation Sorted.
From Verif Require Import Spec.Lin3 Spec.Cell Spec.Rotation Spec.Placement Model.UnitCell Model.Matrices Model.StructFactor Model.HklList Model.CellObj Proofs.UnitCellP Proofs.HklListP.
Import ListNotations.
Open Scope R_scope.

Lemma deg_rad : forall x, x * rad = x * PI / 180.
Proof. intro x. unfold rad. field. Qed.
Lemma deg_back : forall x, x * (180 / PI) * PI / 180 = x.
Proof. intro x. pose proof PI_RGT_0. field. lra. Qed.
Lemma minus_sq : forall a b, 0 < a -> 0 < b -> a * a = b * b -> a = b.
Proof. intros. nra. Qed.
Lemma cell_agrees : forall cell, nondegenerate (get_unit_cell_parameters cell) ->
  let uc := get_unit_cell_parameters cell in let o := form_cell cell in
  co_volume o = calc_volume_uc uc /\ (forall i j, mget (co_m_g o) i j = metric uc i j) /\ co_m_m_norm o = calc_m_m_norm uc /\
  get_unit_cell_parameters (co_reciprocal o) = calc_reciprocal uc /\ (forall i j, mget (co_m_g_reciprocal o) i j = metric (calc_reciprocal uc) i j) /\
  co_m_b_norm o = calc_m_b_norm uc /\ co_m_b o = calc_m_b uc /\ co_m_m o = calc_m_m uc.
Proof.
  intros cell N. cbv zeta.
  pose proof (recip_facts _ N) as F. pose proof (nd_facts _ N) as P. cbv zeta in F.
  destruct F as (Fa & Fb & Fc & Ca & Cb & Cg & Sa & Sb & Sg & _). destruct P as (Pa & Pb & Pc & Qa & Qb & Qg & _ & Pp & _ & _ & Ta & Tb & Tg).
  assert (V : calc_phi (get_unit_cell_parameters cell) = sqrt (1 - Rsqr (cos (u_al cell * rad)) - Rsqr (cos (u_be cell * rad)) - Rsqr (cos (u_ga cell * rad)) + 2 * cos (u_al cell * rad) * cos (u_be cell * rad) * cos (u_ga cell * rad))).
  { unfold calc_phi, calc_phi_sq, get_unit_cell_parameters; cbn [u_al u_be u_ga]. rewrite !deg_rad. reflexivity. }
  unfold form_cell; cbn [co_volume co_m_g co_m_m_norm co_reciprocal co_m_g_reciprocal co_m_b_norm co_m_b co_m_m]. rewrite <- V. clear V. rewrite !deg_rad, !deg_back.
  set (uc := get_unit_cell_parameters cell) in *.
  change (u_al cell * PI / 180) with (u_al uc). change (u_be cell * PI / 180) with (u_be uc). change (u_ga cell * PI / 180) with (u_ga uc).
  change (u_a cell) with (u_a uc). change (u_b cell) with (u_b uc). change (u_c cell) with (u_c uc).
  change (acos ((cos (u_be uc) * cos (u_ga uc) - cos (u_al uc)) / (sin (u_be uc) * sin (u_ga uc)))) with (u_al (calc_reciprocal uc)).
  change (acos ((cos (u_ga uc) * cos (u_al uc) - cos (u_be uc)) / (sin (u_ga uc) * sin (u_al uc)))) with (u_be (calc_reciprocal uc)).
  change (acos ((cos (u_al uc) * cos (u_be uc) - cos (u_ga uc)) / (sin (u_al uc) * sin (u_be uc)))) with (u_ga (calc_reciprocal uc)).
  change (u_a uc * u_b uc * u_c uc * calc_phi uc) with (calc_volume_uc uc).
  change (u_b uc * u_c uc * sin (u_al uc) / calc_volume_uc uc) with (u_a (calc_reciprocal uc)).
  change (u_c uc * u_a uc * sin (u_be uc) / calc_volume_uc uc) with (u_b (calc_reciprocal uc)).
  change (u_a uc * u_b uc * sin (u_ga uc) / calc_volume_uc uc) with (u_c (calc_reciprocal uc)).
  split; [reflexivity|]. split.
  { intros i j; destruct i, j; unfold metric, axis_len, axis_cos; cbn; ring. }
  split; [reflexivity|]. split.
  { unfold get_unit_cell_parameters at 1; cbn [u_a u_b u_c u_al u_be u_ga]. rewrite !deg_back. destruct (calc_reciprocal uc); reflexivity. }
  split. { intros i j; destruct i, j; unfold metric, axis_len, axis_cos; cbn [mget m_11 m_12 m_13 m_21 m_22 m_23 m_31 m_32 m_33]; ring. }
  rewrite ?Fa, ?Fb, ?Fc, ?Ca, ?Cb, ?Cg, ?Sa, ?Sb, ?Sg.
  clear Fa Fb Fc Ca Cb Cg Sa Sb Sg. unfold calc_m_b_norm, calc_m_b, calc_m_m. clear N. clearbody uc.
  destruct uc as [a b c al be ga]; cbn [u_a u_b u_c u_al u_be u_ga] in *. generalize dependent (calc_phi (mkU a b c al be ga)). intros ph Pp.
  generalize dependent (sin al). generalize dependent (sin be). generalize dependent (sin ga). intros sg Qg Tg sb Qb Tb sa Qa Ta.
  split; [|split]; f_equal; try (field; repeat split; lra).
Qed.
Lemma np_inv_spec : forall m, det3 (mget m) <> 0 -> is_inverse (mget m) (mget (np_inv m)).
Proof.
  intros [a b c d e f g h k] D. unfold np_inv, calc_determinant_matrix_ij, det3 in *. cbn [mget m_11 m_12 m_13 m_21 m_22 m_23 m_31 m_32 m_33] in *.
  assert (D' : a * e * k - a * f * h - b * d * k + b * f * g + c * d * h - c * e * g <> 0) by (intro Z; apply D; rewrite <- Z; ring). clear D.
  split; intros i j; destruct i, j; unfold sum3, delta; cbn [mget m_11 m_12 m_13 m_21 m_22 m_23 m_31 m_32 m_33]; field; exact D'.
Qed.
Lemma prod_mv : forall m v i, vget (calc_product_matrix_vector m v) i = apply_to (mget m) (vget v) i.
Proof. intros m v i. destruct i; unfold calc_product_matrix_vector, apply_to, sum3; cbn; ring. Qed.
Lemma vext : forall v w : V3 R, (forall i, vget v i = vget w i) -> v = w.
Proof. intros [a b c] [d e f] H. pose proof (H X1); pose proof (H X2); pose proof (H X3). cbn in *. congruence. Qed.
Lemma inverse_applies : forall m n : M3 R, is_inverse (mget m) (mget n) -> forall v, calc_product_matrix_vector n (calc_product_matrix_vector m v) = v.
Proof.
  intros m n [_ H] v. apply vext. intro i. rewrite prod_mv. unfold apply_to. rewrite (sum3_ext _ (fun k => mget n i k * apply_to (mget m) (vget v) k)) by (intro k; rewrite prod_mv; reflexivity).
  unfold apply_to. transitivity (sum3 (fun j => sum3 (fun k => mget n i k * mget m k j) * vget v j)). { unfold sum3. ring. }
  rewrite (sum3_ext _ (fun j => delta i j * vget v j)) by (intro j; rewrite H; reflexivity). destruct i; unfold sum3, delta; ring.
Qed.
Lemma position_round_trip : forall cell, nondegenerate (get_unit_cell_parameters cell) -> forall x,
  calc_coordinate_by_position cell (calc_position_by_coordinate cell x) = x /\ calc_position_by_coordinate cell (calc_coordinate_by_position cell x) = x.
Proof.
  intros cell N x. destruct (cell_agrees cell N) as (_ & _ & _ & _ & _ & _ & _ & M).
  assert (D : det3 (mget (co_m_m (form_cell cell))) <> 0) by (rewrite M, det_m_volume by exact N; pose proof (volume_pos _ N); lra).
  pose proof (np_inv_spec _ D) as I. split; [exact (inverse_applies _ _ I x)|exact (inverse_applies _ _ (inverse_sym _ _ I) x)].
Qed.
Lemma dot_apply : forall m v, dot (apply_to m v) (apply_to m v) = sum3 (fun i => sum3 (fun j => v i * sum3 (fun k => m k i * m k j) * v j)).
Proof. intros. unfold dot, apply_to, sum3. ring. Qed.
Lemma form_ext : forall (f g : ix -> ix -> R) v, (forall i j, f i j = g i j) -> sum3 (fun i => sum3 (fun j => v i * f i j * v j)) = sum3 (fun i => sum3 (fun j => v i * g i j * v j)).
Proof. intros f g v H. apply sum3_ext; intro i; apply sum3_ext; intro j. rewrite H. reflexivity. Qed.
Lemma position_length : forall cell, nondegenerate (get_unit_cell_parameters cell) -> forall x,
  let p := vget (calc_position_by_coordinate cell x) in
  dot p p = sum3 (fun i => sum3 (fun j => vget x i * metric (get_unit_cell_parameters cell) i j * vget x j)) /\ calc_length_sq cell x = dot p p.
Proof.
  intros cell N x p. destruct (cell_agrees cell N) as (_ & _ & _ & _ & _ & _ & _ & M).
  assert (E : dot p p = sum3 (fun i => sum3 (fun j => vget x i * metric (get_unit_cell_parameters cell) i j * vget x j))).
  { transitivity (dot (apply_to (mget (calc_m_m (get_unit_cell_parameters cell))) (vget x)) (apply_to (mget (calc_m_m (get_unit_cell_parameters cell))) (vget x))).
    - unfold dot. apply sum3_ext; intro i. unfold p, calc_position_by_coordinate. rewrite M, prod_mv. reflexivity.
    - rewrite dot_apply. apply form_ext. exact (mt_m_metric _ N). }
  split; [exact E|]. rewrite E. unfold calc_length_sq, length_expr, sum3, metric, axis_len, axis_cos, get_unit_cell_parameters; cbn. rewrite !deg_rad. ring.
Qed.
Lemma sthovl_agrees : forall cell hkl, cell_sthovl cell hkl = calc_sthovl hkl (get_unit_cell_parameters cell).
Proof. intros. unfold cell_sthovl. rewrite !deg_rad. reflexivity. Qed.
Lemma reciprocal_length : forall cell, nondegenerate (get_unit_cell_parameters cell) -> forall hkl,
  calc_reciprocal_length_sq cell hkl = (2 * cell_sthovl cell hkl) ^ 2.
Proof.
  intros cell N hkl. rewrite sthovl_agrees, sthovl_half. replace (2 * (calc_inv_d hkl (get_unit_cell_parameters cell) / 2)) with (calc_inv_d hkl (get_unit_cell_parameters cell)) by field.
  rewrite inv_d_sq by exact N. rewrite form_rg_q by exact N.
  destruct (cell_agrees cell N) as (_ & _ & _ & R & _). set (uc := get_unit_cell_parameters cell) in *.
  transitivity (sum3 (fun i => sum3 (fun j => vget hkl i * metric (calc_reciprocal uc) i j * vget hkl j))).
  - rewrite <- R. unfold calc_reciprocal_length_sq. cbv zeta. unfold length_expr. generalize (co_reciprocal (form_cell cell)). intro r. rewrite !deg_rad.
    unfold sum3, metric, axis_len, axis_cos, get_unit_cell_parameters; cbn. ring.
  - rewrite q_ccs_is_b_hkl. transitivity (dot (apply_to (mget (calc_m_b uc)) (vget hkl)) (apply_to (mget (calc_m_b uc)) (vget hkl))).
    + rewrite dot_apply. apply form_ext. intros i j. rewrite bt_b_reciprocal by exact N. rewrite <- recip_metric by exact N. symmetry; apply m_g_metric.
    + unfold dot. apply sum3_ext; intro i. destruct hkl as [h k l]. destruct (calc_m_b uc) as [b1 b2 b3 b4 b5 b6 b7 b8 b9]. destruct i; unfold apply_to, sum3, Model.MatrixOps.calc_m_v; cbn; ring.
Qed.
Lemma hkl_in_range_spec : forall cell smin smax, nondegenerate (get_unit_cell_parameters cell) ->
  let l := calc_hkl_in_range cell smin smax in
  (forall h, In h l <-> smin <= calc_sthovl (hkl_real h) (get_unit_cell_parameters cell) <= smax) /\ NoDup l /\ StronglySorted (fun g h => calc_sthovl (hkl_real g) (get_unit_cell_parameters cell) <= calc_sthovl (hkl_real h) (get_unit_cell_parameters cell)) l.
Proof.
  intros cell smin smax N. cbv zeta. unfold calc_hkl_in_range. set (s := fun h : V3 Z => cell_sthovl cell _).
  assert (S : forall h, s h = calc_sthovl (hkl_real h) (get_unit_cell_parameters cell)) by (intro h; unfold s; rewrite sthovl_agrees; reflexivity).
  split; [|split].
  - intro h. set (box := hkl_box _ _ _). pose proof (sort_by_perm _ s (filter (fun h => (rle smin (s h) && rle (s h) smax)%bool) box)) as P.
    split.
    + intro H. apply (Permutation_in _ P) in H. apply filter_In in H. destruct H as [_ H]. apply andb_prop in H. destruct H as [A B]. unfold rle in A, B.
      destruct (Rle_dec smin (s h)); [|discriminate]. destruct (Rle_dec (s h) smax); [|discriminate]. rewrite <- S. lra.
    + intros [A B]. apply (Permutation_in _ (Permutation_sym P)). apply filter_In. split; [exact (in_box _ h smax N B)|].
      rewrite <- S in A, B. unfold rle. destruct (Rle_dec smin (s h)); [|lra]. destruct (Rle_dec (s h) smax); [reflexivity|lra].
  - eapply Permutation_NoDup; [apply Permutation_sym, sort_by_perm|]. apply NoDup_filter, box_nodup.
  - match goal with |- StronglySorted _ (sort_by s ?l0) => generalize (sort_by_sorted _ s l0); generalize (sort_by s l0) end.
    intros l H. induction H; constructor; auto. eapply List.Forall_impl; [|eassumption]. intros y Hy. cbn in Hy. rewrite <- !S. exact Hy.
Qed.
(** * the unit scattering vector and the rotation that brings z to it *)
Lemma k_vector : forall cell hkl, nondegenerate (get_unit_cell_parameters cell) ->
  calc_product_matrix_vector (co_m_b (form_cell cell)) hkl = calc_q_ccs hkl (get_unit_cell_parameters cell).
Proof.
  intros cell hkl N. destruct (cell_agrees cell N) as (_ & _ & _ & _ & _ & _ & B & _). rewrite B, q_ccs_is_b_hkl.
  destruct hkl as [h k l]. destruct (calc_m_b _) as [b1 b2 b3 b4 b5 b6 b7 b8 b9]. reflexivity.
Qed.
Lemma dot_sqr : forall v : V3 R, Rsqr (v_1 v) + Rsqr (v_2 v) + Rsqr (v_3 v) = dot (vget v) (vget v).
Proof. intro v. unfold dot, sum3, Rsqr; cbn. ring. Qed.
Lemma k_loc_spec : forall cell hkl, nondegenerate (get_unit_cell_parameters cell) -> hkl <> mkV 0 0 0 ->
  let k := cell_k_loc cell hkl in
  dot (vget k) (vget k) = 1 /\ forall i, apply_to (mget (calc_m_b (get_unit_cell_parameters cell))) (vget hkl) i = 2 * cell_sthovl cell hkl * vget k i.
Proof.
  intros cell hkl N H. cbv zeta. unfold cell_k_loc. rewrite (k_vector _ _ N). cbv zeta. rewrite dot_sqr.
  rewrite <- (inv_d_norm hkl _ N). pose proof (inv_d_pos hkl _ N H) as P. pose proof (inv_d_norm hkl _ N) as E.
  assert (Q : calc_inv_d hkl (get_unit_cell_parameters cell) * calc_inv_d hkl (get_unit_cell_parameters cell) = dot (vget (calc_q_ccs hkl (get_unit_cell_parameters cell))) (vget (calc_q_ccs hkl (get_unit_cell_parameters cell)))).
  { rewrite E. apply sqrt_sqrt. rewrite <- dot_sqr. pose proof (Rle_0_sqr (v_1 (calc_q_ccs hkl (get_unit_cell_parameters cell)))). pose proof (Rle_0_sqr (v_2 (calc_q_ccs hkl (get_unit_cell_parameters cell)))). pose proof (Rle_0_sqr (v_3 (calc_q_ccs hkl (get_unit_cell_parameters cell)))). lra. }
  destruct (Req_EM_T _ 0) as [Z|_]; [lra|]. rewrite sthovl_agrees, sthovl_half.
  assert (V : forall i, apply_to (mget (calc_m_b (get_unit_cell_parameters cell))) (vget hkl) i = vget (calc_q_ccs hkl (get_unit_cell_parameters cell)) i).
  { intro i. rewrite <- k_vector by exact N. rewrite prod_mv. destruct (cell_agrees cell N) as (_ & _ & _ & _ & _ & _ & B & _). rewrite B. reflexivity. }
  clear E. generalize dependent (calc_inv_d hkl (get_unit_cell_parameters cell)). intros d P Q. generalize dependent (calc_q_ccs hkl (get_unit_cell_parameters cell)). intros q V Q.
  split.
  - unfold dot, sum3, divide in *. cbn in *. apply (Rmult_eq_reg_r (d * d)); [|nra]. rewrite Rmult_1_l. rewrite Q at 2. field. lra.
  - intro i. rewrite V. unfold divide. destruct i; cbn; field; lra.
Qed.
Lemma k_loc_zero : forall cell, nondegenerate (get_unit_cell_parameters cell) -> forall i, vget (cell_k_loc cell (mkV 0 0 0)) i = 0.
Proof.
  intros cell N i. unfold cell_k_loc. destruct (co_m_b (form_cell cell)) as [b1 b2 b3 b4 b5 b6 b7 b8 b9]. unfold calc_product_matrix_vector, divide; cbn.
  destruct i; cbn; unfold Rdiv; ring.
Qed.
Lemma sin_abs : forall x, Rabs (sin x) <= Rabs x.
Proof.
  intro x. destruct (Rtotal_order x 0) as [H|[H|H]].
  - rewrite <- (Rabs_Ropp (sin x)), <- (Rabs_Ropp x), <- sin_neg. destruct (Rlt_dec (- x) 1) as [L|L].
    + rewrite (Rabs_pos_eq (- x)) by lra. rewrite Rabs_pos_eq. left; apply sin_lt_x; lra. left; apply sin_gt_0; pose proof PI2_1; lra.
    + rewrite (Rabs_pos_eq (- x)) by lra. apply Rle_trans with 1; [apply Rabs_le; apply SIN_bound|lra].
  - subst. rewrite sin_0. lra.
  - destruct (Rlt_dec x 1) as [L|L].
    + rewrite (Rabs_pos_eq x) by lra. rewrite Rabs_pos_eq. left; apply sin_lt_x; lra. left; apply sin_gt_0; pose proof PI2_1; lra.
    + rewrite (Rabs_pos_eq x) by lra. apply Rle_trans with 1; [apply Rabs_le; apply SIN_bound|lra].
Qed.
Lemma cos_lipschitz : forall a b, Rabs (cos a - cos b) <= Rabs (a - b).
Proof.
  intros a b. rewrite form2. rewrite !Rabs_mult. rewrite (Rabs_left (-2)) by lra.
  pose proof (sin_abs ((a - b) / 2)) as S. assert (T : Rabs (sin ((a + b) / 2)) <= 1) by (apply Rabs_le; apply SIN_bound).
  replace (Rabs (a - b)) with (2 * Rabs ((a - b) / 2)). 2:{ unfold Rdiv. rewrite Rabs_mult, (Rabs_pos_eq (/ 2)) by lra. field. }
  pose proof (Rabs_pos (sin ((a - b) / 2))). pose proof (Rabs_pos (sin ((a + b) / 2))). nra.
Qed.
Lemma matrix_t_spec : forall cell hkl, nondegenerate (get_unit_cell_parameters cell) -> hkl <> mkV 0 0 0 ->
  exists t, cell_matrix_t cell hkl = Some t /\ is_rotation (mget t) /\
    forall i, Rabs (apply_to (mget t) (axis X3) i - vget (cell_k_loc cell hkl) i) <= 1 / 100000.
Proof.
  intros cell hkl N H. destruct (k_loc_spec cell hkl N H) as [U _]. unfold cell_matrix_t. generalize dependent (cell_k_loc cell hkl). intros [x y z] U.
  unfold dot, sum3 in U. cbn in U. cbv zeta. cbn [v_1 v_2 v_3].
  assert (Z : -1 <= z <= 1) by nra. set (be := acos z). assert (CB : cos be = z) by (apply cos_acos; lra).
  pose proof (acos_bound z) as AB. fold be in AB. assert (SB : 0 <= sin be) by (apply sin_ge_0; lra).
  assert (SS : sin be * sin be = x * x + y * y) by (pose proof (sin2_cos2 be) as T; unfold Rsqr in T; rewrite CB in T; lra).
  clearbody be.
  set (al := if Req_EM_T (sin be) 0 then 0 else _).
  assert (A : sin al * sin be = x /\ Rabs (- cos al * sin be - y) <= 1 / 100000).
  { unfold al. clear al. destruct (Req_EM_T (sin be) 0) as [E|E].
    - rewrite E in *. assert (x = 0) by nra. assert (y = 0) by nra. subst. rewrite sin_0. split; [ring|]. replace (- cos 0 * 0 - 0) with 0 by ring. rewrite Rabs_R0. lra.
    - assert (P : 0 < sin be) by lra. set (s := x * 1 / sin be). set (c := -1 * y * 1 / sin be).
      assert (SC : s * s + c * c = 1). { unfold s, c. apply (Rmult_eq_reg_r (sin be * sin be)); [|nra]. rewrite Rmult_1_l. rewrite SS at 2. field. lra. }
      assert (s = x / sin be) by (unfold s; field; lra). assert (c = - y / sin be) by (unfold c; field; lra).
      assert (X : x = s * sin be) by (unfold s; field; lra). assert (Y : y = - c * sin be) by (unfold c; field; lra).
      clearbody s c. assert (S1 : -1 <= s <= 1) by nra. assert (C1 : -1 <= c <= 1) by nra.
      destruct (Rlt_dec 1 s); [lra|]. destruct (Rlt_dec s (-1)); [lra|]. destruct (Rlt_dec 1 c); [lra|]. destruct (Rlt_dec c (-1)); [lra|].
      pose proof (cos_acos c C1) as CC. pose proof (sin_asin s S1) as AS.
      assert (SA : sin (acos c) * sin (acos c) = s * s) by (pose proof (sin2_cos2 (acos c)) as T; unfold Rsqr in T; rewrite CC in T; lra).
      assert (SP : 0 <= sin (acos c)) by (pose proof (acos_bound c); apply sin_ge_0; lra).
      assert (B1 : sin be <= 1) by apply SIN_bound.
      destruct (Rlt_dec _ (1 / 100000)) as [L|L].
      + rewrite AS. split; [lra|]. rewrite Y. replace (- cos (asin s) * sin be - - c * sin be) with ((c - cos (asin s)) * sin be) by ring.
        rewrite <- CC at 1. rewrite Rabs_mult, (Rabs_pos_eq (sin be)) by lra. pose proof (cos_lipschitz (acos c) (asin s)). pose proof (Rabs_pos (cos (acos c) - cos (asin s))). nra.
      + destruct (Rlt_dec 0 s).
        * rewrite CC. replace (sin (acos c)) with s by nra. split; [lra|]. rewrite Y. replace (- c * sin be - - c * sin be) with 0 by ring. rewrite Rabs_R0; lra.
        * replace (2 * PI - acos c) with (- acos c + 2 * INR 1 * PI) by (cbn; ring). rewrite sin_period, cos_period, sin_neg, cos_neg, CC.
          replace (sin (acos c)) with (- s) by nra. split; [lra|]. rewrite Y. replace (- c * sin be - - c * sin be) with 0 by ring. rewrite Rabs_R0; lra. }
  destruct A as [A1 A2]. clearbody al. rewrite CB, A1, cos_0, sin_0.
  destruct (Rlt_dec _ _) as [L|_].
  { exfalso. unfold Rsqr in L. assert ((- cos al * sin be - y) * (- cos al * sin be - y) <= 1 / 10000); [|lra].
    pose proof (Rle_abs (- cos al * sin be - y)). pose proof (Rle_abs (- (- cos al * sin be - y))) as R. rewrite Rabs_Ropp in R. nra. }
  eexists. split; [reflexivity|]. split.
  - pose proof (sin2_cos2 al) as T1. pose proof (sin2_cos2 be) as T2. unfold Rsqr in T1, T2. rewrite CB in T2. rewrite <- A1. clear - T1 T2.
    generalize dependent (sin al). generalize dependent (cos al). generalize dependent (sin be). intros sb T2 ca sa T1.
    split.
    + intros v w. unfold dot, apply_to, sum3; cbn [mget m_11 m_12 m_13 m_21 m_22 m_23 m_31 m_32 m_33].
      generalize (v X1) (v X2) (v X3) (w X1) (w X2) (w X3). intros v1 v2 v3 w1 w2 w3.
      transitivity (v1 * w1 * (sa * sa + ca * ca) + v2 * w2 * (z * z * (sa * sa + ca * ca) + sb * sb) + v3 * w3 * (sb * sb * (sa * sa + ca * ca) + z * z)
        + (v2 * w3 + v3 * w2) * (sb * z * (1 - (sa * sa + ca * ca)))); [ring|]. rewrite T1. transitivity (v1 * w1 + v2 * w2 * (sb * sb + z * z) + v3 * w3 * (sb * sb + z * z)); [ring|]. rewrite T2. ring.
    + unfold det3; cbn [mget m_11 m_12 m_13 m_21 m_22 m_23 m_31 m_32 m_33]. transitivity ((sa * sa + ca * ca) * (sb * sb + z * z)); [ring|]. rewrite T1, T2. ring.
  - intro i. unfold apply_to, axis, sum3, delta; destruct i; cbn [mget vget v_1 v_2 v_3 m_11 m_12 m_13 m_21 m_22 m_23 m_31 m_32 m_33].
    + match goal with |- Rabs ?e <= _ => replace e with 0 by ring end. rewrite Rabs_R0; lra.
    + match goal with |- Rabs ?e <= _ => replace e with (- cos al * sin be - y) by ring end. exact A2.
    + match goal with |- Rabs ?e <= _ => replace e with 0 by ring end. rewrite Rabs_R0; lra.
Qed.
Lemma matrix_t_zero : forall cell, nondegenerate (get_unit_cell_parameters cell) -> cell_matrix_t cell (mkV 0 0 0) = None.
Proof.
  intros cell N. pose proof (k_loc_zero cell N) as K. unfold cell_matrix_t. generalize dependent (cell_k_loc cell (mkV 0 0 0)). intros [x y z] K.
  pose proof (K X1) as K1. pose proof (K X2) as K2. pose proof (K X3) as K3. cbn in K1, K2, K3. subst. clear K. cbv zeta. cbn [v_1 v_2 v_3].
  rewrite acos_0, sin_PI2, cos_PI2. match goal with |- context[sin ?e * 1 - 0] => generalize e end. intro al.
  destruct (Rlt_dec (1 / 10000) _) as [L0|L]; [reflexivity|]. exfalso. apply L. pose proof (sin2_cos2 al) as T. unfold Rsqr in *. nra.
Qed.
(** * the closest distance *)
Lemma int_part_b : forall x, IZR (Int_part x) <= x < IZR (Int_part x) + 1.
Proof. intro x. pose proof (base_Int_part x). lra. Qed.
Lemma closest_diff_spec : forall x y, 0 <= closest_diff x y /\ (exists n : Z, closest_diff x y = Rabs (x - y + IZR n)) /\ forall n : Z, closest_diff x y <= Rabs (x - y + IZR n).
Proof.
  intros x y. unfold closest_diff, mod_1. pose proof (int_part_b x) as Bx. pose proof (int_part_b y) as By.
  generalize dependent (Int_part x). intros p Bx. generalize dependent (Int_part y). intros q By.
  set (d := x - IZR p - (y - IZR q)). assert (E : x - y = d + IZR (p - q)) by (unfold d; rewrite minus_IZR; ring).
  assert (D : -1 < d < 1) by (unfold d; lra). clearbody d. rewrite E. clear E.
  assert (A : forall n : Z, Rabs (d + IZR (p - q) + IZR n) = Rabs (d + IZR (p - q + n))) by (intro n; rewrite plus_IZR; f_equal; ring).
  assert (G : forall m : Z, (if Rlt_dec (Rabs d) (1 / 2) then Rabs d else 1 - Rabs d) <= Rabs (d + IZR m)).
  { intro m. destruct (Z.lt_total m 0) as [L|[L|L]].
    - assert (IZR m <= -1) by (apply IZR_le; lia). rewrite (Rabs_left1 (d + IZR m)) by lra. destruct (Rlt_dec _ _) as [R|R].
      + destruct (Rle_dec 0 d); [rewrite Rabs_pos_eq in * by lra|rewrite Rabs_left1 in * by lra]; lra.
      + destruct (Rle_dec 0 d); [rewrite Rabs_pos_eq in * by lra|rewrite Rabs_left1 in * by lra]; lra.
    - subst. rewrite Rplus_0_r. destruct (Rlt_dec _ _); lra.
    - assert (1 <= IZR m) by (apply IZR_le; lia). rewrite (Rabs_pos_eq (d + IZR m)) by lra. destruct (Rlt_dec _ _) as [R|R].
      + destruct (Rle_dec 0 d); [rewrite Rabs_pos_eq in * by lra|rewrite Rabs_left1 in * by lra]; lra.
      + destruct (Rle_dec 0 d); [rewrite Rabs_pos_eq in * by lra|rewrite Rabs_left1 in * by lra]; lra. }
  split; [|split].
  - destruct (Rlt_dec _ _); [apply Rabs_pos|]. assert (Rabs d <= 1) by (apply Rabs_le; lra). lra.
  - destruct (Rlt_dec _ _) as [R|R].
    + exists (q - p)%Z. rewrite A. replace (p - q + (q - p))%Z with 0%Z by lia. rewrite Rplus_0_r. reflexivity.
    + destruct (Rle_dec 0 d).
      * exists (q - p - 1)%Z. rewrite A. replace (p - q + (q - p - 1))%Z with (-1)%Z by lia. rewrite (Rabs_pos_eq d), Rabs_left1 by lra. lra.
      * exists (q - p + 1)%Z. rewrite A. replace (p - q + (q - p + 1))%Z with 1%Z by lia. rewrite (Rabs_left1 d), Rabs_pos_eq by lra. lra.
  - intro n. rewrite A. apply G.
Qed.
Lemma ortho_m : forall a b c, 0 < a -> 0 < b -> 0 < c -> calc_m_m (get_unit_cell_parameters (mkU a b c 90 90 90)) = mkM a 0 0 0 b 0 0 0 c /\ nondegenerate (get_unit_cell_parameters (mkU a b c 90 90 90)).
Proof.
  intros a b c A B C. pose proof PI_RGT_0 as P. unfold get_unit_cell_parameters; cbn [u_a u_b u_c u_al u_be u_ga]. replace (90 * PI / 180) with (PI / 2) by field.
  split.
  - unfold calc_m_m, calc_phi, calc_phi_sq; cbn [u_a u_b u_c u_al u_be u_ga]. rewrite cos_PI2, sin_PI2.
    replace (1 - 0² - 0² - 0² + 2 * 0 * 0 * 0) with 1 by (unfold Rsqr; ring). rewrite sqrt_1. f_equal; field.
  - unfold nondegenerate; cbn [u_a u_b u_c u_al u_be u_ga]. rewrite cos_PI2. repeat split; lra.
Qed.
Lemma closest_orthogonal : forall a b c f1 f2, 0 < a -> 0 < b -> 0 < c -> let cell := mkU a b c 90 90 90 in
  (exists n, closest_distance_between_fractions cell f1 f2 = image_distance (get_unit_cell_parameters cell) f1 f2 n) /\
  forall n, closest_distance_between_fractions cell f1 f2 <= image_distance (get_unit_cell_parameters cell) f1 f2 n.
Proof.
  intros a b c f1 f2 A B C cell. destruct (ortho_m a b c A B C) as [M N]. fold cell in M, N.
  destruct (cell_agrees cell N) as (_ & _ & _ & _ & _ & _ & _ & E). unfold closest_distance_between_fractions. rewrite dot_sqr.
  assert (G : forall n, image_distance (get_unit_cell_parameters cell) f1 f2 n =
    sqrt (a * a * Rsqr (Rabs (v_1 f1 - v_1 f2 + IZR (v_1 n))) + b * b * Rsqr (Rabs (v_2 f1 - v_2 f2 + IZR (v_2 n))) + c * c * Rsqr (Rabs (v_3 f1 - v_3 f2 + IZR (v_3 n))))).
  { intro n. unfold image_distance. f_equal. rewrite <- !Rsqr_abs. rewrite (form_ext _ (fun i j => sum3 (fun k => mget (mkM a 0 0 0 b 0 0 0 c) k i * mget (mkM a 0 0 0 b 0 0 0 c) k j))).
    - unfold sum3, Rsqr; cbn. ring. - intros i j. rewrite <- M. symmetry. apply mt_m_metric. exact N. }
  destruct (closest_diff_spec (v_1 f1) (v_1 f2)) as (P1 & [n1 E1] & L1). destruct (closest_diff_spec (v_2 f1) (v_2 f2)) as (P2 & [n2 E2] & L2). destruct (closest_diff_spec (v_3 f1) (v_3 f2)) as (P3 & [n3 E3] & L3).
  assert (D : forall x y z, dot (vget (calc_position_by_coordinate cell (mkV x y z))) (vget (calc_position_by_coordinate cell (mkV x y z))) = a * a * Rsqr x + b * b * Rsqr y + c * c * Rsqr z).
  { intros x y z. unfold calc_position_by_coordinate. rewrite E, M. unfold dot, sum3, calc_product_matrix_vector, Rsqr; cbn. ring. }
  rewrite D. split.
  - exists (mkV n1 n2 n3). rewrite G. cbn [v_1 v_2 v_3]. rewrite <- E1, <- E2, <- E3. reflexivity.
  - intro n. rewrite G. apply sqrt_le_1_alt. pose proof (L1 (v_1 n)) as Q1. pose proof (L2 (v_2 n)) as Q2. pose proof (L3 (v_3 n)) as Q3.
    pose proof (Rsqr_incr_1 _ _ Q1 P1 (Rabs_pos _)). pose proof (Rsqr_incr_1 _ _ Q2 P2 (Rabs_pos _)). pose proof (Rsqr_incr_1 _ _ Q3 P3 (Rabs_pos _)).
    repeat apply Rplus_le_compat; apply Rmult_le_compat_l; auto; nra.
Qed.
Lemma cos_120 : cos (120 * PI / 180) = - (1 / 2).
Proof. replace (120 * PI / 180) with (PI - PI / 3) by field. rewrite Rtrigo_facts.cos_pi_minus, cos_PI3. lra. Qed.
Lemma hex_form : forall x y : Z, (2 <= (3 * x - 1) * (3 * x - 1) + (3 * y - 2) * (3 * y - 2) - (3 * x - 1) * (3 * y - 2))%Z.
Proof.
  intros x y. set (f := ((3 * x - 1) * (3 * x - 1) + (3 * y - 2) * (3 * y - 2) - (3 * x - 1) * (3 * y - 2))%Z).
  assert (H : (f = 3 * (3 * x * x + 3 * y * y - 3 * x * y - 3 * y + 1))%Z) by (unfold f; ring).
  assert (P : (4 * f = (2 * (3 * x - 1) - (3 * y - 2)) * (2 * (3 * x - 1) - (3 * y - 2)) + 3 * ((3 * y - 2) * (3 * y - 2)))%Z) by (unfold f; ring).
  clearbody f. assert (0 < (3 * y - 2) * (3 * y - 2))%Z by (assert (3 * y - 2 <> 0)%Z by lia; nia). pose proof (Z.square_nonneg (2 * (3 * x - 1) - (3 * y - 2))).
  generalize dependent ((3 * y - 2) * (3 * y - 2))%Z. generalize dependent ((2 * (3 * x - 1) - (3 * y - 2)) * (2 * (3 * x - 1) - (3 * y - 2)))%Z. generalize dependent (3 * x * x + 3 * y * y - 3 * x * y - 3 * y + 1)%Z. intros. lia.
Qed.
Lemma closest_hexagonal : exists cell f1 f2, nondegenerate (get_unit_cell_parameters cell) /\
  forall n, closest_distance_between_fractions cell f1 f2 < image_distance (get_unit_cell_parameters cell) f1 f2 n.
Proof.
  exists (mkU 1 1 1 90 90 120), (mkV 0 0 0), (mkV (1 / 3) (2 / 3) 0). set (cell := mkU 1 1 1 90 90 120). pose proof PI_RGT_0 as P.
  assert (N : nondegenerate (get_unit_cell_parameters cell)).
  { unfold nondegenerate, get_unit_cell_parameters, cell; cbn [u_a u_b u_c u_al u_be u_ga]. rewrite cos_120. replace (90 * PI / 180) with (PI / 2) by field. rewrite cos_PI2. repeat split; lra. }
  split; [exact N|]. intro n. unfold closest_distance_between_fractions. rewrite dot_sqr. rewrite (proj1 (position_length cell N _)).
  assert (I0 : forall x, 0 <= x < 1 -> mod_1 x = x).
  { intros x Hx. unfold mod_1. replace (Int_part x) with 0%Z; [ring|]. pose proof (int_part_b x) as [L U].
    assert (IZR (Int_part x) < 1) by lra. assert (-1 < IZR (Int_part x)) by lra. apply (lt_IZR _ 1) in H. apply (lt_IZR (-1)) in H0. lia. }
  assert (C1 : closest_diff 0 (1 / 3) = 1 / 3). { unfold closest_diff. rewrite !I0 by lra. rewrite Rabs_left1 by lra. destruct (Rlt_dec _ _); lra. }
  assert (C2 : closest_diff 0 (2 / 3) = 1 / 3). { unfold closest_diff. rewrite !I0 by lra. rewrite Rabs_left1 by lra. destruct (Rlt_dec _ _); lra. }
  assert (C3 : closest_diff 0 0 = 0). { unfold closest_diff. rewrite !I0 by lra. rewrite Rminus_0_r, Rabs_R0. destruct (Rlt_dec _ _); lra. }
  cbn [v_1 v_2 v_3]. rewrite C1, C2, C3. unfold image_distance.
  assert (Q : forall v : ix -> R, sum3 (fun i => sum3 (fun j => v i * metric (get_unit_cell_parameters cell) i j * v j)) = v X1 * v X1 + v X2 * v X2 - v X1 * v X2 + v X3 * v X3).
  { intro v. unfold sum3, metric, axis_len, axis_cos, get_unit_cell_parameters, cell; cbn [u_a u_b u_c u_al u_be u_ga]. rewrite cos_120. replace (90 * PI / 180) with (PI / 2) by field. rewrite cos_PI2. field. }
  rewrite !Q. cbn [vget v_1 v_2 v_3]. apply sqrt_lt_1_alt. split; [lra|].
  pose proof (hex_form (v_1 n) (v_2 n)) as H. apply IZR_le in H. rewrite !minus_IZR, !plus_IZR, !mult_IZR, !minus_IZR, !mult_IZR in H.
  generalize dependent (IZR (v_1 n)). intro x. generalize (IZR (v_2 n)) (IZR (v_3 n)). intros y z H. nra.
Qed.
