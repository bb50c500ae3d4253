(** Proofs about the magnetization ellipsoid. *)
From Coq Require Import Reals Lra Psatz Bool String.
From Coquelicot Require Import Coquelicot.
From Verif Require Import Spec.Lin3 Spec.Cell Spec.Deriv Spec.Ellipsoid Model.MatrixOps Model.UnitCell Model.Vibration Model.LocalSusc
  Proofs.MatrixOpsP Proofs.UnitCellP.
Open Scope R_scope.

(** * U_ij of the ellipsoid *)
Lemma det_of_inverse : forall a b, is_inverse a b -> det3 a * det3 b = 1.
Proof.
  intros a b [H _].
  assert (E : det3 a * det3 b = det3 (fun i j => sum3 (fun k => a i k * b k j))) by (unfold det3, sum3; ring).
  rewrite E. unfold det3. rewrite !H. unfold delta. ring.
Qed.

Lemma s3_ext : forall f g, (forall k, f k = g k) -> sum3 f = sum3 g.
Proof. intros f g H. unfold sum3. rewrite !H. reflexivity. Qed.
Lemma inverse_sym : forall a b, is_inverse a b -> is_inverse b a.
Proof. intros a b [H1 H2]. split; assumption. Qed.

Lemma hh_spec : forall chi uc, nondegenerate uc -> forall i j,
  sum3 (fun k => mget (calc_m_b_norm uc) i k * mget (calc_m_q_inv_m (calc_m_inv_b_norm uc) chi) k j)
  = sum3 (fun k => qget chi i k * mget (calc_m_b_norm uc) k j).
Proof.
  intros chi uc N i j.
  pose proof (b_norm_inverse uc N) as [BI IB].
  assert (D : det3 (mget (calc_m_inv_b_norm uc)) <> 0).
  { intro E. pose proof (det_of_inverse _ _ (conj BI IB)) as X. rewrite E in X. lra. }
  pose proof (fun i j => m_q_inv_m_spec (calc_m_inv_b_norm uc) chi i j D) as S.
  remember (mget (calc_m_b_norm uc)) as b. remember (mget (calc_m_inv_b_norm uc)) as c.
  remember (mget (calc_m_q_inv_m (calc_m_inv_b_norm uc) chi)) as h.
  remember (qget chi) as x. clear - BI IB S.
  (* h c = c x, b c = 1, c b = 1 : b h = b h c b = b c x b = x b *)
  transitivity (sum3 (fun k => sum3 (fun l => sum3 (fun n => b i k * (h k l * c l n) * b n j)))).
  - assert (H : forall k, sum3 (fun l => sum3 (fun n => h k l * c l n * b n j)) = h k j).
    { intro k. transitivity (sum3 (fun l => h k l * sum3 (fun n => c l n * b n j))); [unfold sum3; ring|].
      assert (E : forall l, sum3 (fun n => c l n * b n j) = delta l j) by (intro l; apply IB).
      unfold sum3 at 1. rewrite !E. destruct j; unfold delta; ring. }
    transitivity (sum3 (fun k => b i k * sum3 (fun l => sum3 (fun n => h k l * c l n * b n j)))).
    + apply s3_ext. intro k. rewrite H. reflexivity.
    + unfold sum3. ring.
  - transitivity (sum3 (fun n => sum3 (fun k => b i k * sum3 (fun l => h k l * c l n)) * b n j)); [unfold sum3; ring|].
    assert (E : forall n, sum3 (fun k => b i k * sum3 (fun l => h k l * c l n)) = x i n).
    { intro n. transitivity (sum3 (fun k => b i k * sum3 (fun l => c k l * x l n))).
      - apply s3_ext. intro k. rewrite S. reflexivity.
      - transitivity (sum3 (fun l => sum3 (fun k => b i k * c k l) * x l n)); [unfold sum3; ring|].
        assert (F : forall l, sum3 (fun k => b i k * c k l) = delta i l) by (intro l; apply BI).
        unfold sum3 at 1. rewrite !F. destruct i; unfold delta; ring. }
    apply s3_ext. intro n. rewrite E. reflexivity.
Qed.

Lemma as_u_elements : forall chi uc, nondegenerate uc -> forall i j,
  qget (calc_magnetization_ellipsoid_as_u chi uc) i j
  = sum3 (fun k => sum3 (fun n => qget chi k n * mget (calc_m_b_norm uc) n i) * sum3 (fun n => qget chi k n * mget (calc_m_b_norm uc) n j)).
Proof.
  intros chi uc N i j. unfold calc_magnetization_ellipsoid_as_u. cbv zeta. rewrite mt_q_m_spec.
  pose proof (hh_spec chi uc N) as H. pose proof (bn_metric uc N) as G.
  transitivity (sum3 (fun k => sum3 (fun n => mget (calc_m_b_norm uc) k n * mget (calc_m_q_inv_m (calc_m_inv_b_norm uc) chi) n i)
     * sum3 (fun n => mget (calc_m_b_norm uc) k n * mget (calc_m_q_inv_m (calc_m_inv_b_norm uc) chi) n j))).
  - transitivity (sum3 (fun k => sum3 (fun l => mget (calc_m_q_inv_m (calc_m_inv_b_norm uc) chi) k i * sum3 (fun n => mget (calc_m_b_norm uc) n k * mget (calc_m_b_norm uc) n l) * mget (calc_m_q_inv_m (calc_m_inv_b_norm uc) chi) l j))).
    + apply s3_ext. intro k. apply s3_ext. intro l. rewrite G. reflexivity.
    + unfold sum3. ring.
  - apply s3_ext. intro k. rewrite !H. reflexivity.
Qed.

Lemma as_u_is_induced_moment : forall chi uc h, nondegenerate uc ->
  let f := fun i => sum3 (fun k => mget (calc_m_b_norm uc) i k * vget h k) in
  form_of (qget (calc_magnetization_ellipsoid_as_u chi uc)) (vget h)
  = dot (moment_of (qget chi) f) (moment_of (qget chi) f).
Proof.
  intros chi uc h N f. unfold form_of.
  transitivity (sum3 (fun i => sum3 (fun j => vget h i * sum3 (fun k => sum3 (fun n => qget chi k n * mget (calc_m_b_norm uc) n i) * sum3 (fun n => qget chi k n * mget (calc_m_b_norm uc) n j)) * vget h j))).
  { apply s3_ext; intro i; apply s3_ext; intro j. rewrite as_u_elements by exact N. reflexivity. }
  unfold f, moment_of, dot, sum3. ring.
Qed.

Lemma q6_ext : forall a b : Q6 R, (forall i j, qget a i j = qget b i j) -> a = b.
Proof.
  intros [a1 a2 a3 a4 a5 a6] [b1 b2 b3 b4 b5 b6] H.
  pose proof (H X1 X1). pose proof (H X2 X2). pose proof (H X3 X3). pose proof (H X1 X2). pose proof (H X1 X3). pose proof (H X2 X3).
  cbn in *. congruence.
Qed.

Lemma as_u_is_adp_of_square : forall chi uc, nondegenerate uc ->
  calc_magnetization_ellipsoid_as_u chi uc = transform_ccs_to_reciprocal_norm (calc_q_sq chi) uc.
Proof.
  intros chi uc N. apply q6_ext. intros i j. rewrite as_u_elements by exact N.
  unfold transform_ccs_to_reciprocal_norm. rewrite m_q_mt_spec.
  assert (E : forall a b, mget (stack_transposed (calc_m_b_norm uc)) a b = mget (calc_m_b_norm uc) b a).
  { intros a b. unfold stack_transposed. destruct (calc_m_b_norm uc). destruct a, b; reflexivity. }
  assert (Q : forall a b, qget (calc_q_sq chi) a b = sum3 (fun k => qget chi a k * qget chi k b)) by (intros; apply q_sq_spec).
  transitivity (sum3 (fun k => sum3 (fun l => mget (calc_m_b_norm uc) k i * sum3 (fun n => qget chi k n * qget chi n l) * mget (calc_m_b_norm uc) l j))).
  2: { apply s3_ext; intro k; apply s3_ext; intro l. rewrite !E, Q. reflexivity. }
  generalize (mget (calc_m_b_norm uc)). intro b. destruct chi as [c1 c2 c3 c4 c5 c6].
  unfold sum3, qget. cbn. ring.
Qed.

Lemma form_sq : forall (chi : Q6 R) v, form_of (qget (calc_q_sq chi)) v = dot (moment_of (qget chi) v) (moment_of (qget chi) v).
Proof.
  intros chi v. unfold form_of.
  transitivity (sum3 (fun i => sum3 (fun j => v i * sum3 (fun k => qget chi i k * qget chi k j) * v j))).
  { apply s3_ext; intro i; apply s3_ext; intro j. rewrite q_sq_spec. reflexivity. }
  destruct chi. unfold moment_of, dot, sum3, qget. cbn. ring.
Qed.

(** the surface drawn for the tensor is the set of moments induced by unit fields *)
Lemma drawn_surface : forall chi uc w f, nondegenerate uc ->
  is_inverse (qget (transform_reciprocal_norm_to_ccs (calc_magnetization_ellipsoid_as_u chi uc) uc)) w ->
  form_of w (moment_of (qget chi) f) = dot f f.
Proof.
  intros chi uc w f N. rewrite as_u_is_adp_of_square by exact N.
  assert (E : transform_reciprocal_norm_to_ccs (transform_ccs_to_reciprocal_norm (calc_q_sq chi) uc) uc = calc_q_sq chi).
  { destruct (roundtrips (calc_q_sq chi) uc N) as (R1 & R2 & R3 & R4 & R5 & R6 & R7 & R8); assumption. }
  rewrite E. clear E. intros [HW WH].
  assert (Q : forall a b, qget (calc_q_sq chi) a b = sum3 (fun k => qget chi a k * qget chi k b)) by (intros; apply q_sq_spec).
  (* chi chi w = 1 and w chi chi = 1: chi w chi = 1 since chi is invertible *)
  assert (K : forall i j, sum3 (fun k => qget chi i k * sum3 (fun l => w k l * qget chi l j)) = delta i j).
  { (* left inverse of chi is (w chi) ; right inverse is (chi w) ; w chi = (w chi)(chi chi w) = chi w ... *)
    assert (P : forall i j, sum3 (fun k => w i k * qget chi k j) = sum3 (fun k => qget chi i k * w k j)).
    { intros i j.
      transitivity (sum3 (fun k => w i k * sum3 (fun l => qget chi k l * sum3 (fun n => qget (calc_q_sq chi) l n * w n j)))).
      - apply s3_ext; intro k. f_equal.
        transitivity (sum3 (fun l => qget chi k l * delta l j)); [destruct j; unfold sum3, delta; ring|]. apply s3_ext; intro l. rewrite HW. reflexivity.
      - transitivity (sum3 (fun m => sum3 (fun k => w i k * qget (calc_q_sq chi) k m) * sum3 (fun n => qget chi m n * w n j))).
        + transitivity (sum3 (fun k => w i k * sum3 (fun l => qget chi k l * sum3 (fun n => sum3 (fun m => qget chi l m * qget chi m n) * w n j)))).
          { apply s3_ext; intro k; f_equal; apply s3_ext; intro l; f_equal; apply s3_ext; intro n. rewrite Q. reflexivity. }
          transitivity (sum3 (fun m => sum3 (fun k => w i k * sum3 (fun l => qget chi k l * qget chi l m)) * sum3 (fun n => qget chi m n * w n j))).
          { unfold sum3. ring. }
          apply s3_ext; intro m; f_equal; apply s3_ext; intro k. rewrite Q. reflexivity.
        + transitivity (sum3 (fun m => delta i m * sum3 (fun n => qget chi m n * w n j))).
          { apply s3_ext; intro m. rewrite WH. reflexivity. }
          destruct i; unfold sum3, delta; ring. }
    intros i j. transitivity (sum3 (fun k => qget chi i k * sum3 (fun l => qget chi k l * w l j))).
    - apply s3_ext; intro k. rewrite P. reflexivity.
    - rewrite <- HW. transitivity (sum3 (fun n => sum3 (fun m => qget chi i m * qget chi m n) * w n j)); [unfold sum3; ring|].
      apply s3_ext; intro n. rewrite Q. reflexivity. }
  unfold form_of.
  transitivity (sum3 (fun a => sum3 (fun b => f a * sum3 (fun i => qget chi a i * sum3 (fun j => w i j * qget chi j b)) * f b))).
  - unfold moment_of. destruct chi. unfold sum3, qget. cbn. ring.
  - transitivity (sum3 (fun a => sum3 (fun b => f a * delta a b * f b))).
    { apply s3_ext; intro a; apply s3_ext; intro b. rewrite K. reflexivity. }
    unfold dot, sum3, delta. ring.
Qed.

(** * principal axes *)
Lemma eigh_input_elements : forall chi i j, mget (eigh_input chi) i j = sum3 (fun k => qget chi i k * qget chi k j).
Proof. intros chi i j. rewrite <- q_sq_spec. unfold eigh_input. destruct (calc_q_sq chi). destruct i, j; reflexivity. Qed.
Lemma chi_elements : forall chi i j, mget (np_chi_ccs chi) i j = qget chi i j.
Proof. intros [? ? ? ? ? ?] i j. destruct i, j; reflexivity. Qed.
Lemma eig_moments_spec : forall chi vec n i, mget (calc_m1_m2 (np_chi_ccs chi) vec) i n = moment_of (qget chi) (column vec n) i.
Proof. intros. rewrite m1_m2_spec. unfold moment_of, column, sum3. rewrite !chi_elements. reflexivity. Qed.

Lemma moment_twice : forall chi v i, moment_of (mget (eigh_input chi)) v i = moment_of (qget chi) (moment_of (qget chi) v) i.
Proof. intros. unfold moment_of. unfold sum3. rewrite !eigh_input_elements. unfold sum3. ring. Qed.
Lemma moment_sym : forall chi u v, dot u (moment_of (qget chi) v) = dot (moment_of (qget chi) u) v.
Proof. intros [a b c d e f] u v. unfold dot, moment_of, sum3, qget. cbn. ring. Qed.
Lemma moment_ext : forall a u v, (forall i, u i = v i) -> forall i, moment_of a u i = moment_of a v i.
Proof. intros. unfold moment_of, sum3. rewrite !H. reflexivity. Qed.

Lemma axes_value : forall chi val vec n,
  vget (fst (fst (calc_magnetization_ellipsoid_axes chi (val, vec)))) n
  = sqrt (vget val n) * axis_sign (dot (column vec n) (moment_of (qget chi) (column vec n))).
Proof.
  intros. unfold calc_magnetization_ellipsoid_axes. cbn [fst].
  destruct n; unfold vget; cbn [v_1 v_2 v_3]; rewrite !eig_moments_spec; reflexivity.
Qed.

Lemma axis_sign_cases : forall x, (0 <= x /\ axis_sign x = 1) \/ (x < 0 /\ axis_sign x = -1).
Proof. intro x. unfold axis_sign. destruct (Rle_dec 0 x); [left|right]; split; lra. Qed.

Lemma eig_value_is_length : forall chi val vec n, is_eigh (mget (eigh_input chi)) val vec ->
  vget val n = dot (moment_of (qget chi) (column vec n)) (moment_of (qget chi) (column vec n)).
Proof.
  intros chi val vec n (_ & ON & EV).
  rewrite <- moment_sym. unfold dot, sum3. rewrite <- !moment_twice. rewrite !EV.
  pose proof (ON n n) as O. unfold dot, sum3 in O. replace (delta n n) with 1 in O by (destruct n; reflexivity).
  unfold column in *. rewrite <- (Rmult_1_r (vget val n)) at 1. rewrite <- O. ring.
Qed.
Lemma dot_nonneg : forall u, 0 <= dot u u.
Proof. intro u. unfold dot, sum3. nra. Qed.
Lemma dot_zero : forall u, dot u u = 0 -> forall i, u i = 0.
Proof.
  intros u H i. unfold dot, sum3 in H.
  pose proof (Rle_0_sqr (u X1)). pose proof (Rle_0_sqr (u X2)). pose proof (Rle_0_sqr (u X3)). unfold Rsqr in *.
  apply Rsqr_0_uniq. unfold Rsqr. destruct i; lra.
Qed.

Lemma axes_magnitude : forall chi val vec, is_eigh (mget (eigh_input chi)) val vec ->
  let '(moments, eig_fields, eig_moments) := calc_magnetization_ellipsoid_axes chi (val, vec) in
  eig_fields = vec /\
  (forall n i, mget eig_moments i n = moment_of (qget chi) (column eig_fields n) i) /\
  forall n, Rabs (vget moments n) = sqrt (dot (column eig_moments n) (column eig_moments n)) /\
            (0 < vget moments n -> 0 <= dot (column eig_fields n) (column eig_moments n)) /\
            (vget moments n < 0 -> dot (column eig_fields n) (column eig_moments n) < 0).
Proof.
  intros chi val vec H.
  pose proof (axes_value chi val vec) as AV.
  destruct (calc_magnetization_ellipsoid_axes chi (val, vec)) as [[mo ef] em] eqn:E. cbn [fst] in AV.
  assert (ef = vec /\ em = calc_m1_m2 (np_chi_ccs chi) vec) as [-> ->].
  { unfold calc_magnetization_ellipsoid_axes in E. injection E as E1 E2 E3. auto. }
  split; [reflexivity|]. split; [intros; apply eig_moments_spec|].
  intro n.
  assert (EM : forall i, column (calc_m1_m2 (np_chi_ccs chi) vec) n i = moment_of (qget chi) (column vec n) i) by (intro; apply eig_moments_spec).
  assert (D1 : dot (column (calc_m1_m2 (np_chi_ccs chi) vec) n) (column (calc_m1_m2 (np_chi_ccs chi) vec) n) = vget val n).
  { rewrite (eig_value_is_length chi val vec n H). unfold dot, sum3. rewrite !EM. reflexivity. }
  assert (D2 : dot (column vec n) (column (calc_m1_m2 (np_chi_ccs chi) vec) n) = dot (column vec n) (moment_of (qget chi) (column vec n))).
  { unfold dot, sum3. rewrite !EM. reflexivity. }
  rewrite D1, D2, AV.
  pose proof (sqrt_pos (vget val n)) as SP.
  destruct (axis_sign_cases (dot (column vec n) (moment_of (qget chi) (column vec n)))) as [[P ->]|[P ->]].
  - rewrite Rmult_1_r. rewrite Rabs_pos_eq by exact SP. repeat split; intros; lra.
  - split; [|split]; intros; try lra. rewrite Rabs_left1 by lra. ring.
Qed.

Lemma axes_principal : forall chi val vec, is_eigh (mget (eigh_input chi)) val vec -> no_opposite_pair (qget chi) ->
  forall n i, moment_of (qget chi) (column vec n) i
    = vget (fst (fst (calc_magnetization_ellipsoid_axes chi (val, vec)))) n * mget vec i n.
Proof.
  intros chi val vec H NO n i. rewrite axes_value.
  pose proof (eig_value_is_length chi val vec n H) as L. destruct H as (_ & ON & EV).
  pose proof (ON n n) as O. replace (delta n n) with 1 in O by (destruct n; reflexivity).
  specialize (EV n). change (fun i0 => mget vec i0 n) with (column vec n) in *.
  assert (EV' : forall j, moment_of (qget chi) (moment_of (qget chi) (column vec n)) j = vget val n * column vec n j).
  { intro j. rewrite <- moment_twice. apply EV. }
  change (mget vec i n) with (column vec n i).
  remember (column vec n) as e. remember (vget val n) as l. clear Heqe Heql EV ON val vec.
  pose proof (dot_nonneg (moment_of (qget chi) e)) as LN. rewrite <- L in LN.
  pose proof (sqrt_sqrt l LN) as SS. pose proof (sqrt_pos l) as SP. remember (sqrt l) as m. clear Heqm.
  destruct (Req_dec m 0) as [M0|M0].
  - assert (Z : forall j, moment_of (qget chi) e j = 0) by (apply dot_zero; rewrite <- L, <- SS, M0; ring).
    rewrite Z, M0. ring.
  - set (wp := fun j => moment_of (qget chi) e j + m * e j). set (wm := fun j => moment_of (qget chi) e j - m * e j).
    assert (EP : forall j, moment_of (qget chi) wp j = m * wp j).
    { intro j. transitivity (moment_of (qget chi) (moment_of (qget chi) e) j + m * moment_of (qget chi) e j).
      - unfold wp, moment_of, sum3. ring.
      - rewrite EV', <- SS. unfold wp. ring. }
    assert (EMM : forall j, moment_of (qget chi) wm j = - m * wm j).
    { intro j. transitivity (moment_of (qget chi) (moment_of (qget chi) e) j - m * moment_of (qget chi) e j).
      - unfold wm, moment_of, sum3. ring.
      - rewrite EV', <- SS. unfold wm. ring. }
    assert (C : dot wp wp = 0 \/ dot wm wm = 0).
    { destruct (Req_dec (dot wp wp) 0) as [|A]; [left; assumption|].
      destruct (Req_dec (dot wm wm) 0) as [|B]; [right; assumption|]. exfalso.
      apply (NO m M0). split; [exists wp|exists wm]; split; assumption. }
    destruct C as [C|C].
    + pose proof (dot_zero _ C) as Z.
      assert (ME : forall j, moment_of (qget chi) e j = - m * e j) by (intro j; specialize (Z j); unfold wp in Z; lra).
      assert (DD : dot e (moment_of (qget chi) e) = - m).
      { transitivity (- m * dot e e); [unfold dot, sum3; rewrite !ME; ring|rewrite O; ring]. }
      rewrite DD, ME. destruct (axis_sign_cases (- m)) as [[P ->]|[P ->]]; [exfalso; lra|ring].
    + pose proof (dot_zero _ C) as Z.
      assert (ME : forall j, moment_of (qget chi) e j = m * e j) by (intro j; specialize (Z j); unfold wm in Z; lra).
      assert (DD : dot e (moment_of (qget chi) e) = m).
      { transitivity (m * dot e e); [unfold dot, sum3; rewrite !ME; ring|rewrite O; ring]. }
      rewrite DD, ME. destruct (axis_sign_cases m) as [[P ->]|[P ->]]; [ring|exfalso; lra].
Qed.

Lemma nonneg_no_opposite : forall a, nonneg_form a -> no_opposite_pair a.
Proof.
  intros a P l L [(u & U0 & U) (v & V0 & V)].
  assert (E : forall w k, (forall i, moment_of a w i = k * w i) -> form_of a w = k * dot w w).
  { intros w k K. transitivity (dot w (moment_of a w)).
    - unfold form_of, dot, moment_of, sum3. ring.
    - unfold dot, sum3. rewrite !K. ring. }
  pose proof (P u) as PU. pose proof (P v) as PV. rewrite (E _ _ U) in PU. rewrite (E _ _ V) in PV.
  pose proof (dot_nonneg u). pose proof (dot_nonneg v). nra.
Qed.

(** moments of a positive tensor are its principal values, non-negative and ascending *)
Lemma axes_nonneg : forall chi val vec, is_eigh (mget (eigh_input chi)) val vec -> nonneg_form (qget chi) ->
  let m := fst (fst (calc_magnetization_ellipsoid_axes chi (val, vec))) in
  0 <= v_1 m <= v_2 m /\ v_2 m <= v_3 m.
Proof.
  intros chi val vec H P m.
  assert (V : forall n, vget m n = sqrt (vget val n)).
  { intro n. unfold m. rewrite axes_value. destruct (axis_sign_cases (dot (column vec n) (moment_of (qget chi) (column vec n)))) as [[Q ->]|[Q ->]]; [ring|].
    exfalso. specialize (P (column vec n)).
    assert (E : form_of (qget chi) (column vec n) = dot (column vec n) (moment_of (qget chi) (column vec n))).
    { unfold form_of, dot, moment_of, sum3. ring. }
    lra. }
  destruct H as ((A1 & A2) & _ & _).
  pose proof (V X1) as V1. pose proof (V X2) as V2. pose proof (V X3) as V3. cbn [vget] in V1, V2, V3. rewrite V1, V2, V3.
  repeat split; [apply sqrt_pos|apply sqrt_le_1_alt; assumption|apply sqrt_le_1_alt; assumption].
Qed.

(** * ellipsoid factor *)
Lemma sort3_id : forall v, v_1 v <= v_2 v <= v_3 v -> sort3 v = v.
Proof.
  intros [a b c]. unfold sort3, sort2. cbn [v_1 v_2 v_3]. intros [H1 H2].
  destruct (Rle_dec a b); [|lra]. destruct (Rle_dec b c); [|lra]. destruct (Rle_dec a b); [reflexivity|lra].
Qed.
Lemma factor_range : forall a b c, 0 <= a -> a <= b -> b <= c -> -1 <= ellipsoid_factor_of (mkV a b c) <= 1.
Proof.
  intros a b c A B C. unfold ellipsoid_factor_of. rewrite sort3_id by (cbn; lra). cbn [v_1 v_2 v_3].
  destruct (Req_EM_T c 0); [lra|]. destruct (Req_EM_T b 0) as [->|Hb]; [unfold Rdiv; lra|].
  assert (0 < b) by lra. assert (0 < c) by lra.
  assert (0 <= a / b <= 1).
  { split; [apply Rmult_le_pos; [lra|left; apply Rinv_0_lt_compat; lra]|]. apply (Rmult_le_reg_r b); [lra|]. unfold Rdiv. rewrite Rmult_assoc, Rinv_l by lra. lra. }
  assert (0 <= b / c <= 1).
  { split; [apply Rmult_le_pos; [lra|left; apply Rinv_0_lt_compat; lra]|]. apply (Rmult_le_reg_r c); [lra|]. unfold Rdiv. rewrite Rmult_assoc, Rinv_l by lra. lra. }
  lra.
Qed.

Lemma factor_psd : forall chi val vec, is_eigh (mget (eigh_input chi)) val vec -> nonneg_form (qget chi) ->
  let m := fst (fst (calc_magnetization_ellipsoid_axes chi (val, vec))) in
  -1 <= calc_ellipsoid_factor chi (val, vec) <= 1 /\
  (0 < v_2 m -> calc_ellipsoid_factor chi (val, vec) = v_1 m / v_2 m - v_2 m / v_3 m) /\
  (0 = v_2 m /\ 0 < v_3 m -> calc_ellipsoid_factor chi (val, vec) = 1) /\
  (0 = v_3 m -> calc_ellipsoid_factor chi (val, vec) = 0).
Proof.
  intros chi val vec H P m. pose proof (axes_nonneg chi val vec H P) as A. cbv zeta in A. fold m in A.
  unfold calc_ellipsoid_factor. fold m. destruct m as [a b c]. cbn [v_1 v_2 v_3] in *. split; [|split; [|split]].
  - apply factor_range; lra.
  - intro Hb. unfold ellipsoid_factor_of. rewrite sort3_id by (cbn; lra). cbn [v_1 v_2 v_3].
    destruct (Req_EM_T c 0); [lra|]. destruct (Req_EM_T b 0); [lra|reflexivity].
  - intros [Hb Hc]. unfold ellipsoid_factor_of. rewrite sort3_id by (cbn; lra). cbn [v_1 v_2 v_3].
    destruct (Req_EM_T c 0); [lra|]. destruct (Req_EM_T b 0); [|lra]. rewrite <- Hb. unfold Rdiv. ring.
  - intros Hc. unfold ellipsoid_factor_of. rewrite sort3_id by (cbn; lra). cbn [v_1 v_2 v_3]. destruct (Req_EM_T c 0); [reflexivity|lra].
Qed.

(** * examples and counterexamples *)
Definition swap_chi : Q6 R := mkQ 0 0 1 1 0 0.
Lemma swap_eigh : is_eigh (mget (eigh_input swap_chi)) (mkV 1 1 1) (mkM 1 0 0 0 1 0 0 0 1).
Proof.
  unfold is_eigh, orthonormal_columns, eigh_input, swap_chi, calc_q_sq, Rsqr. cbn [v_1 v_2 v_3]. split; [lra|]. split.
  - intros n k. destruct n, k; unfold dot, column, sum3; cbn; ring.
  - intros n i. destruct n, i; unfold moment_of, column, sum3; cbn; ring.
Qed.
Lemma swap_moments : fst (fst (calc_magnetization_ellipsoid_axes swap_chi (mkV 1 1 1, mkM 1 0 0 0 1 0 0 0 1))) = mkV 1 1 1.
Proof.
  assert (K : forall n, vget (fst (fst (calc_magnetization_ellipsoid_axes swap_chi (mkV 1 1 1, mkM 1 0 0 0 1 0 0 0 1)))) n = 1).
  { intro n. rewrite axes_value. assert (D : 0 <= dot (column (mkM 1 0 0 0 1 0 0 0 1) n) (moment_of (qget swap_chi) (column (mkM 1 0 0 0 1 0 0 0 1) n))).
    { unfold swap_chi. destruct n; unfold dot, moment_of, column, sum3; cbn; lra. }
    destruct (axis_sign_cases (dot (column (mkM 1 0 0 0 1 0 0 0 1) n) (moment_of (qget swap_chi) (column (mkM 1 0 0 0 1 0 0 0 1) n)))) as [[P ->]|[P _]]; [|lra].
    destruct n; cbn; rewrite sqrt_1; ring. }
  pose proof (K X1). pose proof (K X2). pose proof (K X3).
  destruct (fst (fst (calc_magnetization_ellipsoid_axes swap_chi (mkV 1 1 1, mkM 1 0 0 0 1 0 0 0 1)))). cbn in *. congruence.
Qed.
Lemma opposite_pair_lost : exists chi val vec,
  is_eigh (mget (eigh_input chi)) val vec /\ is_eigenvalue (qget chi) (-1) /\
  let m := fst (fst (calc_magnetization_ellipsoid_axes chi (val, vec))) in
  (forall n, vget m n = 1) /\ (exists n i, moment_of (qget chi) (column vec n) i <> vget m n * mget vec i n).
Proof.
  exists swap_chi, (mkV 1 1 1), (mkM 1 0 0 0 1 0 0 0 1). split; [exact swap_eigh|]. split.
  { exists (vget (mkV 1 (-1) 0)). split; [unfold dot, sum3; cbn; lra|]. intro i. destruct i; unfold moment_of, sum3, swap_chi; cbn; ring. }
  cbv zeta. rewrite swap_moments. split; [destruct n; reflexivity|].
  exists X1, X1. unfold moment_of, column, sum3, swap_chi. cbn. lra.
Qed.

Definition diag_chi (a b c : R) : Q6 R := mkQ a b c 0 0 0.
Lemma diag_moments : forall val vec, is_eigh (mget (eigh_input (diag_chi (-3) (-2) 1))) val vec ->
  fst (fst (calc_magnetization_ellipsoid_axes (diag_chi (-3) (-2) 1) (val, vec))) = mkV 1 (-2) (-3).
Proof.
  intros val vec H.
  pose proof (fun n => eig_value_is_length _ _ _ n H) as L.
  assert (AV := axes_value (diag_chi (-3) (-2) 1) val vec).
  remember (fst (fst (calc_magnetization_ellipsoid_axes (diag_chi (-3) (-2) 1) (val, vec)))) as mo. clear Heqmo.
  destruct H as (AS & ON & EV).
  assert (C : forall n, exists j, (forall i, i <> j -> mget vec i n = 0) /\ mget vec j n * mget vec j n = 1 /\
              vget mo n = match j with X1 => -3 | X2 => -2 | X3 => 1 end /\ vget val n = match j with X1 => 9 | X2 => 4 | X3 => 1 end).
  { intro n. pose proof (ON n n) as O. replace (delta n n) with 1 in O by (destruct n; reflexivity).
    pose proof (EV n X1) as E1. pose proof (EV n X2) as E2. pose proof (EV n X3) as E3. specialize (AV n).
    clear EV L. unfold dot, moment_of, column, sum3, eigh_input, diag_chi, calc_q_sq, Rsqr in *.
    remember (mget vec X1 n) as x. remember (mget vec X2 n) as y. remember (mget vec X3 n) as z. remember (vget val n) as l.
    cbn in E1, E2, E3, AV.
    assert (X : x = 0 \/ l = 9) by (assert (K : x * (l - 9) = 0) by lra; apply Rmult_integral in K; destruct K; [left|right]; lra).
    assert (Y : y = 0 \/ l = 4) by (assert (K : y * (l - 4) = 0) by lra; apply Rmult_integral in K; destruct K; [left|right]; lra).
    assert (Z : z = 0 \/ l = 1) by (assert (K : z * (l - 1) = 0) by lra; apply Rmult_integral in K; destruct K; [left|right]; lra).
    assert (S9 : sqrt 9 = 3) by (replace 9 with (3 * 3) by ring; apply sqrt_square; lra).
    assert (S4 : sqrt 4 = 2) by (replace 4 with (2 * 2) by ring; apply sqrt_square; lra).
    destruct X as [X|X], Y as [Y|Y], Z as [Z|Z]; try (exfalso; nra); rewrite AV.
    - exists X3. rewrite <- Heqz. repeat split; try nra.
      + intros i Hi. destruct i; [congruence|congruence|congruence].
      + rewrite Z, X, Y, sqrt_1. match goal with |- 1 * axis_sign ?t = _ => destruct (axis_sign_cases t) as [[? ->]|[? ->]] end; nra.
    - exists X2. rewrite <- Heqy. repeat split; try nra.
      + intros i Hi. destruct i; congruence.
      + rewrite Z, X, Y, S4. match goal with |- 2 * axis_sign ?t = _ => destruct (axis_sign_cases t) as [[? ->]|[? ->]] end; nra.
    - exists X1. rewrite <- Heqx. repeat split; try nra.
      + intros i Hi. destruct i; congruence.
      + rewrite Z, X, Y, S9. match goal with |- 3 * axis_sign ?t = _ => destruct (axis_sign_cases t) as [[? ->]|[? ->]] end; nra. }
  destruct (C X1) as (j1 & A1 & B1 & M1 & V1). destruct (C X2) as (j2 & A2 & B2 & M2 & V2). destruct (C X3) as (j3 & A3 & B3 & M3 & V3).
  assert (DIS : forall n k j, n <> k -> (forall i, i <> j -> mget vec i n = 0) -> (forall i, i <> j -> mget vec i k = 0) ->
     mget vec j n * mget vec j n = 1 -> mget vec j k * mget vec j k = 1 -> False).
  { intros n k j NK P Q U W. pose proof (ON n k) as O. replace (delta n k) with 0 in O by (destruct n, k; congruence || reflexivity).
    unfold dot, column, sum3 in O.
    assert (mget vec j n * mget vec j k = 0).
    { destruct j; rewrite ?(P X1), ?(P X2), ?(P X3), ?(Q X1), ?(Q X2), ?(Q X3) in O by congruence; lra. }
    nra. }
  assert (j1 <> j2) by (intros ->; apply (DIS X1 X2 j2); congruence || assumption).
  assert (j1 <> j3) by (intros ->; apply (DIS X1 X3 j3); congruence || assumption).
  assert (j2 <> j3) by (intros ->; apply (DIS X2 X3 j3); congruence || assumption).
  destruct val as [va vb vc], mo as [ma mb mc]. cbn in AS, M1, M2, M3, V1, V2, V3.
  destruct j1, j2, j3; try congruence; exfalso + (f_equal; assumption); lra.
Qed.
Lemma factor_refuted : forall val vec, is_eigh (mget (eigh_input (diag_chi (-3) (-2) 1))) val vec ->
  calc_ellipsoid_factor (diag_chi (-3) (-2) 1) (val, vec) = 7 / 2.
Proof.
  intros val vec H. unfold calc_ellipsoid_factor. rewrite diag_moments by exact H.
  unfold ellipsoid_factor_of.
  assert (S : sort3 (mkV 1 (-2) (-3)) = mkV (-3) (-2) 1).
  { unfold sort3, sort2. cbn [v_1 v_2 v_3].
    repeat match goal with |- context [Rle_dec ?x ?y] => destruct (Rle_dec x y); try lra end. reflexivity. }
  rewrite S. cbn [v_1 v_2 v_3]. destruct (Req_EM_T 1 0); [lra|]. destruct (Req_EM_T (-2) 0); [lra|]. lra.
Qed.
Lemma diag_eigh : is_eigh (mget (eigh_input (diag_chi (-3) (-2) 1))) (mkV 1 4 9) (mkM 0 0 1 0 1 0 1 0 0).
Proof.
  unfold is_eigh, orthonormal_columns, eigh_input, diag_chi, calc_q_sq, Rsqr. cbn [v_1 v_2 v_3]. split; [lra|]. split.
  - intros n k. destruct n, k; unfold dot, column, sum3; cbn; ring.
  - intros n i. destruct n, i; unfold moment_of, column, sum3; cbn; ring.
Qed.

(** * derivative of the U_ij: reported as zero *)
Lemma as_u_dder_refuted : forall uc, nondegenerate uc ->
  ~ is_partial_q (fun q => qget (calc_magnetization_ellipsoid_as_u q uc) X1 X1) (mkQ 1 0 0 0 0 0) X1 X1 (ellipsoid_as_u_dder_susceptibility 0 0).
Proof.
  intros uc N H. unfold is_partial_q in H.
  assert (D : is_derive (fun t : R => qget (calc_magnetization_ellipsoid_as_u (qset (mkQ 1 0 0 0 0 0) X1 X1 t) uc) X1 X1) 1 2).
  { apply (is_derive_ext (fun t : R => t * t)).
    - intro t. rewrite as_u_elements by exact N. match goal with |- ?x = ?y => change (@eq R x y) end.
      unfold sum3, qset, calc_m_b_norm. cbn. ring.
    - auto_derive; [trivial|ring]. }
  pose proof (is_derive_unique _ _ _ H) as E1. pose proof (is_derive_unique _ _ _ D) as E2.
  change (qget (mkQ 1 0 0 0 0 0) X1 X1) with 1 in E1. rewrite E1 in E2. unfold ellipsoid_as_u_dder_susceptibility in E2. lra.
Qed.

(** * symmetry-equivalent tensor *)
Lemma chi_symmetry_value : forall chi r, det3 (mget r) <> 0 ->
  exists x, calc_chi_direct_norm_with_symmetry chi r false = Ok x /\
    forall i j, sum3 (fun k => mget x i k * mget r k j) = sum3 (fun k => mget r i k * mget chi k j).
Proof. intros chi r D. eexists. split; [reflexivity|]. intros i j. apply m1_m2_inv_m1_spec. exact D. Qed.
Lemma chi_symmetry_raises : forall chi r, calc_chi_direct_norm_with_symmetry chi r true = KeyError.
Proof. reflexivity. Qed.

(** * isotropic constraint *)
Lemma iso_tensor : forall it t, su_type it = Some t -> startswith (lower t) "ciso" = true ->
  let it' := apply_chi_iso_constraint it in
  (forall i j, qget (su_chi it') i j = q_11 (su_chi it) * delta i j) /\
  (forall i j, qget (su_ref it') i j = true -> i = X1 /\ j = X1 /\ qget (su_ref it) X1 X1 = true) /\
  (forall i j, ~ (i = X1 /\ j = X1) -> qget (su_con it') i j = true) /\
  qget (su_con it') X1 X1 = qget (su_con it) X1 X1 /\
  (forall i j, qget (su_sigma it') i j = q_11 (su_sigma it) * delta i j).
Proof.
  intros [ty [c1 c2 c3 c4 c5 c6] [s1 s2 s3 s4 s5 s6] [r1 r2 r3 r4 r5 r6] [k1 k2 k3 k4 k5 k6]] t T C. cbn in T. subst ty. cbv zeta.
  unfold apply_chi_iso_constraint. cbn [su_type]. rewrite C. cbn [su_chi su_sigma su_ref su_con].
  repeat split.
  - destruct i, j; cbn; ring.
  - destruct i, j; cbn in *; congruence.
  - destruct i, j; cbn in *; congruence.
  - destruct i, j; cbn in *; congruence.
  - intros i j H. destruct i, j; cbn; try reflexivity. exfalso. apply H. split; reflexivity.
  - destruct i, j; cbn; ring.
Qed.
Lemma iso_other : forall it, (forall t, su_type it = Some t -> startswith (lower t) "ciso" = false) -> apply_chi_iso_constraint it = it.
Proof.
  intros it H. unfold apply_chi_iso_constraint. destruct (su_type it) as [t|]; [|reflexivity]. rewrite (H t eq_refl). reflexivity.
Qed.
Lemma iso_idempotent : forall it, apply_chi_iso_constraint (apply_chi_iso_constraint it) = apply_chi_iso_constraint it.
Proof.
  intros [ty [c1 c2 c3 c4 c5 c6] [s1 s2 s3 s4 s5 s6] [r1 r2 r3 r4 r5 r6] [k1 k2 k3 k4 k5 k6]].
  unfold apply_chi_iso_constraint. cbn [su_type]. destruct ty as [t|]; [|reflexivity].
  destruct (startswith (lower t) "ciso") eqn:E; cbn [su_type su_chi su_sigma su_ref su_con]; rewrite E; reflexivity.
Qed.
Lemma iso_invariant : forall it t m, su_type it = Some t -> startswith (lower t) "ciso" = true ->
  (forall i j, sum3 (fun k => mget m i k * mget m j k) = delta i j) ->
  calc_m_q_mt m (su_chi (apply_chi_iso_constraint it)) = su_chi (apply_chi_iso_constraint it).
Proof.
  intros it t m T C O. destruct (iso_tensor it t T C) as (A & _). apply q6_ext. intros i j. rewrite m_q_mt_spec.
  rewrite A. rewrite <- O.
  transitivity (sum3 (fun k => sum3 (fun l => mget m i k * (q_11 (su_chi it) * delta k l) * mget m j l))).
  { apply s3_ext; intro k; apply s3_ext; intro l. rewrite A. reflexivity. }
  unfold sum3, delta. ring.
Qed.
Lemma iso_axes : forall it t val vec, su_type it = Some t -> startswith (lower t) "ciso" = true ->
  let it' := apply_chi_iso_constraint it in
  is_eigh (mget (eigh_input (su_chi it'))) val vec ->
  forall n, vget (fst (fst (fst (calc_main_axes it' (val, vec))))) n = q_11 (su_chi it).
Proof.
  intros it t val vec T C it' H n. destruct (iso_tensor it t T C) as (A & _). fold it' in A.
  assert (E : fst (fst (fst (calc_main_axes it' (val, vec)))) = fst (fst (calc_magnetization_ellipsoid_axes (su_chi it') (val, vec)))).
  { unfold calc_main_axes. destruct (calc_magnetization_ellipsoid_axes (su_chi it') (val, vec)) as [[? ?] ?]. reflexivity. }
  rewrite E. set (x := q_11 (su_chi it)) in *.
  assert (MO : forall v i, moment_of (qget (su_chi it')) v i = x * v i).
  { intros v i. unfold moment_of, sum3. rewrite !A. destruct i; unfold delta; ring. }
  rewrite axes_value. rewrite (eig_value_is_length _ _ _ n H). destruct H as (_ & ON & _). pose proof (ON n n) as O.
  replace (delta n n) with 1 in O by (destruct n; reflexivity).
  assert (D1 : dot (column vec n) (moment_of (qget (su_chi it')) (column vec n)) = x).
  { transitivity (x * dot (column vec n) (column vec n)); [unfold dot, sum3; rewrite !MO; ring|rewrite O; ring]. }
  assert (D2 : dot (moment_of (qget (su_chi it')) (column vec n)) (moment_of (qget (su_chi it')) (column vec n)) = Rsqr x).
  { transitivity (Rsqr x * dot (column vec n) (column vec n)); [unfold dot, sum3, Rsqr; rewrite !MO; ring|rewrite O; ring]. }
  rewrite D1, D2, sqrt_Rsqr_abs. destruct (axis_sign_cases x) as [[P ->]|[P ->]].
  - rewrite Rabs_pos_eq by exact P. ring.
  - rewrite Rabs_left by exact P. ring.
Qed.
Lemma axes_sigma_zero : forall it e, snd (fst (fst (calc_main_axes it e))) = mkV 0 0 0.
Proof. intros it e. unfold calc_main_axes. destruct (calc_magnetization_ellipsoid_axes (su_chi it) e) as [[? ?] ?]. reflexivity. Qed.
Lemma diag_positive_eigh : is_eigh (mget (eigh_input (diag_chi 1 2 3))) (mkV 1 4 9) (mkM 1 0 0 0 1 0 0 0 1) /\ nonneg_form (qget (diag_chi 1 2 3)).
Proof.
  split.
  - unfold is_eigh, orthonormal_columns, eigh_input, diag_chi, calc_q_sq, Rsqr. cbn [v_1 v_2 v_3]. split; [lra|]. split.
    + intros n k. destruct n, k; unfold dot, column, sum3; cbn; ring.
    + intros n i. destruct n, i; unfold moment_of, column, sum3; cbn; ring.
  - intro v. unfold form_of, sum3, diag_chi. cbn. nra.
Qed.
