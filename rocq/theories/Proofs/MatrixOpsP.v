From Coq Require Import Reals Lra Psatz.
From Coquelicot Require Import Coquelicot.
From Verif Require Import Spec.Lin3 Spec.Deriv Model.MatrixOps.
Open Scope R_scope.

Ltac dm := repeat match goal with
  | m : M3 R |- _ => destruct m
  | q : Q6 R |- _ => destruct q
  | v : V3 R |- _ => destruct v
  end.
Ltac di := repeat match goal with i : ix |- _ => destruct i end.
Ltac unf := unfold dot, tr3, det3, sum3, mget, qget, vget, delta; cbn -[Rplus Rmult Rminus Ropp Rdiv Rsqr sqrt].
Ltac crush := intros; dm; di; unfold calc_vector_product_v1_v2_v1, row_dot; unf; unfold Rsqr; try ring.

Lemma transpose_spec m i j : mget (transpose_m m) i j = mget m j i.
Proof. crush; reflexivity. Qed.
Lemma m_v_spec m v i : vget (calc_m_v m v) i = sum3 (fun k => mget m i k * vget v k).
Proof. crush. Qed.
Lemma q_v_spec q v i : vget (calc_q_v q v) i = sum3 (fun k => qget q i k * vget v k).
Proof. crush. Qed.
Lemma m1_m2_spec a b i j : mget (calc_m1_m2 a b) i j = sum3 (fun k => mget a i k * mget b k j).
Proof. crush. Qed.
Lemma m_q_mt_spec m q i j :
  qget (calc_m_q_mt m q) i j = sum3 (fun k => sum3 (fun l => mget m i k * qget q k l * mget m j l)).
Proof. crush. Qed.
Lemma mt_q_m_spec m q i j :
  qget (calc_mt_q_m m q) i j = sum3 (fun k => sum3 (fun l => mget m k i * qget q k l * mget m l j)).
Proof. crush. Qed.
Lemma mt_m_spec m i j : qget (calc_mt_m m) i j = sum3 (fun k => mget m k i * mget m k j).
Proof. crush. Qed.
Lemma q_sq_spec q i j : qget (calc_q_sq q) i j = sum3 (fun k => qget q i k * qget q k j).
Proof. crush. Qed.
Lemma q1_q2_q1_spec a b i j :
  qget (calc_q1_q2_q1 a b) i j = sum3 (fun k => sum3 (fun l => qget a i k * qget b k l * qget a l j)).
Proof. crush. Qed.
Lemma m1_m2_m1t_spec a b i j :
  mget (calc_m1_m2_m1t a b) i j = sum3 (fun k => sum3 (fun l => mget a i k * mget b k l * mget a j l)).
Proof. crush. Qed.
Lemma vt_m_v_spec m v :
  calc_vt_m_v m v = sum3 (fun k => sum3 (fun l => vget v k * mget m k l * vget v l)).
Proof. crush. Qed.
Lemma vt_q_v_spec q v :
  calc_vt_q_v q v = sum3 (fun k => sum3 (fun l => vget v k * qget q k l * vget v l)).
Proof. crush. Qed.
Lemma det_spec m : calc_det_m m = det3 (mget m).
Proof. crush. Qed.

Lemma eps_pos : 0 < 1 / 1000000000000. Proof. lra. Qed.
Lemma inv_det_ok d : 1 / 1000000000000 <= Rabs d ->
  (if Req_EM_T d 1 then 1 else if Rlt_dec (Rabs d) (1 / 1000000000000) then 0 else 1 / d) = / d.
Proof.
  intros H. destruct (Req_EM_T d 1) as [->|_]; [field|].
  destruct (Rlt_dec _ _) as [Hl|_]; [lra|]. field. intros ->. rewrite Rabs_R0 in H. lra.
Qed.
Lemma inv_m_ok m : 1 / 1000000000000 <= Rabs (det3 (mget m)) ->
  is_inverse (mget m) (mget (calc_inv_m m)).
Proof.
  rewrite <- det_spec. intros H.
  assert (Hd : calc_det_m m <> 0) by (intros E; rewrite E, Rabs_R0 in H; lra).
  unfold calc_inv_m. rewrite (inv_det_ok _ H). clear H.
  dm. unfold calc_det_m in Hd |- *.
  split; intros i j; di; unf; field; exact Hd.
Qed.
Lemma inv_m_singular m : Rabs (det3 (mget m)) < 1 / 1000000000000 ->
  forall i j, mget (calc_inv_m m) i j = 0.
Proof.
  rewrite <- det_spec. intros H i j. unfold calc_inv_m.
  destruct (Req_EM_T (calc_det_m m) 1) as [E|_]; [rewrite E, Rabs_R1 in H; lra|].
  destruct (Rlt_dec _ _) as [_|N]; [|contradiction].
  clear H. dm; di; unf; ring.
Qed.

(** C03 *)
Lemma m_sq_exact m i j :
  mget (calc_m_sq m) i j =
  sum3 (fun k => mget m i k * mget m k j) +
  (match i, j with X3, X1 => mget m X3 X3 * (mget m X3 X3 - mget m X3 X1) | _, _ => 0 end).
Proof. crush. Qed.
Lemma m_sq_refuted : exists m : M3 R, mget (calc_m_sq m) X3 X1 <> mget (calc_m1_m2 m m) X3 X1.
Proof. exists (mkM 1 0 0 0 1 0 0 0 1). unf. lra. Qed.
Lemma m_sq_iff m :
  (forall i j, mget (calc_m_sq m) i j = mget (calc_m1_m2 m m) i j) <->
  (mget m X3 X3 = 0 \/ mget m X3 X3 = mget m X3 X1).
Proof.
  split.
  - intros H. specialize (H X3 X1). rewrite m_sq_exact, m1_m2_spec in H.
    cbv iota in H.
    assert (E : mget m X3 X3 * (mget m X3 X3 - mget m X3 X1) = 0) by lra.
    apply Rmult_integral in E. destruct E; [left; assumption|right; lra].
  - intros H i j. rewrite m_sq_exact, m1_m2_spec.
    assert (E : mget m X3 X3 * (mget m X3 X3 - mget m X3 X1) = 0).
    { destruct H as [->| ->]; ring. }
    destruct i, j; cbv iota; try lra.
Qed.

(** C04 *)
Lemma vprod_orth_l a b : dot (vget a) (vget (calc_vector_product_v1_v2 a b)) = 0.
Proof. crush. Qed.
Lemma vprod_orth_r a b : dot (vget b) (vget (calc_vector_product_v1_v2 a b)) = 0.
Proof. crush. Qed.
Lemma vprod_anti a b i :
  vget (calc_vector_product_v1_v2 a b) i = - vget (calc_vector_product_v1_v2 b a) i.
Proof. crush. Qed.
Lemma vprod_norm a b :
  dot (vget (calc_vector_product_v1_v2 a b)) (vget (calc_vector_product_v1_v2 a b)) =
  dot (vget a) (vget a) * dot (vget b) (vget b) - (dot (vget a) (vget b))^2.
Proof. crush. Qed.
Lemma double_vprod_spec e v i :
  vget (calc_vector_product_v1_v2_v1 e v) i =
  dot (vget e) (vget e) * vget v i - dot (vget e) (vget v) * vget e i.
Proof. crush. Qed.
Lemma double_vprod_is_nested e v :
  calc_vector_product_v1_v2_v1 e v =
  calc_vector_product_v1_v2 e (calc_vector_product_v1_v2 v e).
Proof. dm; unfold calc_vector_product_v1_v2_v1, calc_vector_product_v1_v2, row_dot; simpl; unfold Rsqr; f_equal; ring. Qed.
Lemma double_vprod_orth e v : dot (vget e) (vget (calc_vector_product_v1_v2_v1 e v)) = 0.
Proof. crush. Qed.
Lemma double_vprod_idem e v : dot (vget e) (vget e) = 1 ->
  forall i, vget (calc_vector_product_v1_v2_v1 e (calc_vector_product_v1_v2_v1 e v)) i =
            vget (calc_vector_product_v1_v2_v1 e v) i.
Proof.
  intros H i. rewrite double_vprod_spec, double_vprod_orth, H. ring.
Qed.
Lemma double_vprod_shorter e v : dot (vget e) (vget e) = 1 ->
  dot (vget (calc_vector_product_v1_v2_v1 e v)) (vget (calc_vector_product_v1_v2_v1 e v))
  <= dot (vget v) (vget v).
Proof.
  intros H.
  assert (E : dot (vget (calc_vector_product_v1_v2_v1 e v)) (vget (calc_vector_product_v1_v2_v1 e v))
     = dot (vget e) (vget e) * (dot (vget e) (vget e) * dot (vget v) (vget v) - (dot (vget e) (vget v))^2))
    by (dm; unfold calc_vector_product_v1_v2_v1, row_dot; unf; unfold Rsqr; ring).
  rewrite E, H. nra.
Qed.
Lemma norm_v_spec v : calc_norm_v v = sqrt (dot (vget v) (vget v)).
Proof. unfold calc_norm_v. rewrite <- !Rsqr_abs. reflexivity. Qed.
Lemma unity_v_unit v : 1 / 100000000 < calc_norm_v v ->
  dot (vget (calc_unity_v v)) (vget (calc_unity_v v)) = 1 /\
  forall i, vget v i = calc_norm_v v * vget (calc_unity_v v) i.
Proof.
  intros H. unfold calc_unity_v, isclose0.
  rewrite (Rabs_pos_eq (calc_norm_v v)) by lra.
  destruct (Rle_dec _ _) as [N|_]; [lra|].
  assert (Hn : calc_norm_v v <> 0) by lra.
  assert (Hs : calc_norm_v v * calc_norm_v v = dot (vget v) (vget v)).
  { rewrite norm_v_spec. apply sqrt_sqrt. dm; unf. nra. }
  split.
  - unfold dot, sum3 in *; cbn [vget v_1 v_2 v_3] in *.
    match goal with |- ?L = 1 => replace L with
      ((v_1 v * v_1 v + v_2 v * v_2 v + v_3 v * v_3 v) / (calc_norm_v v * calc_norm_v v)) by (field; exact Hn) end.
    rewrite Hs. field. rewrite <- Hs. nra.
  - intros i; destruct i; cbn [vget v_1 v_2 v_3]; field; exact Hn.
Qed.

(** C05 *)
Lemma m_q_inv_m_spec m q i j : det3 (mget m) <> 0 ->
  sum3 (fun k => mget (calc_m_q_inv_m m q) i k * mget m k j) = sum3 (fun k => mget m i k * qget q k j).
Proof.
  rewrite <- det_spec. intros Hd. dm. unfold calc_m_q_inv_m, calc_det_m in *.
  di; unf; field; exact Hd.
Qed.
Lemma m1_m2_inv_m1_spec a b i j : det3 (mget a) <> 0 ->
  sum3 (fun k => mget (calc_m1_m2_inv_m1 a b) i k * mget a k j) = sum3 (fun k => mget a i k * mget b k j).
Proof.
  rewrite <- det_spec. intros Hd. dm. unfold calc_m1_m2_inv_m1, calc_det_m in *.
  di; unf; field; exact Hd.
Qed.
Lemma m1_m2_inv_m1_trace a b : det3 (mget a) <> 0 -> tr3 (mget (calc_m1_m2_inv_m1 a b)) = tr3 (mget b).
Proof.
  rewrite <- det_spec. intros Hd. dm. unfold calc_m1_m2_inv_m1, calc_det_m in *.
  unf; field; exact Hd.
Qed.
Lemma m_q_inv_m_trace m q : det3 (mget m) <> 0 -> tr3 (mget (calc_m_q_inv_m m q)) = tr3 (qget q).
Proof.
  rewrite <- det_spec. intros Hd. dm. unfold calc_m_q_inv_m, calc_det_m in *.
  unf; field; exact Hd.
Qed.
Lemma det_mul (a b c : ix -> ix -> R) : is_mul a b c -> det3 c = det3 a * det3 b.
Proof. intros H. unfold det3. rewrite !H. unfold sum3. ring. Qed.
Lemma m1_m2_inv_m1_det a b : det3 (mget a) <> 0 -> det3 (mget (calc_m1_m2_inv_m1 a b)) = det3 (mget b).
Proof.
  intros Hd.
  assert (H : det3 (mget (calc_m1_m2_inv_m1 a b)) * det3 (mget a) = det3 (mget a) * det3 (mget b)).
  { set (c := fun i j => sum3 (fun k => mget a i k * mget b k j)).
    rewrite <- (det_mul _ _ c) by (intros i j; symmetry; apply m1_m2_inv_m1_spec; exact Hd).
    apply det_mul. intros i j; reflexivity. }
  apply (Rmult_eq_reg_r (det3 (mget a))); [|exact Hd]. rewrite H. ring.
Qed.
Lemma m_q_inv_m_det m q : det3 (mget m) <> 0 -> det3 (mget (calc_m_q_inv_m m q)) = det3 (qget q).
Proof.
  intros Hd.
  assert (H : det3 (mget (calc_m_q_inv_m m q)) * det3 (mget m) = det3 (mget m) * det3 (qget q)).
  { set (c := fun i j => sum3 (fun k => mget m i k * qget q k j)).
    rewrite <- (det_mul _ _ c) by (intros i j; symmetry; apply m_q_inv_m_spec; exact Hd).
    apply det_mul. intros i j; reflexivity. }
  apply (Rmult_eq_reg_r (det3 (mget m))); [|exact Hd]. rewrite H. ring.
Qed.
Lemma mm_q_spec m q i j : det3 (mget m) <> 0 ->
  q_row_dot (mget (calc_mm_as_m_q_inv_m m) i j) q = mget (calc_m_q_inv_m m q) i j.
Proof.
  rewrite <- det_spec. intros Hd. dm. unfold calc_m_q_inv_m, calc_det_m, calc_mm_as_m_q_inv_m, q_row_dot in *.
  di; unf; field; exact Hd.
Qed.
Lemma mm_m_spec m q i j : det3 (mget m) <> 0 ->
  m_row_dot (mget (calc_mm_as_m1_m2_inv_m1 m) i j) q = mget (calc_m1_m2_inv_m1 m q) i j.
Proof.
  rewrite <- det_spec. intros Hd. dm. unfold calc_m1_m2_inv_m1, calc_det_m, calc_mm_as_m1_m2_inv_m1, m_row_dot in *.
  di; unf; field; exact Hd.
Qed.
