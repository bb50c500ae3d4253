From Coq Require Import Reals ZArith List Bool Lra Lia Permutation.
From Coquelicot Require Import Coquelicot.
From Verif Require Import Spec.Lin3 Spec.Cell Spec.Symm Spec.Scatter Spec.StructSpec Spec.MagSpec
  Model.MatrixOps Model.UnitCell Model.Symmetry Model.AtomFactors Model.StructFactor Model.MagStruct Model.Constraints
  Proofs.MatrixOpsP Proofs.UnitCellP Proofs.ConstraintsP Proofs.SymmBaseP Proofs.SymmGroupP Proofs.SymmExP Proofs.ScatterP Proofs.StructFactorP Proofs.StructFactorP2 Proofs.StructFactorP3
  Proofs.MagStructP Proofs.MagStructP4 Proofs.MagStructP5.
Import ListNotations.
Open Scope list_scope.
Open Scope R_scope.

Definition qdot (d q : Q6 R) : R :=
  q_11 d * q_11 q + q_22 d * q_22 q + q_33 d * q_33 q + q_12 d * q_12 q + q_13 d * q_13 q + q_23 d * q_23 q.
Lemma dq_lin : forall m q q' i j, calc_det_m m = 1 -> mget (calc_m_q_inv_m m q) i j = qdot (mget (calc_m_q_inv_m_dder_q m q') i j) q.
Proof.
  intros [a b c d e f g h p] [q1 q2 q3 q4 q5 q6] q' i j D. unfold calc_m_q_inv_m, calc_m_q_inv_m_dder_q, qdot. rewrite D.
  destruct i, j; cbn [mget m_11 m_12 m_13 m_21 m_22 m_23 m_31 m_32 m_33 q_11 q_22 q_33 q_12 q_13 q_23]; field.
Qed.
Lemma dot6_lin : forall c row chi k l t, dot6 c row (qset chi k l t) = dot6 c row chi + c * qget row k l * (t - qget chi k l).
Proof. intros c [a1 a2 a3 a4 a5 a6] [b1 b2 b3 b4 b5 b6] [] [] t; unfold dot6, qset, qget; cbn [q_11 q_22 q_33 q_12 q_13 q_23]; ring. Qed.
Lemma hh_lin : forall m sc chi k l t i j, calc_det_m m = 1 ->
  mget (hh_of m sc (qset chi k l t)) i j = mget (hh_of m sc chi) i j + mget (dder_hh_2 m sc chi k l) i j * (t - qget chi k l).
Proof.
  intros m sc chi k l t i j D. unfold hh_of, dder_hh_2. rewrite mget_tab.
  set (q' := mas_constr (2695 / 10000) sc chi) at 2. rewrite !(dq_lin m _ q') by exact D. unfold q'. set (dd := mget (calc_m_q_inv_m_dder_q m _) i j).
  unfold qdot, mas_constr. cbn [q_11 q_22 q_33 q_12 q_13 q_23]. rewrite !dot6_lin. ring.
Qed.
Lemma asym_a_gen : forall (f2 f1 : Op -> C) (w : Op -> R) (t : Op -> M3 R) mult occ (l : list Op) i j,
  mget (calc_sft_asym_a mult occ (map f2 l) (map f1 l) (map w l) (map t l)) i j =
  div_n (csum (map (fun e => Cmult (Cmult (f2 e) (Cmult (Cmult (f1 e) (RtoC (w e))) (RtoC (mult * occ)))) (RtoC (mget (t e) i j))) l)) (length l).
Proof. intros. unfold calc_sft_asym_a. rewrite mget_tab, map_length, sum_c_csum. rewrite !combine_map2, map_map. reflexivity. Qed.
Lemma asym_a_lin : forall (f2 f1 : Op -> C) (w : Op -> R) (t t0 dt : Op -> M3 R) mult occ (l : list Op) i j (x : R),
  (forall e, In e l -> mget (t e) i j = mget (t0 e) i j + mget (dt e) i j * x) ->
  mget (calc_sft_asym_a mult occ (map f2 l) (map f1 l) (map w l) (map t l)) i j =
  Cplus (mget (calc_sft_asym_a mult occ (map f2 l) (map f1 l) (map w l) (map t0 l)) i j)
        (Cmult (mget (calc_sft_asym_a mult occ (map f2 l) (map f1 l) (map w l) (map dt l)) i j) (RtoC x)).
Proof.
  intros f2 f1 w t t0 dt mult occ l i j x H. rewrite !asym_a_gen.
  rewrite (csum_ext _ (fun e => Cmult (Cmult (f2 e) (Cmult (Cmult (f1 e) (RtoC (w e))) (RtoC (mult * occ)))) (RtoC (mget (t e) i j)))
     (fun e => Cplus (Cmult (Cmult (f2 e) (Cmult (Cmult (f1 e) (RtoC (w e))) (RtoC (mult * occ)))) (RtoC (mget (t0 e) i j)))
                     (Cmult (Cmult (Cmult (f2 e) (Cmult (Cmult (f1 e) (RtoC (w e))) (RtoC (mult * occ)))) (RtoC (mget (dt e) i j))) (RtoC x)))).
  - rewrite csum_plus, csum_scal_r. unfold div_n, Cdiv. ring.
  - intros e He. rewrite (H e He), RtoC_plus, (RtoC_mult (mget (dt e) i j) x). ring.
Qed.

Lemma set_chi_same : forall a k l, set_chi a k l (qget (pa_chi a) k l) = a.
Proof. intros [x o [c1 c2 c3 c4 c5 c6] sc b be la ka j0 j2] [] []; reflexivity. Qed.
(** the derivative of the asymmetric part *)
Definition d_asym_of (h : V3 Z) (s : symmetry) (uc : U6 R) (a : para) (k l : ix) : M3 C :=
  calc_sft_asym_a (INR (pmult (full_of s) a)) (pa_occ a) (map (calc_pr2 h) (s_red s)) (map (fun e => calc_pr1 h e (pa_xyz a)) (s_red s))
    (map (fun e => pdwe h uc e a) (s_red s)) (map (fun e => dder_hh_2 (calc_m_r_inv_m uc e) (pa_sc a) (pa_chi a) k l) (s_red s)).
Lemma ta_lin : forall h s uc a k l t i j, (forall e, In e (s_red s) -> calc_det_m (calc_m_r_inv_m uc e) = 1) ->
  mget (ta h s uc (pmult (full_of s) (set_chi a k l t)) (set_chi a k l t)) i j =
  Cplus (mget (ta h s uc (pmult (full_of s) a) a) i j) (Cmult (mget (d_asym_of h s uc a k l) i j) (RtoC (t - qget (pa_chi a) k l))).
Proof.
  intros h s uc a k l t i j D. unfold ta, d_asym_of.
  apply (asym_a_lin (calc_pr2 h) (fun e => calc_pr1 h e (pa_xyz a)) (fun e => pdwe h uc e a)). intros e He.
  unfold hhe. cbn [set_chi pa_sc pa_chi]. apply hh_lin. auto.
Qed.
Lemma det_rho_1 : forall uc e, nondegenerate uc -> det3 (rot_real e) = 1 -> calc_det_m (calc_m_r_inv_m uc e) = 1.
Proof.
  intros uc e N D. rewrite det_spec. change (mget (calc_m_r_inv_m uc e)) with (rho uc e).
  pose proof (rho_frame uc N e) as F.
  assert (E : det3 (mul (rho uc e) (mget (calc_m_m uc))) = det3 (mul (mget (calc_m_m uc)) (rot_real e))).
  { f_equal. apply mat_ext. intros i j. exact (F i j). }
  rewrite !det_mul', D in E.
  assert (DM : det3 (mget (calc_m_m uc)) <> 0).
  { exact (det_M uc N). }
  apply (Rmult_eq_reg_r (det3 (mget (calc_m_m uc)))); [lra|exact DM].
Qed.

(** the tensor as a function of one element of the susceptibility *)
Lemma f_asym_lin : forall (pre post : list (M3 C)) (x x0 dx : M3 C) (bp bq : list R) (f : R) p3 p4 i j t,
  length bp = length pre -> length bq = length post -> mget x i j = Cplus (mget x0 i j) (Cmult (mget dx i j) (RtoC t)) ->
  mget (calc_t_by_t_asym (pre ++ x :: post) (bp ++ f :: bq) p3 false p4) i j =
  Cplus (mget (calc_t_by_t_asym (pre ++ x0 :: post) (bp ++ f :: bq) p3 false p4) i j) (Cmult (Cmult (Cmult p3 (RtoC f)) (mget dx i j)) (RtoC t)).
Proof.
  intros pre post x x0 dx bp bq f p3 p4 i j t L1 L2 E. unfold calc_t_by_t_asym. rewrite !mget_tab. unfold calc_f_by_f_asym. cbv zeta. rewrite !sum_c_csum.
  rewrite !map_app. cbn [map].
  assert (CA : forall (A : list C) (B : list C) a b (u v : list C), length A = length u -> combine (A ++ a :: B) (u ++ b :: v) = combine A u ++ (a, b) :: combine B v).
  { clear. induction A as [|y A IH]; intros B a b [|z u] v L; cbn in *; try discriminate; [reflexivity|]. f_equal. apply IH. lia. }
  rewrite !CA by (rewrite !map_length; exact L1). rewrite !map_app. cbn [map fst snd]. rewrite !csum_app. unfold csum at 2 4. cbn [fold_right].
  fold (csum (map (fun q : C * C => Cmult (fst q) (snd q)) (combine (map RtoC bq) (map (fun x1 => mget x1 i j) post)))). rewrite E. ring.
Qed.
Lemma lin_deriv : forall c0 b x0 : R, is_derive (fun t : R => c0 + b * (t - x0)) x0 b.
Proof. intros. auto_derive; [exact Logic.I|ring]. Qed.
Theorem dder_noncentro : forall only h s uc pre a post k l i j d, nondegenerate uc -> s_centro s = false ->
  (forall e, In e (s_red s) -> det3 (rot_real e) = 1) -> is_tensor_derivative only h s uc pre a post k l i j d ->
  calc_sft_ccs_dder only h s uc a k l i j = Cmult (1, 1) d.
Proof.
  intros only h s uc pre a post k l i j d N Ce D (F & HF & H1 & H2).
  assert (D' : forall e, In e (s_red s) -> calc_det_m (calc_m_r_inv_m uc e) = 1) by (intros e He; apply det_rho_1; auto).
  set (f := pff only h uc a). set (p3 := calc_pr3 h (s_tr s)). set (dx := mget (d_asym_of h s uc a k l) i j).
  assert (L : exists c0, forall t, F t = Cplus c0 (Cmult (Cmult (Cmult p3 (RtoC f)) dx) (RtoC (t - qget (pa_chi a) k l)))).
  { eexists. intros t. destruct (HF t) as (T & E & ->). apply tensor1 in E. subst T. unfold t_one. rewrite Ce. rewrite !map_app. cbn [map].
    change (pff only h uc (set_chi a k l t)) with f.
    apply (f_asym_lin _ _ _ (ta h s uc (pmult (full_of s) a) a) (d_asym_of h s uc a k l)); [rewrite !map_length; reflexivity|rewrite !map_length; reflexivity|].
    apply ta_lin. exact D'. }
  destruct L as (c0 & L).
  set (B := Cmult (Cmult p3 (RtoC f)) dx) in *.
  assert (R1 : is_derive (fun t : R => Re (F t)) (qget (pa_chi a) k l) (Re B)).
  { apply (is_derive_ext (fun t : R => Re c0 + Re B * (t - qget (pa_chi a) k l))).
    - intros t. rewrite L. unfold Cplus, Cmult, RtoC, Re. cbn [fst snd]. match goal with |- ?x = ?y => change (@eq R x y) end. ring.
    - apply lin_deriv. }
  assert (R2 : is_derive (fun t : R => Im (F t)) (qget (pa_chi a) k l) (Im B)).
  { apply (is_derive_ext (fun t : R => Im c0 + Im B * (t - qget (pa_chi a) k l))).
    - intros t. rewrite L. unfold Cplus, Cmult, RtoC, Im. cbn [fst snd]. match goal with |- ?x = ?y => change (@eq R x y) end. ring.
    - apply lin_deriv. }
  assert (E : d = B).
  { apply is_derive_unique in H1, H2, R1, R2. rewrite H1 in R1. rewrite H2 in R2. destruct d as [x y], B as [u v]. cbn in R1, R2. subst. reflexivity. }
  subst d. unfold calc_sft_ccs_dder. rewrite Ce. unfold sft_dder, dder_real, dder_imag. fold p3. unfold sft_asym_a_dder.
  change (calc_form_factor only (calc_sthovl (hkl_real h) uc) (pa_lande a) (pa_kappa a) (pa_j0 a) (pa_j2 a)) with f.
  match goal with |- context [mget ?X i j] => change X with (d_asym_of h s uc a k l) end. fold dx.
  unfold B. replace (1, 1) with (Cplus (RtoC 1) Ci) by (unfold Cplus, Ci, RtoC; cbn; f_equal; ring). ring.
Qed.

(** * The identity: the tensor of one ion *)
Lemma rho_id : forall uc, nondegenerate uc -> calc_m_r_inv_m uc op_id = mkM 1 0 0 0 1 0 0 0 1.
Proof.
  intros uc N. assert (E : rho uc op_id = mget (mkM 1 0 0 0 1 0 0 0 1)).
  { symmetry. apply rho_unique; [exact N|]. intros i j. unfold sum3, op_id. destruct i, j; cbn; ring. }
  unfold rho in E. destruct (calc_m_r_inv_m uc op_id) as [a b c d e f g h p].
  pose proof (f_equal (fun F => F X1 X1) E). pose proof (f_equal (fun F => F X1 X2) E). pose proof (f_equal (fun F => F X1 X3) E).
  pose proof (f_equal (fun F => F X2 X1) E). pose proof (f_equal (fun F => F X2 X2) E). pose proof (f_equal (fun F => F X2 X3) E).
  pose proof (f_equal (fun F => F X3 X1) E). pose proof (f_equal (fun F => F X3 X2) E). pose proof (f_equal (fun F => F X3 X3) E).
  cbn [mget m_11 m_12 m_13 m_21 m_22 m_23 m_31 m_32 m_33] in *. subst. reflexivity.
Qed.
Lemma det_one : calc_det_m (mkM 1 0 0 0 1 0 0 0 1) = 1.
Proof. unfold calc_det_m. ring. Qed.
Lemma dder_hh_id : forall x b, mget (dder_hh_2 (mkM 1 0 0 0 1 0 0 0 1) (pa_sc (ion x b)) (pa_chi (ion x b)) X1 X1) X1 X1 = 2695 / 10000.
Proof.
  intros. unfold dder_hh_2. rewrite mget_tab. unfold calc_m_q_inv_m_dder_q. rewrite det_one. unfold ion, sc_one.
  cbn [mget qget m_11 q_11 q_22 q_33 q_12 q_13 q_23 pa_sc pa_chi]. field.
Qed.
Lemma div_1 : forall z, div_n z 1 = z.
Proof. intros z. unfold div_n. cbn [INR]. field. intros E. injection E as E. lra. Qed.
Lemma one_op_sum : forall (f2 f1 : Op -> C) (w : Op -> R) (t : Op -> M3 R) mult occ i j,
  mget (calc_sft_asym_a mult occ (map f2 [op_id]) (map f1 [op_id]) (map w [op_id]) (map t [op_id])) i j =
  Cmult (Cmult (Cmult (f2 op_id) (f1 op_id)) (RtoC (w op_id * (mult * occ)))) (RtoC (mget (t op_id) i j)).
Proof. intros. rewrite asym_a_gen. cbn [map length]. unfold csum. cbn [fold_right]. rewrite div_1, (RtoC_mult (w op_id)). ring. Qed.
Lemma ion_dwe : forall h uc e x, pdwe h uc e (ion x 0) = 1.
Proof. intros. rewrite pdw_iso by reflexivity. unfold pdw, ion. cbn [pa_biso]. rewrite Rmult_0_l, Ropp_0. apply exp_0. Qed.
(** the reported derivative for the ion at (x, 0, 0) *)
Lemma ion_d_asym : forall h s uc x, nondegenerate uc -> s_red s = [op_id] ->
  mget (d_asym_of h s uc (ion x 0) X1 X1) X1 X1 =
  Cmult (phase (hdot h (act op_id (vget (mkV x 0 0))))) (RtoC (INR (pmult (full_of s) (ion x 0)) * (2695 / 10000))).
Proof.
  intros h s uc x N E. unfold d_asym_of. rewrite E, (one_op_sum (calc_pr2 h) (fun e => calc_pr1 h e (pa_xyz (ion x 0))) (fun e => pdwe h uc e (ion x 0))).
  rewrite pr12_phase, ion_dwe, rho_id, dder_hh_id by exact N. change (vget (pa_xyz (ion x 0))) with (vget (mkV x 0 0)). change (pa_occ (ion x 0)) with 1.
  rewrite <- Cmult_assoc, <- RtoC_mult. f_equal. f_equal. ring.
Qed.
Lemma ion_ta : forall h s uc x t, nondegenerate uc -> s_red s = [op_id] ->
  mget (ta h s uc (pmult (full_of s) (set_chi (ion x 0) X1 X1 t)) (set_chi (ion x 0) X1 X1 t)) X1 X1 =
  Cmult (phase (hdot h (act op_id (vget (mkV x 0 0))))) (RtoC (INR (pmult (full_of s) (ion x 0)) * (2695 / 10000 * t))).
Proof.
  intros h s uc x t N E. rewrite ta_lin.
  2:{ intros e He. rewrite E in He. destruct He as [<-|[]]. rewrite rho_id by exact N. apply det_one. }
  rewrite ion_d_asym by assumption. unfold ta. rewrite E, (one_op_sum (calc_pr2 h) (fun e => calc_pr1 h e (pa_xyz (ion x 0))) (fun e => pdwe h uc e (ion x 0))).
  rewrite pr12_phase, ion_dwe, ion_hhe; [|exact N|unfold det3, rot_real, op_id; cbn; lra].
  change (vget (pa_xyz (ion x 0))) with (vget (mkV x 0 0)). change (pa_occ (ion x 0)) with 1. change (qget (pa_chi (ion x 0)) X1 X1) with 1. change (delta X1 X1) with 1.
  rewrite !RtoC_mult, RtoC_minus. ring.
Qed.
Lemma tr_one : forall h, calc_pr3 h [(mkV 0 0 0, 1)%Z] = RtoC 1.
Proof.
  intros h. unfold calc_pr3. cbn [map length fst snd]. unfold sum_c. cbn [fold_right]. rewrite div_1, Cplus_0_r, !Z.mul_0_r. cbn [Z.add].
  unfold cexp. replace (-2 * PI * 0 / 1) with 0 by field. rewrite cos_0, sin_0. reflexivity.
Qed.
Lemma cp_one : forall h, calc_pr4 h (Some (mkV 0 0 0, 1)%Z) = RtoC 1.
Proof. intros h. rewrite pr4_phase. replace (hdot h (pos2 (mkV 0 0 0, 1)%Z)) with 0; [apply phase_0|]. unfold hdot, pos2, frac, sum3. cbn [vget v_1 v_2 v_3 fst snd]. unfold Rdiv. rewrite ?Rmult_0_l, ?Rmult_0_r. ring. Qed.
Lemma conj_R : forall x : R, Cconj (RtoC x) = RtoC x.
Proof. intros. unfold Cconj, RtoC. cbn. f_equal. ring. Qed.
Theorem dder_refuted : exists only h s uc a k l i j d, nondegenerate uc /\ sym_ok s /\ s_centro s = false /\
  is_tensor_derivative only h s uc [] a [] k l i j d /\ calc_sft_ccs_dder only h s uc a k l i j <> d.
Proof.
  exists false, (mkV 0 0 0)%Z, s_p1, (cubic 1), (ion 0 0), X1, X1, X1, X1, (RtoC (INR (pmult (full_of s_p1) (ion 0 0)) * (2695 / 10000))).
  assert (N : nondegenerate (cubic 1)) by (apply cubic_nondegenerate; lra).
  split; [exact N|]. split; [apply s_p1_ok|]. split; [reflexivity|].
  assert (TD : is_tensor_derivative false (mkV 0 0 0)%Z s_p1 (cubic 1) [] (ion 0 0) [] X1 X1 X1 X1 (RtoC (INR (pmult (full_of s_p1) (ion 0 0)) * (2695 / 10000)))).
  { exists (fun t => RtoC (INR (pmult (full_of s_p1) (ion 0 0)) * (2695 / 10000) * t)). split.
    - intros t. eexists. split; [rewrite sft_map; reflexivity|]. cbn [app]. unfold t_one, calc_t_by_t_asym. rewrite mget_tab. unfold calc_f_by_f_asym. cbn [map combine fst snd].
      rewrite ion_ta by (exact N || reflexivity). change (pff false (mkV 0 0 0)%Z (cubic 1) (set_chi (ion 0 0) X1 X1 t)) with (pff false (mkV 0 0 0)%Z (cubic 1) (ion 0 0)).
      rewrite ion_ff, phase_000. change (s_centro s_p1) with false. cbv zeta. rewrite tr_one. unfold sum_c. cbn [fold_right]. rewrite !RtoC_mult. ring.
    - unfold RtoC, Re, Im. cbn [fst snd]. split; [|apply (is_derive_const 0)]. set (c := INR (pmult (full_of s_p1) (ion 0 0)) * (2695 / 10000)). clearbody c. auto_derive; [exact Logic.I|ring]. }
  split; [exact TD|].
  rewrite (dder_noncentro false (mkV 0 0 0)%Z s_p1 (cubic 1) [] (ion 0 0) [] X1 X1 X1 X1 _ N eq_refl) with (2 := TD).
  - intros E. assert (E2 : INR (pmult (full_of s_p1) (ion 0 0)) * (2695 / 10000) = 0).
    { pose proof (f_equal snd E) as Q. unfold Cmult, RtoC in Q. cbn [fst snd] in Q. lra. }
    change (pmult (full_of s_p1) (ion 0 0)) with (calc_multiplicity (full_of s_p1) (get_atom_symm_elem (mkV 0 0 0))) in E2. rewrite round_0 in E2.
    change (calc_multiplicity (full_of s_p1) (AtomPos (mkV 0 0 0)%Z 3000000)) with 1%nat in E2. cbn [INR] in E2. lra.
  - intros e [<-|[]]. unfold det3, rot_real, op_id. cbn. ring.
Qed.
Lemma round_14 : get_atom_symm_elem (mkV (1 / 4) 0 0) = AtomPos (mkV 750000 0 0)%Z 3000000.
Proof.
  unfold get_atom_symm_elem. cbn [v_1 v_2 v_3]. replace (0 * 3 * 10 ^ 6) with (IZR 0) by ring.
  replace (1 / 4 * 3 * 10 ^ 6) with (IZR 750000) by (simpl; field). rewrite !np_round_int. reflexivity.
Qed.
Theorem dder_centro_refuted : exists only h s uc a k l i j d, nondegenerate uc /\ sym_ok s /\ s_centro s = true /\
  is_tensor_derivative only h s uc [] a [] k l i j d /\ calc_sft_ccs_dder only h s uc a k l i j <> d.
Proof.
  set (h := (mkV 1 0 0)%Z). set (a := ion (1 / 4) 0).
  assert (N : nondegenerate (cubic 1)) by (apply cubic_nondegenerate; lra).
  assert (P : phase (hdot h (act op_id (vget (mkV (1 / 4) 0 0)))) = (0, -1)).
  { replace (hdot h (act op_id (vget (mkV (1 / 4) 0 0)))) with (1 / 4) by (unfold hdot, act, sum3, h, op_id; cbn; field).
    rewrite <- cexp_phase. unfold cexp. replace (-2 * PI * (1 / 4)) with (- (PI / 2)) by field. rewrite cos_neg, sin_neg, cos_PI2, sin_PI2. reflexivity. }
  assert (M : pmult (full_of s_pm1) a = 2%nat).
  { change (pmult (full_of s_pm1) a) with (calc_multiplicity (full_of s_pm1) (get_atom_symm_elem (mkV (1 / 4) 0 0))). rewrite round_14. reflexivity. }
  exists false, h, s_pm1, (cubic 1), a, X1, X1, X1, X1, (RtoC 0).
  split; [exact N|]. split; [apply s_pm1_ok|]. split; [reflexivity|]. split.
  - exists (fun t => RtoC 0). split.
    + intros t. eexists. split; [rewrite sft_map; reflexivity|]. cbn [app]. unfold t_one, calc_t_by_t_asym. rewrite mget_tab. unfold calc_f_by_f_asym. cbn [map combine fst snd].
      unfold a. rewrite ion_ta by (exact N || reflexivity). change (pff false h (cubic 1) (set_chi (ion (1 / 4) 0) X1 X1 t)) with (pff false h (cubic 1) (ion (1 / 4) 0)).
      rewrite ion_ff, P. change (s_centro s_pm1) with true. cbv zeta. change (cp_arg s_pm1) with (Some (mkV 0 0 0, 1)%Z). change (s_tr s_pm1) with [(mkV 0 0 0, 1)%Z].
      rewrite tr_one, cp_one. unfold sum_c. cbn [fold_right]. unfold RtoC, Cmult, Cplus, Cconj. cbn [fst snd]. f_equal; ring.
    + unfold RtoC, Re, Im. cbn [fst snd]. split; apply (is_derive_const 0).
  - unfold calc_sft_ccs_dder. change (s_centro s_pm1) with true. change (cp_arg s_pm1) with (Some (mkV 0 0 0, 1)%Z). change (s_tr s_pm1) with [(mkV 0 0 0, 1)%Z].
    rewrite tr_one, cp_one. unfold sft_asym_a_dder.
    match goal with |- context [mget ?X X1 X1] => change X with (d_asym_of h s_pm1 (cubic 1) a X1 X1) end. 
    pose proof (ion_d_asym h s_pm1 (cubic 1) (1 / 4) N eq_refl) as DA. fold a in DA. rewrite DA.
    rewrite P, M.
    change (calc_form_factor false (calc_sthovl (hkl_real h) (cubic 1)) (pa_lande a) (pa_kappa a) (pa_j0 a) (pa_j2 a)) with (pff false h (cubic 1) (ion (1 / 4) 0)).
    rewrite ion_ff. unfold sft_dder, dder_real, dder_imag. intros E. pose proof (f_equal snd E) as Q. unfold Cminus in Q; unfold Cmult, Cplus, Copp, Cconj, Ci, RtoC in Q. cbn [fst snd INR] in Q. ring_simplify in Q. lra.
Qed.
