(** The derivative over the susceptibility in a centrosymmetric group: its real part is the derivative. *)
From Coq Require Import Reals ZArith List Bool Lra Lia Permutation.
From Coquelicot Require Import Coquelicot.
From Verif Require Import Spec.Lin3 Spec.Cell Spec.Symm Spec.Scatter Spec.StructSpec Spec.HklSpec Spec.MagSpec
  Model.MatrixOps Model.UnitCell Model.Symmetry Model.AtomFactors Model.StructFactor Model.MagStruct Model.Constraints
  Proofs.MatrixOpsP Proofs.UnitCellP Proofs.ConstraintsP Proofs.SymmBaseP Proofs.SymmGroupP Proofs.SymmExP Proofs.ScatterP Proofs.StructFactorP Proofs.StructFactorP2 Proofs.StructFactorP3
  Proofs.HklListP2 Proofs.HklExP Proofs.MagStructP Proofs.MagStructP4 Proofs.MagStructP5 Proofs.MagStructP6.
Import ListNotations.
Open Scope list_scope.
Open Scope R_scope.

Lemma combine_split : forall (A A2 : list C) (a : C) (u v : list C) (b : C), length A = length u -> combine (A ++ a :: A2) (u ++ b :: v) = combine A u ++ (a, b) :: combine A2 v.
Proof. induction A as [|y A IH]; intros A2 a [|z u] v b L; cbn in *; try discriminate; [reflexivity|]. f_equal. apply IH. lia. Qed.
Lemma f_asym_lin_centro : forall (pre post : list (M3 C)) (x x0 dx : M3 C) (bp bq : list R) (f : R) i j t,
  length bp = length pre -> length bq = length post -> mget x i j = Cplus (mget x0 i j) (Cmult (mget dx i j) (RtoC t)) ->
  mget (calc_t_by_t_asym (pre ++ x :: post) (bp ++ f :: bq) (RtoC 1) true (RtoC 1)) i j =
  Cplus (mget (calc_t_by_t_asym (pre ++ x0 :: post) (bp ++ f :: bq) (RtoC 1) true (RtoC 1)) i j) (RtoC (f * Re (mget dx i j) * t)).
Proof.
  intros pre post x x0 dx bp bq f i j t L1 L2 E. unfold calc_t_by_t_asym. rewrite !mget_tab. unfold calc_f_by_f_asym. cbv zeta. rewrite !sum_c_csum.
  rewrite !map_app. cbn [map].
  rewrite !combine_split by (rewrite !map_length; exact L1). rewrite !map_app. cbn [map fst snd]. rewrite !csum_app. unfold csum at 2 4 6 8. cbn [fold_right].
  repeat match goal with |- context [fold_right Cplus (RtoC 0) ?l] => change (fold_right Cplus (RtoC 0) l) with (csum l) end.
  repeat match goal with |- context [csum (map ?g ?l)] => let v := fresh "w" in set (v := csum (map g l)) end. clearbody w w0 w1 w2.
  rewrite E. destruct (mget x0 i j) as [a b], (mget dx i j) as [c e], w as [a1 b1], w0 as [a2 b2], w1 as [a3 b3], w2 as [a4 b4].
  unfold Cmult, Cplus, Cconj, RtoC, Re. cbn [fst snd]. f_equal; field.
Qed.
Theorem dder_centro : forall only h s uc pre a post k l i j d, nondegenerate uc -> s_centro s = true ->
  fst (s_cp s) = mkV 0%Z 0%Z 0%Z -> symmetry_group (map translation_op (s_tr s)) -> present (s_tr s) h ->
  (forall e, In e (s_red s) -> det3 (rot_real e) = 1) -> is_tensor_derivative only h s uc pre a post k l i j d ->
  d = RtoC (Re (calc_sft_ccs_dder only h s uc a k l i j)).
Proof.
  intros only h s uc pre a post k l i j d N Ce Cp G Pr D (F & HF & H1 & H2).
  assert (D' : forall e, In e (s_red s) -> calc_det_m (calc_m_r_inv_m uc e) = 1) by (intros e He; apply det_rho_1; auto).
  assert (P4 : calc_pr4 h (cp_arg s) = RtoC 1).
  { unfold cp_arg. rewrite Ce, pr4_phase. replace (hdot h (pos2 (s_cp s))) with 0.
    - replace (2 * 0) with 0 by ring. apply phase_0.
    - unfold hdot, pos2, frac, sum3. rewrite Cp. cbn [vget v_1 v_2 v_3]. unfold Rdiv. rewrite !Rmult_0_l. ring. }
  assert (P3 : calc_pr3 h (s_tr s) = RtoC 1) by (apply pr3_present; assumption).
  set (f := pff only h uc a). set (dx := mget (d_asym_of h s uc a k l) i j).
  assert (L : exists c0, forall t, F t = Cplus c0 (RtoC (f * Re dx * (t - qget (pa_chi a) k l)))).
  { eexists. intros t. destruct (HF t) as (T & E & ->). apply tensor1 in E. subst T. unfold t_one. rewrite Ce, P3, P4. rewrite !map_app. cbn [map].
    change (pff only h uc (set_chi a k l t)) with f.
    apply (f_asym_lin_centro _ _ _ (ta h s uc (pmult (full_of s) a) a) (d_asym_of h s uc a k l)); [rewrite !map_length; reflexivity|rewrite !map_length; reflexivity|].
    apply ta_lin. exact D'. }
  destruct L as (c0 & L).
  set (B := RtoC (f * Re dx)).
  assert (R1 : is_derive (fun t : R => Re (F t)) (qget (pa_chi a) k l) (Re B)).
  { apply (is_derive_ext (fun t : R => Re c0 + Re B * (t - qget (pa_chi a) k l))).
    - intros t. rewrite L. unfold B, Cplus, Cmult, RtoC, Re. cbn [fst snd]. match goal with |- ?x = ?y => change (@eq R x y) end. ring.
    - apply lin_deriv. }
  assert (R2 : is_derive (fun t : R => Im (F t)) (qget (pa_chi a) k l) (Im B)).
  { apply (is_derive_ext (fun t : R => Im c0 + Im B * (t - qget (pa_chi a) k l))).
    - intros t. rewrite L. unfold B, Cplus, Cmult, RtoC, Im. cbn [fst snd]. match goal with |- ?x = ?y => change (@eq R x y) end. ring.
    - apply lin_deriv. }
  assert (E : d = B).
  { apply is_derive_unique in H1, H2, R1, R2. rewrite H1 in R1. rewrite H2 in R2. clear L. clearbody B. destruct d as [x y], B as [u v]. cbn in R1, R2. subst. reflexivity. }
  rewrite E. unfold B. f_equal. unfold calc_sft_ccs_dder. rewrite Ce. fold (cp_arg s). 
  unfold sft_dder, dder_real, dder_imag. 
  unfold sft_asym_a_dder.
  change (calc_form_factor only (calc_sthovl (hkl_real h) uc) (pa_lande a) (pa_kappa a) (pa_j0 a) (pa_j2 a)) with f.
  match goal with |- context [mget ?X i j] => change X with (d_asym_of h s uc a k l) end. fold dx. rewrite P3, P4.
  clearbody dx f. destruct dx as [x y]. unfold Cminus. unfold Cmult, Cplus, Copp, Cconj, Ci, RtoC, Re. cbn [fst snd].
  field.
Qed.
Lemma centro_case : s_centro (mkS [op_id] true (mkV 0 0 0, 1)%Z body) = true /\ symmetry_group (map translation_op body) /\
  present body (mkV 1 1 0)%Z /\ forall e, In e [op_id] -> det3 (rot_real e) = 1.
Proof.
  split; [reflexivity|]. split; [exact body_group|]. split.
  - intros t [<-|[<-|[]]]; [exists 0%Z|exists 1%Z]; unfold hdot, frac, sum3; cbn; field.
  - intros e [<-|[]]. unfold det3, rot_real, op_id. cbn. ring.
Qed.
