From Coq Require Import Reals ZArith List Bool Lra Lia Permutation.
From Coquelicot Require Import Complex.
From Verif Require Import Spec.Lin3 Spec.Cell Spec.Symm Spec.Scatter Spec.StructSpec Spec.MagSpec
  Model.MatrixOps Model.UnitCell Model.Symmetry Model.AtomFactors Model.StructFactor Model.MagStruct Model.Constraints
  Proofs.MatrixOpsP Proofs.UnitCellP Proofs.SymmBaseP Proofs.SymmGroupP Proofs.ScatterP Proofs.StructFactorP Proofs.StructFactorP2 Proofs.ConstraintsP Proofs.MagStructP.
Import ListNotations.
Open Scope list_scope.
Open Scope R_scope.

Lemma by_full_ok : forall s, sym_ok s -> sym_ok (by_full (full_of s)).
Proof.
  intros s Ok. unfold sym_ok, by_full. cbn [s_red s_tr s_cp s_centro snd]. split; [apply full_pos; exact Ok|]. split; [intros t [<-|[]]; cbn; lia|].
  split; [lia|]. split; [apply full_nonempty; exact Ok|discriminate].
Qed.
Lemma m3c_ext : forall A (a b : M3 A), (forall i j, mget a i j = mget b i j) -> a = b.
Proof.
  intros A [a1 a2 a3 a4 a5 a6 a7 a8 a9] [b1 b2 b3 b4 b5 b6 b7 b8 b9] H.
  pose proof (H X1 X1); pose proof (H X1 X2); pose proof (H X1 X3); pose proof (H X2 X1); pose proof (H X2 X2); pose proof (H X2 X3);
  pose proof (H X3 X1); pose proof (H X3 X2); pose proof (H X3 X3). cbn in *. congruence.
Qed.
Theorem tensor_reduced_is_full : forall only hkls s uc atoms, sym_ok s -> (forall a, In a atoms -> p_isotropic a) ->
  calc_sft_ccs only hkls s uc atoms = calc_sft_ccs only hkls (by_full (full_of s)) uc atoms.
Proof.
  intros only hkls s uc atoms Ok Hi. rewrite !sft_map. apply map_ext. intros h. apply m3c_ext. intros i j.
  pose proof (by_full_ok s Ok) as Ok2.
  rewrite !t_one_iso by assumption. apply csum_ext. intros a Ha.
  replace (pmult (full_of (by_full (full_of s))) a) with (pmult (full_of s) a)
    by (symmetry; exact (mult_by_full (full_of s) (mkA (pa_xyz a) 0 (RtoC 0) 0 q_zero) (full_pos s Ok))).
  rewrite full_of_by_full, map_length. f_equal. unfold wsum. rewrite map_map. apply csum_ext. intros e He.
  rewrite hhe_tr. f_equal. symmetry. apply phase_same. apply add_zero. apply (full_pos s Ok e He).
Qed.

Lemma st_hR : forall h e g uc, nondegenerate uc -> metric_invariant uc e -> is_hR h e g -> calc_sthovl (hkl_real g) uc = calc_sthovl (hkl_real h) uc.
Proof. intros h e g uc N M H. apply is_hR_unique in H. subst g. unfold calc_sthovl. rewrite !hkl_real_vR, inv_d_hkl_r by assumption. reflexivity. Qed.
Lemma csum3_csum : forall A (f : ix -> A -> C) l, csum3 (fun k => csum (map (f k) l)) = csum (map (fun a => csum3 (fun k => f k a)) l).
Proof. intros. unfold csum3. rewrite !csum_plus. reflexivity. Qed.
Lemma csum3_R : forall (f : ix -> R), csum3 (fun k => RtoC (f k)) = RtoC (sum3 f).
Proof. intros. unfold csum3, sum3. rewrite !RtoC_plus. reflexivity. Qed.
Lemma csum3_ext : forall f g, (forall k, f k = g k) -> csum3 f = csum3 g.
Proof. intros f g H. unfold csum3. rewrite !H. reflexivity. Qed.

Lemma hhe_same : forall uc a e f, same_op e f -> hhe uc a e = hhe uc a f.
Proof. intros uc a e f H. unfold hhe, calc_m_r_inv_m, rot9. rewrite (act_rot_same e f H). reflexivity. Qed.
Lemma hhe_comp : forall uc l a g e f, nondegenerate uc -> symmetry_group l -> In e l -> In f l -> In g l -> is_composition g e f ->
  mul (rho uc e) (mget (hhe uc a f)) = mul (mget (hhe uc a g)) (rho uc e).
Proof.
  intros uc l a g e f N G He Hf Hg H. assert (Dp := proj1 G).
  apply (mul_cancel_r _ _ (rho uc f)); [apply rho_det; [exact N|apply (group_det l f G Hf)]|].
  rewrite <- mul_assoc, (hhe_spec uc N a f (group_det l f G Hf)), <- mul_assoc, <- (rho_mul uc N g e f (Dp g Hg) (Dp e He) (Dp f Hf) H).
  rewrite (hhe_spec uc N a g (group_det l g G Hg)), mul_assoc, <- (rho_mul uc N g e f (Dp g Hg) (Dp e He) (Dp f Hf) H). reflexivity.
Qed.
Lemma group_sum_in : forall l g (f : Op -> C), symmetry_group l -> In g l ->
  forall F : Op -> C, (forall e k, In e l -> In k l -> is_composition k g e -> F e = f k) ->
  csum (map F l) = csum (map f l).
Proof.
  intros l g f (Hd & _ & Hc & Hi & Hn) Hg F HF.
  destruct (Hi g Hg) as (gi & Hgi & Egi).
  apply (csum_match Op (fun e k => In k l /\ is_composition k g e)).
  - apply (fop_weaken (fun e f => ~ same_op e f)); [|exact Hn].
    intros a b Ha Hb Nab k [_ Ka] [_ Kb]. apply Nab. intros x.
    apply sp_trans with (act gi (act g (act a x))); [apply sp_sym, Egi|].
    apply sp_trans with (act gi (act g (act b x))); [|apply Egi].
    apply act_sp. apply sp_trans with (act k x); [apply sp_sym, Ka|apply Kb].
  - intros e He. destruct (Hc g e Hg He) as (k & Hk & Ck). exists k. auto.
  - intros e k He [Hk Ck]. apply HF; assumption.
Qed.
(** covariance of the sum over the group *)
Lemma wsum_hR : forall uc l a e h g x i j, nondegenerate uc -> symmetry_group l -> In e l -> is_hR h e g ->
  csum3 (fun k => Cmult (RtoC (rho uc e i k)) (wsum g l x (fun f => mget (hhe uc a f) k j))) =
  Cmult (phase (- hdot h (frac (e_b e) (e_d e)))) (csum3 (fun k => Cmult (wsum h l x (fun f => mget (hhe uc a f) i k)) (RtoC (rho uc e k j)))).
Proof.
  intros uc l a e h g x i j N G He H. unfold wsum.
  transitivity (csum (map (fun f => Cmult (phase (- hdot h (frac (e_b e) (e_d e)))) (Cmult (phase (hdot h (act e (act f x)))) (RtoC (mul (rho uc e) (mget (hhe uc a f)) i j)))) l)).
  - transitivity (csum3 (fun k => csum (map (fun f => Cmult (RtoC (rho uc e i k)) (Cmult (phase (hdot g (act f x))) (RtoC (mget (hhe uc a f) k j)))) l))).
    { apply csum3_ext. intros k. rewrite csum_scal. reflexivity. }
    rewrite csum3_csum. apply csum_ext. intros f _. rewrite (hdot_hR h e g _ H), phase_add. unfold mul. rewrite <- csum3_R. unfold csum3. rewrite !RtoC_mult. ring.
  - rewrite csum_scal. f_equal.
    transitivity (csum (map (fun f => csum3 (fun k => Cmult (Cmult (phase (hdot h (act f x))) (RtoC (mget (hhe uc a f) i k))) (RtoC (rho uc e k j)))) l)).
    2:{ rewrite <- csum3_csum. apply csum3_ext. intros k. rewrite csum_scal_r. reflexivity. }
    apply (group_sum_in l e _ G He). intros f k Hf Hk Ck.
    rewrite (hhe_comp uc l a k e f N G He Hf Hk Ck). rewrite <- (phase_same h _ _ (Ck x)). unfold mul. rewrite <- csum3_R. unfold csum3. rewrite !RtoC_mult. ring.
Qed.
Lemma t_one_hR : forall only s uc mu atoms e h g i j, sym_ok s -> symmetry_group (full_of s) -> nondegenerate uc ->
  (forall a, In a atoms -> p_isotropic a) -> In e (full_of s) -> metric_invariant uc e -> is_hR h e g ->
  csum3 (fun k => Cmult (RtoC (rho uc e i k)) (mget (t_one only s uc mu atoms g) k j)) =
  Cmult (phase (- hdot h (frac (e_b e) (e_d e)))) (csum3 (fun k => Cmult (mget (t_one only s uc mu atoms h) i k) (RtoC (rho uc e k j)))).
Proof.
  intros only s uc mu atoms e h g i j Ok G N Hi He M H.
  set (K := fun a => RtoC (pff only h uc a * (INR (mu a) * pa_occ a * pdw h uc a / INR (length (full_of s))))).
  assert (Kg : forall a, RtoC (pff only g uc a * (INR (mu a) * pa_occ a * pdw g uc a / INR (length (full_of s)))) = K a).
  { intros a. unfold K, pff, pdw. rewrite (st_hR h e g uc N M H). reflexivity. }
  transitivity (csum3 (fun k => csum (map (fun a => Cmult (RtoC (rho uc e i k)) (Cmult (K a) (wsum g (full_of s) (vget (pa_xyz a)) (fun f => mget (hhe uc a f) k j)))) atoms))).
  { apply csum3_ext. intros k. rewrite t_one_iso by assumption. rewrite <- csum_scal. apply csum_ext. intros a _. rewrite Kg. reflexivity. }
  transitivity (Cmult (phase (- hdot h (frac (e_b e) (e_d e)))) (csum3 (fun k => csum (map (fun a => Cmult (Cmult (K a) (wsum h (full_of s) (vget (pa_xyz a)) (fun f => mget (hhe uc a f) i k))) (RtoC (rho uc e k j))) atoms)))).
  2:{ f_equal. apply csum3_ext. intros k. rewrite t_one_iso by assumption. rewrite <- csum_scal_r. apply csum_ext. intros a _. reflexivity. }
  rewrite !csum3_csum, <- csum_scal. apply csum_ext. intros a _.
  transitivity (Cmult (K a) (csum3 (fun k => Cmult (RtoC (rho uc e i k)) (wsum g (full_of s) (vget (pa_xyz a)) (fun f => mget (hhe uc a f) k j))))); [unfold csum3; ring|].
  rewrite (wsum_hR uc (full_of s) a e h g _ i j N G He H). unfold csum3. ring.
Qed.
Theorem tensor_covariant : forall only s uc atoms e A h g T U, sym_ok s -> symmetry_group (full_of s) -> nondegenerate uc ->
  (forall a, In a atoms -> p_isotropic a) -> In e (full_of s) -> metric_invariant uc e -> is_hR h e g ->
  in_frame (mget (calc_m_m uc)) e A ->
  calc_sft_ccs only [h; g] s uc atoms = [T; U] -> forall i j,
  csum3 (fun k => Cmult (RtoC (A i k)) (mget U k j)) =
  Cmult (phase (- hdot h (frac (e_b e) (e_d e)))) (csum3 (fun k => Cmult (mget T i k) (RtoC (A k j)))).
Proof.
  intros only s uc atoms e A h g T U Ok G N Hi He M H HA E i j. apply tensor2 in E as [-> ->]. rewrite (rho_unique uc N e A HA).
  apply t_one_hR; assumption.
Qed.

(* ---- symmetric tensors ---- *)
Lemma rho_orth : forall uc e, nondegenerate uc -> metric_invariant uc e -> mul (tr (rho uc e)) (rho uc e) = delta /\ mul (rho uc e) (tr (rho uc e)) = delta.
Proof.
  intros uc e N M. assert (O : mul (tr (rho uc e)) (rho uc e) = delta).
  { unfold rho. rewrite m_r_is_cart. apply (cart_orth uc [(e, 1%Z)] N) with (e := (e, 1%Z)); [|left; reflexivity]. intros f [<-|[]]. exact M. }
  split; [exact O|]. apply mat_ext. intros i j. apply left_inverse_right. intros i' j'. exact (f_equal (fun f => f i' j') O).
Qed.
Lemma orth_det : forall a, mul (tr a) a = delta -> det3 a <> 0.
Proof.
  intros a H Z. assert (D : det3 (mul (tr a) a) = 1) by (rewrite H; unfold det3, delta; ring). rewrite det_mul', Z in D. lra.
Qed.
Lemma hhe_spec' : forall uc a e, nondegenerate uc -> metric_invariant uc e ->
  mget (hhe uc a e) = mul (mul (rho uc e) (fun i j => 2695 / 10000 * qget (site_chi a) i j)) (tr (rho uc e)).
Proof.
  intros uc a e N M. destruct (rho_orth uc e N M) as [O1 O2].
  assert (S : mul (mget (hhe uc a e)) (rho uc e) = mul (rho uc e) (fun i j => 2695 / 10000 * qget (site_chi a) i j)).
  { apply mat_ext. intros i j. unfold mul, hhe, hh_of. unfold rho. rewrite m_q_inv_m_spec by (apply (orth_det _ O1)).
    apply sum3_ext. intros k. rewrite mas_site. reflexivity. }
  rewrite <- S, <- mul_assoc, O2, mul_one_r. reflexivity.
Qed.
Lemma hhe_sym : forall uc a e, nondegenerate uc -> metric_invariant uc e -> forall i j, mget (hhe uc a e) i j = mget (hhe uc a e) j i.
Proof.
  intros uc a e N M i j. rewrite (hhe_spec' uc a e N M). unfold mul, tr, sum3.
  destruct (site_chi a) as [q11 q22 q33 q12 q13 q23]. cbn [qget q_11 q_22 q_33 q_12 q_13 q_23]. ring.
Qed.
Lemma ta_sym : forall h s uc m a, nondegenerate uc -> (forall e, In e (s_red s) -> metric_invariant uc e) ->
  forall i j, mget (ta h s uc m a) i j = mget (ta h s uc m a) j i.
Proof.
  intros h s uc m a N M i j. rewrite !ta_sum. f_equal. unfold wsum. apply csum_ext. intros e He. rewrite (hhe_sym uc a e N (M e He) i j). reflexivity.
Qed.
Theorem tensor_symmetric : forall only s uc atoms h T, nondegenerate uc -> (forall e, In e (s_red s) -> metric_invariant uc e) ->
  calc_sft_ccs only [h] s uc atoms = [T] -> forall i j, mget T i j = mget T j i.
Proof.
  intros only s uc atoms h T N M E i j. apply tensor1 in E. subst T. unfold t_one, calc_t_by_t_asym. rewrite !mget_tab. rewrite !map_map. f_equal.
  apply map_ext. intros a. apply ta_sym; assumption.
Qed.

(* ---- Friedel, centric, absences ---- *)
Lemma dwe_opp : forall h uc e a, nondegenerate uc -> pdwe (z_opp_v h) uc e a = pdwe h uc e a.
Proof.
  intros h uc e a N. unfold pdwe, calc_sthovl. rewrite !hkl_real_vR, inv_d_opp by assumption. unfold dwf_call, calc_dwf. do 3 f_equal.
  unfold calc_power_dwf_aniso, rotated_hkl, hkl_real, z_opp_v. cbn [v_1 v_2 v_3]. rewrite !mult_IZR. unfold Rsqr. ring.
Qed.
Lemma ta_opp : forall h s uc m a i j, nondegenerate uc -> s_red s <> [] -> mget (ta (z_opp_v h) s uc m a) i j = Cconj (mget (ta h s uc m a) i j).
Proof.
  intros h s uc m a i j N Nr. rewrite !ta_sum, !cconj_mult. unfold wsum. rewrite <- csum_conj.
  assert (Nn : INR (length (s_red s)) <> 0) by (apply not_0_INR; destruct (s_red s); [congruence|discriminate]).
  rewrite <- !RtoC_inv by exact Nn. rewrite !cconj_R. f_equal. apply csum_ext. intros e _. rewrite cconj_mult, phase_neg_h, cconj_R, dwe_opp by exact N. reflexivity.
Qed.
Lemma pr3_opp : forall h s, (forall t, In t (s_tr s) -> (0 < snd t)%Z) -> s_tr s <> [] -> calc_pr3 (z_opp_v h) (s_tr s) = Cconj (calc_pr3 h (s_tr s)).
Proof.
  intros h s Ht Nt. rewrite !pr3_phase by assumption. rewrite !cdiv_scal.
  assert (Nn : INR (length (s_tr s)) <> 0) by (apply not_0_INR; destruct (s_tr s); [congruence|discriminate]).
  rewrite <- !RtoC_inv by exact Nn. rewrite cconj_mult, cconj_R, <- csum_conj. f_equal. apply csum_ext. intros. apply phase_neg_h.
Qed.
Theorem tensor_friedel : forall only s uc atoms h T U, sym_ok s -> nondegenerate uc ->
  calc_sft_ccs only [h; z_opp_v h] s uc atoms = [T; U] -> forall i j, mget U i j = Cconj (mget T i j).
Proof.
  intros only s uc atoms h T U (Hr & Ht & Hc & Nr & Nt) N E i j. apply tensor2 in E as [-> ->].
  unfold t_one, calc_t_by_t_asym. rewrite !mget_tab. rewrite !map_map. unfold calc_f_by_f_asym, cp_arg. rewrite !combine_map2, !map_map. cbn [fst snd].
  change sum_c with csum. rewrite (pr3_opp h s Ht Nt).
  assert (Pf : forall a, pff only (z_opp_v h) uc a = pff only h uc a) by (intros a; unfold pff, calc_sthovl; rewrite !hkl_real_vR, inv_d_opp by assumption; reflexivity).
  set (mu := pmult (full_of s)).
  rewrite (csum_ext _ (fun a => Cmult (RtoC (pff only (z_opp_v h) uc a)) (mget (ta (z_opp_v h) s uc (mu a) a) i j)) (fun a => Cconj (Cmult (RtoC (pff only h uc a)) (mget (ta h s uc (mu a) a) i j))))
    by (intros a _; rewrite ta_opp, Pf, cconj_mult, cconj_R by assumption; reflexivity).
  rewrite (csum_ext _ (fun a => Cmult (RtoC (pff only (z_opp_v h) uc a)) (Cconj (mget (ta (z_opp_v h) s uc (mu a) a) i j))) (fun a => Cconj (Cmult (RtoC (pff only h uc a)) (Cconj (mget (ta h s uc (mu a) a) i j)))))
    by (intros a _; rewrite ta_opp, Pf, cconj_mult, cconj_R by assumption; reflexivity).
  rewrite !csum_conj. destruct (s_centro s).
  - rewrite !pr4_phase, phase_neg_h. rewrite !cconj_mult, !cconj_plus, !cconj_mult, cconj_R. reflexivity.
  - rewrite cconj_mult. reflexivity.
Qed.
Theorem tensor_centric : forall only s uc atoms h T, s_centro s = true ->
  calc_sft_ccs only [h] s uc atoms = [T] -> forall i j, real_valued (Cmult (mget T i j) (phase (- hdot h (frac (fst (s_cp s)) (snd (s_cp s)))))).
Proof.
  intros only s uc atoms h T Hc E i j. apply tensor1 in E. subst T. unfold t_one, calc_t_by_t_asym. rewrite !mget_tab. rewrite !map_map.
  unfold calc_f_by_f_asym, cp_arg. rewrite Hc, pr4_phase. rewrite !combine_map2, !map_map. cbn [fst snd]. change sum_c with csum.
  apply cconj_real. set (mu := pmult (full_of s)).
  set (S1 := csum (map (fun a => Cmult (RtoC (pff only h uc a)) (mget (ta h s uc (mu a) a) i j)) atoms)).
  assert (E2 : csum (map (fun a => Cmult (RtoC (pff only h uc a)) (Cconj (mget (ta h s uc (mu a) a) i j))) atoms) = Cconj S1).
  { unfold S1. rewrite <- csum_conj. apply csum_ext. intros a Ha. rewrite cconj_mult, cconj_R. reflexivity. }
  rewrite E2. set (p := hdot h (frac _ _)).
  replace (hdot h (pos2 (s_cp s))) with (p + p) by (unfold p, hdot, pos2, sum3; ring).
  rewrite phase_add.
  replace (Cmult (Cmult (RtoC (5 / 10)) (Cplus (Cmult (calc_pr3 h (s_tr s)) S1) (Cmult (Cmult (phase p) (phase p)) (Cmult (Cconj (calc_pr3 h (s_tr s))) (Cconj S1))))) (phase (- p)))
    with (Cmult (RtoC (5 / 10)) (Cplus (Cmult (Cmult (calc_pr3 h (s_tr s)) S1) (phase (- p))) (Cmult (Cmult (Cmult (phase p) (phase (- p))) (phase p)) (Cmult (Cconj (calc_pr3 h (s_tr s))) (Cconj S1))))) by ring.
  apply real_half. rewrite !cconj_mult, phase_conj, Ropp_involutive, <- phase_add.
  replace (p + - p) with 0 by ring. rewrite phase_0. ring.
Qed.
Theorem tensor_absence : forall only s uc atoms h T, (forall t, In t (s_tr s) -> (0 < snd t)%Z) ->
  csum (map (fun t => phase (hdot h (frac (fst t) (snd t)))) (s_tr s)) = RtoC 0 ->
  calc_sft_ccs only [h] s uc atoms = [T] -> forall i j, mget T i j = RtoC 0.
Proof.
  intros only s uc atoms h T Ht H E i j. apply tensor1 in E. subst T. unfold t_one, calc_t_by_t_asym. rewrite mget_tab. unfold calc_f_by_f_asym.
  rewrite pr3_phase by assumption. rewrite H, cdiv_scal, Cmult_0_r, cconj_R. destruct (s_centro s); ring.
Qed.

(* ---- the perpendicular component ---- *)
Lemma perp_formula : forall q v i, vget (c_v1_v2_v1 q v) i =
  Cminus (Cmult (RtoC (dot (vget q) (vget q))) (vget v i)) (Cmult (cdot (vget q) (vget v)) (RtoC (vget q i))).
Proof.
  intros [q1 q2 q3] [v1 v2 v3] []; unfold c_v1_v2_v1, calc_vv_as_v1_v2_v1, c_dot3, dot, cdot, csum3, sum3; cbn [vget v_1 v_2 v_3];
  unfold Rsqr; rewrite !RtoC_plus, !RtoC_mult, ?RtoC_opp; ring.
Qed.
Theorem perp_is_perp : forall T H q, cdot (vget q) (vget (calc_f_m_perp T H q)) = RtoC 0.
Proof.
  intros T H q. unfold calc_f_m_perp. unfold cdot at 1. unfold csum3. rewrite !perp_formula. generalize (c_m_v T H). intros v.
  unfold cdot, csum3, dot, sum3. rewrite !RtoC_plus, !RtoC_mult. ring.
Qed.
Theorem perp_projection : forall T H q, dot (vget q) (vget q) = 1 -> forall i,
  vget (calc_f_m_perp T H q) i =
  Cminus (csum3 (fun k => Cmult (mget T i k) (RtoC (vget H k))))
    (Cmult (cdot (vget q) (fun j => csum3 (fun k => Cmult (mget T j k) (RtoC (vget H k))))) (RtoC (vget q i))).
Proof.
  intros T H q U i. unfold calc_f_m_perp. rewrite perp_formula, U.
  assert (V : forall j, vget (c_m_v T H) j = csum3 (fun k => Cmult (mget T j k) (RtoC (vget H k)))) by (intros []; reflexivity).
  unfold cdot, csum3. rewrite !V. unfold csum3. ring.
Qed.
Theorem perp_linear : forall T a b H K q i,
  vget (calc_f_m_perp T (mkV (a * v_1 H + b * v_1 K) (a * v_2 H + b * v_2 K) (a * v_3 H + b * v_3 K)) q) i =
  Cplus (Cmult (RtoC a) (vget (calc_f_m_perp T H q) i)) (Cmult (RtoC b) (vget (calc_f_m_perp T K q) i)).
Proof.
  intros T a b [h1 h2 h3] [k1 k2 k3] q i. unfold calc_f_m_perp. rewrite !perp_formula. destruct T.
  unfold cdot, csum3, c_m_v. destruct i; cbn [vget v_1 v_2 v_3 Lin3.m_11 Lin3.m_12 Lin3.m_13 Lin3.m_21 Lin3.m_22 Lin3.m_23 Lin3.m_31 Lin3.m_32 Lin3.m_33];
  rewrite !RtoC_plus, !RtoC_mult; ring.
Qed.
