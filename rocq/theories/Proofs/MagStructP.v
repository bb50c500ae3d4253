From Coq Require Import Reals ZArith List Bool Lra Lia Permutation.
From Coquelicot Require Import Complex.
From Verif Require Import Spec.Lin3 Spec.Cell Spec.Symm Spec.Scatter Spec.StructSpec Spec.MagSpec
  Model.MatrixOps Model.UnitCell Model.Symmetry Model.AtomFactors Model.StructFactor Model.MagStruct Model.Constraints
  Proofs.MatrixOpsP Proofs.UnitCellP Proofs.SymmBaseP Proofs.SymmGroupP Proofs.ScatterP Proofs.StructFactorP Proofs.StructFactorP2 Proofs.ConstraintsP.
Import ListNotations.
Open Scope list_scope.
Open Scope R_scope.

Lemma mget_tab : forall A (f : ix -> ix -> A) i j, mget (m_tab f) i j = f i j.
Proof. intros A f [] []; reflexivity. Qed.
Lemma vget_tab : forall A (f : ix -> A) i, vget (v_tab f) i = f i.
Proof. intros A f []; reflexivity. Qed.
Lemma m_tab_ext : forall A (f g : ix -> ix -> A), (forall i j, f i j = g i j) -> m_tab f = m_tab g.
Proof. intros. unfold m_tab. rewrite !H. reflexivity. Qed.

Definition pff (only : bool) (h : V3 Z) (uc : U6 R) (a : para) : R :=
  calc_form_factor only (calc_sthovl (hkl_real h) uc) (pa_lande a) (pa_kappa a) (pa_j0 a) (pa_j2 a).
Definition pdwe (h : V3 Z) (uc : U6 R) (e : Op) (a : para) : R := dwf_call h (calc_sthovl (hkl_real h) uc) e (pa_biso a) (pa_beta a).
Definition pdw (h : V3 Z) (uc : U6 R) (a : para) : R := exp (- (pa_biso a * (calc_sthovl (hkl_real h) uc) ^ 2)).
Definition hhe (uc : U6 R) (a : para) (e : Op) : M3 R := hh_of (calc_m_r_inv_m uc e) (pa_sc a) (pa_chi a).
Definition pmult (full : list Op) (a : para) : nat := calc_multiplicity full (get_atom_symm_elem (pa_xyz a)).
Definition ta (h : V3 Z) (s : symmetry) (uc : U6 R) (m : nat) (a : para) : M3 C :=
  calc_sft_asym_a (INR m) (pa_occ a) (map (calc_pr2 h) (s_red s)) (map (fun e => calc_pr1 h e (pa_xyz a)) (s_red s))
    (map (fun e => pdwe h uc e a) (s_red s)) (map (hhe uc a) (s_red s)).
Definition t_one (only : bool) (s : symmetry) (uc : U6 R) (mu : para -> nat) (atoms : list para) (h : V3 Z) : M3 C :=
  calc_t_by_t_asym (map (fun a => ta h s uc (mu a) a) atoms) (map (pff only h uc) atoms) (calc_pr3 h (s_tr s)) (s_centro s) (calc_pr4 h (cp_arg s)).

Lemma sft_gen : forall only hkls s uc (mu : para -> nat) atoms,
  sft_arr (sft_asym_arr (map mu atoms) (p_dwf_arr hkls (sthovl_arr hkls uc) s atoms) atoms (p_pr1_arr hkls s atoms) (pr2_arr hkls s) (pr5_arr s uc))
    (ff_arr only (sthovl_arr hkls uc) atoms) (pr3_arr hkls s) s (pr4_arr hkls s) = map (t_one only s uc mu atoms) hkls.
Proof.
  intros. unfold sft_arr, sft_asym_arr, p_dwf_arr, sthovl_arr, p_pr1_arr, pr2_arr, pr3_arr, pr4_arr, pr5_arr, ff_arr.
  rewrite combine_map_r, !map_map. rewrite !combine_map2. rewrite map_map, combine_map2, map_map. apply map_ext. intros h.
  cbn [fst snd]. unfold t_one. f_equal.
  rewrite <- (map_seq_nth _ _ (fun a => ta h s uc (mu a) a) atoms para0).
  apply map_ext_in. intros j Hj. apply in_seq in Hj. unfold ta. f_equal.
  - f_equal. rewrite (nth_indep _ 0%nat (mu para0)) by (rewrite map_length; lia). apply map_nth.
  - unfold col. rewrite map_map. apply map_ext. intros e.
    rewrite (nth_indep _ (RtoC 0) (calc_pr1 h e (pa_xyz para0))) by (rewrite map_length; lia).
    rewrite (map_nth (fun a => calc_pr1 h e (pa_xyz a))). reflexivity.
  - unfold col. rewrite map_map. apply map_ext. intros e.
    rewrite (nth_indep _ 0 (pdwe h uc e para0)) by (rewrite map_length; lia).
    rewrite (map_nth (pdwe h uc e)). reflexivity.
  - rewrite map_map. reflexivity.
Qed.
Lemma sft_map : forall only hkls s uc atoms, calc_sft_ccs only hkls s uc atoms = map (t_one only s uc (pmult (full_of s)) atoms) hkls.
Proof. intros. unfold calc_sft_ccs, p_mult_arr. apply (sft_gen only hkls s uc (pmult (full_of s))). Qed.
Lemma tensor1 : forall only h s uc atoms T, calc_sft_ccs only [h] s uc atoms = [T] -> T = t_one only s uc (pmult (full_of s)) atoms h.
Proof. intros. rewrite sft_map in H. cbn [map] in H. injection H as H1. auto. Qed.
Lemma tensor2 : forall only h g s uc atoms T U, calc_sft_ccs only [h; g] s uc atoms = [T; U] ->
  T = t_one only s uc (pmult (full_of s)) atoms h /\ U = t_one only s uc (pmult (full_of s)) atoms g.
Proof. intros. rewrite sft_map in H. cbn [map] in H. injection H as H1 H2. subst. auto. Qed.
Lemma sft_app : forall only h1 h2 s uc atoms, calc_sft_ccs only (h1 ++ h2) s uc atoms = calc_sft_ccs only h1 s uc atoms ++ calc_sft_ccs only h2 s uc atoms.
Proof. intros. rewrite !sft_map. apply map_app. Qed.

(* ---- weighted sums over the operations ---- *)
Definition wsum (h : V3 Z) (l : list Op) (x : ix -> R) (w : Op -> R) : C := csum (map (fun e => Cmult (phase (hdot h (act e x))) (RtoC (w e))) l).
Lemma pdw_iso : forall h uc e a, p_isotropic a -> pdwe h uc e a = pdw h uc a.
Proof.
  intros h uc e a H. unfold pdwe, dwf_call, calc_dwf, pdw. rewrite H. unfold calc_power_dwf_iso, calc_power_dwf_aniso, q_zero.
  destruct (rotated_hkl _ _). cbn [q_11 q_22 q_33 q_12 q_13 q_23]. f_equal. unfold Rsqr. ring.
Qed.
Lemma ta_sum : forall h s uc m a i j,
  mget (ta h s uc m a) i j = Cmult (Cmult (RtoC (INR m * pa_occ a)) (Cinv (RtoC (INR (length (s_red s))))))
    (wsum h (s_red s) (vget (pa_xyz a)) (fun e => pdwe h uc e a * mget (hhe uc a e) i j)).
Proof.
  intros. unfold ta, calc_sft_asym_a. rewrite mget_tab. rewrite combine_map2, combine_map2, combine_map2, map_map, map_length, cdiv_scal. cbn [fst snd].
  rewrite sum_c_csum. unfold wsum.
  rewrite (csum_ext _ _ (fun e => Cmult (RtoC (INR m * pa_occ a)) (Cmult (phase (hdot h (act e (vget (pa_xyz a)))))
        (RtoC (pdwe h uc e a * mget (hhe uc a e) i j))))).
  - rewrite csum_scal. ring.
  - intros e _. rewrite <- pr12_phase, !RtoC_mult. ring.
Qed.
Lemma ta_iso : forall h s uc m a i j, p_isotropic a ->
  mget (ta h s uc m a) i j = Cmult (Cmult (RtoC (INR m * pa_occ a * pdw h uc a)) (Cinv (RtoC (INR (length (s_red s))))))
    (wsum h (s_red s) (vget (pa_xyz a)) (fun e => mget (hhe uc a e) i j)).
Proof.
  intros h s uc m a i j H. rewrite ta_sum. unfold wsum.
  rewrite (csum_ext _ _ (fun e => Cmult (Cmult (phase (hdot h (act e (vget (pa_xyz a))))) (RtoC (mget (hhe uc a e) i j))) (RtoC (pdw h uc a)))).
  - rewrite csum_scal_r, !RtoC_mult. ring.
  - intros e _. rewrite pdw_iso by exact H. rewrite RtoC_mult. ring.
Qed.
Lemma wsum_tr : forall h red ts x w, (forall e, In e red -> (0 < e_d e)%Z) -> (forall t, In t ts -> (0 < snd t)%Z) ->
  (forall te e, w (add_translation te e) = w e) ->
  wsum h (flat_map (fun te => map (add_translation te) red) ts) x w =
  Cmult (csum (map (fun t => phase (hdot h (frac (fst t) (snd t)))) ts)) (wsum h red x w).
Proof.
  intros h red ts x w Hr Ht Hw. unfold wsum. rewrite csum_flat_map, <- csum_scal_r. apply csum_ext. intros te Hte.
  rewrite map_map, <- csum_scal. apply csum_ext. intros e He.
  destruct (add_translation_act te e (Ht _ Hte) (Hr _ He)) as [_ P].
  rewrite (phase_same _ _ _ (P x)), hdot_add, phase_add, Hw. ring.
Qed.
Lemma wsum_inv : forall h cp l x w, (forall e, In e l -> (0 < e_d e)%Z) -> (0 < snd cp)%Z ->
  (forall e, w (invert_elem cp e) = w e) ->
  wsum h (map (invert_elem cp) l) x w = Cmult (phase (hdot h (pos2 cp))) (Cconj (wsum h l x w)).
Proof.
  intros h cp l x w Hl Hc Hw. unfold wsum. rewrite map_map, <- csum_conj, <- csum_scal. apply csum_ext. intros e He.
  destruct (invert_elem_act cp e Hc (Hl _ He)) as [_ P]. rewrite (phase_same _ _ _ (P x)), Hw, cconj_mult, cconj_R, phase_conj, Cmult_assoc, <- phase_add. do 2 f_equal.
  unfold hdot, sum3. ring.
Qed.
(* the carried tensor depends on the rotation only, and not on its sign *)
Lemma hhe_tr : forall uc a te e, hhe uc a (add_translation te e) = hhe uc a e.
Proof. intros. unfold hhe, calc_m_r_inv_m, rot9, add_translation. destruct (sum_b_elems _ _ _ _). reflexivity. Qed.

Definition m_opp (m : M3 R) : M3 R := m_tab (fun i j => - mget m i j).
Lemma m1_m2_opp : forall a b, calc_m1_m2_inv_m1 a (m_opp b) = m_opp (calc_m1_m2_inv_m1 a b).
Proof. intros [a1 a2 a3 a4 a5 a6 a7 a8 a9] [b1 b2 b3 b4 b5 b6 b7 b8 b9]. unfold m_opp, m_tab. cbn [mget calc_m1_m2_inv_m1 m_11 m_12 m_13 m_21 m_22 m_23 m_31 m_32 m_33]. f_equal; unfold Rdiv; ring. Qed.
Lemma q_inv_opp : forall m q, calc_m_q_inv_m (m_opp m) q = calc_m_q_inv_m m q.
Proof.
  intros m q. assert (D : calc_det_m (m_opp m) = - calc_det_m m) by (destruct m as [a1 a2 a3 a4 a5 a6 a7 a8 a9]; unfold m_opp, m_tab, calc_det_m; cbn [mget m_11 m_12 m_13 m_21 m_22 m_23 m_31 m_32 m_33]; ring).
  unfold calc_m_q_inv_m. rewrite D. generalize (calc_det_m m). intros d. destruct m as [a1 a2 a3 a4 a5 a6 a7 a8 a9], q as [c1 c2 c3 c4 c5 c6]. unfold m_opp, m_tab. cbn [mget m_11 m_12 m_13 m_21 m_22 m_23 m_31 m_32 m_33].
  unfold Rdiv. rewrite Rinv_opp. f_equal; ring.
Qed.
Lemma rot9_opp : forall cp e, rot9 (invert_elem cp e) = m_opp (rot9 e).
Proof.
  intros. unfold rot9, invert_elem. destruct (sum_b_elems _ _ _ _). cbn [e_r]. unfold m_opp. apply m_tab_ext. intros i j. rewrite mget_tab.
  destruct i, j; unfold z_opp_m; cbn [mget m_11 m_12 m_13 m_21 m_22 m_23 m_31 m_32 m_33]; rewrite mult_IZR; ring.
Qed.
Lemma hhe_inv : forall uc a cp e, hhe uc a (invert_elem cp e) = hhe uc a e.
Proof. intros. unfold hhe, calc_m_r_inv_m, hh_of. rewrite rot9_opp, m1_m2_opp, q_inv_opp. reflexivity. Qed.

Lemma t_one_iso : forall only s uc mu atoms h i j, sym_ok s -> (forall a, In a atoms -> p_isotropic a) ->
  mget (t_one only s uc mu atoms h) i j =
  csum (map (fun a => Cmult (RtoC (pff only h uc a * (INR (mu a) * pa_occ a * pdw h uc a / INR (length (full_of s)))))
      (wsum h (full_of s) (vget (pa_xyz a)) (fun e => mget (hhe uc a e) i j))) atoms).
Proof.
  intros only s uc mu atoms h i j (Hr & Ht & Hc & Nr & Nt) Hi. unfold t_one, calc_t_by_t_asym. rewrite mget_tab. unfold calc_f_by_f_asym.
  rewrite !map_map, !combine_map2, !map_map. cbn [fst snd]. rewrite !sum_c_csum.
  assert (L : length (full_of s) = ((if s_centro s then 2 else 1) * length (s_tr s) * length (s_red s))%nat) by apply full_length.
  assert (N1 : INR (length (s_red s)) <> 0) by (apply not_0_INR; destruct (s_red s); [congruence|discriminate]).
  assert (N2 : INR (length (s_tr s)) <> 0) by (apply not_0_INR; destruct (s_tr s); [congruence|discriminate]).
  assert (Fl : forall e, In e (flat_map (fun te => map (add_translation te) (s_red s)) (s_tr s)) -> (0 < e_d e)%Z).
  { intros e He. apply in_flat_map in He as (te & Hte & He). apply in_map_iff in He as (e' & <- & He').
    apply add_translation_act; auto. }
  unfold full_of in *. unfold cp_arg. unfold calc_full_symm_elems_by_reduced in *.
  set (W := fun a : para => fun e => mget (hhe uc a e) i j).
  assert (W1 : forall a te e, W a (add_translation te e) = W a e) by (intros; unfold W; rewrite hhe_tr; reflexivity).
  assert (W2 : forall a cp e, W a (invert_elem cp e) = W a e) by (intros; unfold W; rewrite hhe_inv; reflexivity).
  assert (T : forall a, In a atoms -> mget (ta h s uc (mu a) a) i j = Cmult (Cmult (RtoC (INR (mu a) * pa_occ a * pdw h uc a)) (Cinv (RtoC (INR (length (s_red s))))))
    (wsum h (s_red s) (vget (pa_xyz a)) (W a))) by (intros a Ha; apply ta_iso, Hi, Ha).
  destruct (s_centro s).
  - rewrite <- !csum_scal, <- csum_plus, <- csum_scal. apply csum_ext. intros a Ha.
    rewrite (T a Ha). change (fun e : Op => mget (hhe uc a e) i j) with (W a).
    set (F := flat_map (fun te => map (add_translation te) (s_red s)) (s_tr s)) in *.
    replace (wsum h (F ++ map (invert_elem (s_cp s)) F) (vget (pa_xyz a)) (W a)) with
      (Cplus (wsum h F (vget (pa_xyz a)) (W a)) (wsum h (map (invert_elem (s_cp s)) F) (vget (pa_xyz a)) (W a))) by (unfold wsum; rewrite map_app, csum_app; reflexivity).
    rewrite L. rewrite wsum_inv by auto. unfold F. rewrite wsum_tr by auto. rewrite pr3_phase, pr4_phase by assumption. rewrite !cdiv_scal.
    rewrite ?L, !mult_INR. set (T1 := csum (map _ (s_tr s))). set (D := wsum h (s_red s) _ _).
    rewrite !cconj_mult. replace (Cinv (RtoC (INR (length (s_red s))))) with (RtoC (/ INR (length (s_red s)))) by (apply RtoC_inv; assumption).
    replace (Cinv (RtoC (INR (length (s_tr s))))) with (RtoC (/ INR (length (s_tr s)))) by (apply RtoC_inv; assumption).
    rewrite !cconj_R. unfold Rdiv. replace (INR 2) with 2 by (cbn; ring).
    replace (/ (2 * INR (length (s_tr s)) * INR (length (s_red s)))) with (/ 2 * / INR (length (s_tr s)) * / INR (length (s_red s))) by (field; auto).
    replace (5 * / 10) with (/ 2) by field. rewrite !RtoC_mult. ring.
  - rewrite <- csum_scal. apply csum_ext. intros a Ha. rewrite (T a Ha). change (fun e : Op => mget (hhe uc a e) i j) with (W a).
    rewrite wsum_tr by auto. rewrite pr3_phase by assumption. rewrite !cdiv_scal.
    rewrite ?L, !mult_INR. set (T1 := csum (map _ (s_tr s))). set (D := wsum h (s_red s) _ _).
    replace (Cinv (RtoC (INR (length (s_red s))))) with (RtoC (/ INR (length (s_red s)))) by (apply RtoC_inv; assumption).
    replace (Cinv (RtoC (INR (length (s_tr s))))) with (RtoC (/ INR (length (s_tr s)))) by (apply RtoC_inv; assumption).
    unfold Rdiv. replace (INR 1) with 1 by reflexivity.
    replace (/ (1 * INR (length (s_tr s)) * INR (length (s_red s)))) with (/ INR (length (s_tr s)) * / INR (length (s_red s))) by (field; auto).
    rewrite !RtoC_mult. ring.
Qed.

(* ---- the carried tensor ---- *)
Lemma dot6_row : forall k r q, dot6 k r q = k * q_row_dot r q.
Proof. intros. unfold dot6, q_row_dot. ring. Qed.
Lemma mas_site : forall k a i j, qget (mas_constr k (pa_sc a) (pa_chi a)) i j = k * qget (site_chi a) i j.
Proof. intros k a [] []; unfold mas_constr, site_chi; cbn [qget q_11 q_22 q_33 q_12 q_13 q_23]; apply dot6_row. Qed.
Lemma comp_rot : forall g e f, (0 < e_d g)%Z -> (0 < e_d e)%Z -> (0 < e_d f)%Z -> is_composition g e f ->
  mul (rot_real e) (rot_real f) = rot_real g.
Proof.
  intros g e f Hg He Hf H. rewrite (mat_ext (rot_real g) (mul (rot_real e) (rot_real f))); [reflexivity|]. intros i j.
  pose proof (composition_rot g e f Hg He Hf H) as K. unfold rot_real, mul.
  rewrite (K i j). apply z_m1_m2_spec.
Qed.
Lemma act_rot_same : forall e f, same_op e f -> e_r e = e_r f.
Proof.
  intros e f H. apply m3_ext. intros i j.
  assert (Q : forall k, (mget (e_r e) i k - mget (e_r f) i k)%Z = 0%Z).
  { apply (linear_integral (fun k => (mget (e_r e) i k - mget (e_r f) i k)%Z) (IZR (vget (e_b e) i) / IZR (e_d e) - IZR (vget (e_b f) i) / IZR (e_d f))).
    intros u. destruct (H u i) as [n E]. exists n. unfold act, sum3 in E. rewrite !minus_IZR. lra. }
  specialize (Q j). lia.
Qed.
Lemma group_det : forall l e, symmetry_group l -> In e l -> det3 (rot_real e) <> 0.
Proof.
  intros l e (Hd & _ & _ & Hi & _) He Z. destruct (Hi e He) as (f & Hf & K).
  assert (M : forall i j, mul (rot_real f) (rot_real e) i j = delta i j).
  { intros i j. set (c := fun k => (mget (z_m1_m2 (e_r f) (e_r e)) i k - (match i, k with X1, X1 => 1 | X2, X2 => 1 | X3, X3 => 1 | _, _ => 0 end))%Z).
    assert (Q : forall k, c k = 0%Z).
    { apply (linear_integral c (sum3 (fun k => IZR (mget (e_r f) i k) * (IZR (vget (e_b e) k) / IZR (e_d e))) + IZR (vget (e_b f) i) / IZR (e_d f))).
      intros u. destruct (K u i) as [n E]. exists n. unfold c. rewrite !minus_IZR, !z_m1_m2_spec. unfold act, sum3 in E |- *. destruct i; lra. }
    specialize (Q j). unfold c in Q. unfold mul, rot_real. rewrite <- z_m1_m2_spec. destruct i, j; unfold delta; apply IZR_eq; lia. }
  assert (D : det3 (mul (rot_real f) (rot_real e)) = 1) by (rewrite (mat_ext _ _ M); unfold det3, delta; ring).
  rewrite det_mul', Z in D. lra.
Qed.
Lemma m_r_is_cart : forall uc e, calc_m_r_inv_m uc e = cart uc (e_r e, 1%Z).
Proof. reflexivity. Qed.
Section Frame.
  Variable uc : U6 R.
  Hypothesis N : nondegenerate uc.
  Definition rho (e : Op) : ix -> ix -> R := mget (calc_m_r_inv_m uc e).
  Lemma rho_frame : forall e, in_frame (mget (calc_m_m uc)) e (rho e).
  Proof. intros e i j. unfold rho. rewrite m_r_is_cart. exact (f_equal (fun f => f i j) (cart_spec uc N (e_r e, 1%Z))). Qed.
  Lemma rho_unique : forall e A, in_frame (mget (calc_m_m uc)) e A -> A = rho e.
  Proof. intros e A H. unfold rho. rewrite m_r_is_cart. exact (cart_is uc N (e, 1%Z) A H). Qed.
  Lemma rho_det : forall e, det3 (rot_real e) <> 0 -> det3 (rho e) <> 0.
  Proof. intros e H. unfold rho. rewrite m_r_is_cart. apply (det_cart uc N). exact H. Qed.
  Lemma rho_mul : forall g e f, (0 < e_d g)%Z -> (0 < e_d e)%Z -> (0 < e_d f)%Z -> is_composition g e f -> rho g = mul (rho e) (rho f).
  Proof.
    intros g e f Hg He Hf H. unfold rho. rewrite !m_r_is_cart. rewrite (m3_ext _ _ (composition_rot g e f Hg He Hf H)).
    exact (cart_mul uc N (e_r e, 1%Z) (e_r f, 1%Z)).
  Qed.
  Lemma hhe_spec : forall a e, det3 (rot_real e) <> 0 ->
    mul (mget (hhe uc a e)) (rho e) = mul (rho e) (fun i j => 2695 / 10000 * qget (site_chi a) i j).
  Proof.
    intros a e D. apply mat_ext. intros i j. unfold mul, hhe, hh_of. unfold rho. rewrite m_q_inv_m_spec by (apply rho_det, D).
    apply sum3_ext. intros k. rewrite mas_site. reflexivity.
  Qed.
  Lemma hhe_carried : forall a e t, det3 (rot_real e) <> 0 -> (forall i j, sum3 (fun k => t i k * rho e k j) = sum3 (fun k => rho e i k * qget (site_chi a) k j)) ->
    forall i j, mget (hhe uc a e) i j = 2695 / 10000 * t i j.
  Proof.
    intros a e t D H i j. assert (E : mget (hhe uc a e) = (fun i j => 2695 / 10000 * t i j)).
    { apply (mul_cancel_r _ _ (rho e)); [apply rho_det, D|]. rewrite hhe_spec by exact D. apply mat_ext. intros p q. unfold mul.
      transitivity (2695 / 10000 * sum3 (fun k => t p k * rho e k q)); [|unfold sum3; ring]. rewrite H. unfold sum3. ring. }
    rewrite E. reflexivity.
  Qed.
End Frame.

(* ---- weighted orbits ---- *)
Lemma orbit_wsum : forall (D : Type) l x (pts : list D) (pos : D -> ix -> R) (c : D -> R) h w, symmetry_group l -> is_orbit l x (map pos pts) ->
  (forall e q, In e l -> In q pts -> same_point (act e x) (pos q) -> w e = c q) ->
  wsum h l x w = Cmult (RtoC (INR (length (filter (fun f => spb (act f x) x) l)))) (csum (map (fun q => Cmult (phase (hdot h (pos q))) (RtoC (c q))) pts)).
Proof.
  intros D l x pts pos c h w G (O1 & O2 & O3) Hw. unfold wsum. rewrite (csum_cover x _ (map pos pts) l O2 O3). rewrite map_map, <- csum_scal. apply csum_ext.
  intros q Hq. destruct (O1 (pos q) (in_map pos pts q Hq)) as (e & He & Ep). rewrite <- (fiber_size l x e (pos q) G He Ep).
  apply csum_const. intros f Hf. apply filter_In in Hf as [Hf Sf]. apply spb_spec in Sf. f_equal; [symmetry; apply phase_same; exact Sf|].
  f_equal. apply (Hw f q Hf Hq). apply sp_sym. exact Sf.
Qed.
Lemma pmult_orbit : forall s a, sym_ok s ->
  (forall e, In e (full_of s) -> (same_point (act e (rounded (pa_xyz a))) (rounded (pa_xyz a)) <-> same_point (act e (vget (pa_xyz a))) (vget (pa_xyz a)))) ->
  pmult (full_of s) a = (length (full_of s) / length (filter (fun f => spb (act f (vget (pa_xyz a))) (vget (pa_xyz a))) (full_of s)))%nat.
Proof. intros s a Ok H. exact (mult_orbit s (mkA (pa_xyz a) 0 (RtoC 0) 0 q_zero) Ok H). Qed.

(** C79 *)
Theorem tensor_textbook : forall only s uc atoms ions h T, sym_ok s -> symmetry_group (full_of s) -> nondegenerate uc -> (forall a, In a atoms -> p_isotropic a) ->
  Forall2 (fun a l => ions_of (full_of s) uc a l) atoms ions ->
  (forall a e, In a atoms -> In e (full_of s) ->
     (same_point (act e (rounded (pa_xyz a))) (rounded (pa_xyz a)) <-> same_point (act e (vget (pa_xyz a))) (vget (pa_xyz a)))) ->
  calc_sft_ccs only [h] s uc atoms = [T] ->
  forall i j, mget T i j = structure_factor h (flat_map (p_sites only h uc i j) (combine atoms ions)).
Proof.
  intros only s uc atoms ions h T Ok G N Hi Ho Hr E i j. apply tensor1 in E. subst T. rewrite t_one_iso by assumption.
  unfold structure_factor. rewrite csum_flat_map.
  assert (K : forall a l, In a atoms -> ions_of (full_of s) uc a l ->
    Cmult (RtoC (pff only h uc a * (INR (pmult (full_of s) a) * pa_occ a * pdw h uc a / INR (length (full_of s)))))
       (wsum h (full_of s) (vget (pa_xyz a)) (fun e => mget (hhe uc a e) i j))
    = csum (map (fun p => Cmult (fst p) (phase (hdot h (snd p)))) (p_sites only h uc i j (a, l)))).
  { intros a l Ha [Oa Ta]. unfold p_sites. cbn [fst snd]. rewrite map_map. cbn [fst snd].
    rewrite (orbit_wsum _ (full_of s) _ l fst (fun pt => 2695 / 10000 * snd pt i j) h _ G Oa).
    2:{ intros e [p t] He Hp Sp. cbn [fst snd] in *. apply hhe_carried; [exact N|apply (group_det _ e G He)|]. intros i' j'.
        apply (Ta e (rho uc e) p t He Hp Sp). apply rho_frame, N. }
    rewrite pmult_orbit by auto. rewrite <- !csum_scal.
    set (x := vget (pa_xyz a)) in *. pose proof (orbit_stabiliser _ x _ G Oa) as L. rewrite map_length in L. pose proof (stab_pos _ x G) as Sp.
    set (st := length (filter (fun f => spb (act f x) x) (full_of s))) in *.
    assert (Lp : (0 < length (full_of s))%nat). { pose proof (full_nonempty s Ok). destruct (full_of s); [congruence|cbn; lia]. }
    rewrite L. rewrite Nat.mul_comm, Nat.div_mul by lia. rewrite mult_INR.
    assert (INR st <> 0) by (apply not_0_INR; lia).
    assert (INR (length l) <> 0) by (apply not_0_INR; nia).
    replace (INR (length l) * pa_occ a * pdw h uc a / (INR (length l) * INR st)) with (pa_occ a * pdw h uc a * / INR st) by (field; auto).
    apply csum_ext. intros [p t] _. cbn [fst snd]. unfold p_amplitude. fold (pff only h uc a). fold (pdw h uc a).
    replace (Cmult (RtoC (pff only h uc a * (pa_occ a * pdw h uc a * / INR st))) (Cmult (RtoC (INR st)) (Cmult (phase (hdot h p)) (RtoC (2695 / 10000 * t i j)))))
      with (Cmult (RtoC (pff only h uc a * (pa_occ a * pdw h uc a * / INR st) * INR st * (2695 / 10000 * t i j))) (phase (hdot h p))) by (rewrite !RtoC_mult; ring).
    f_equal. f_equal. unfold pff, pdw. field. assumption. }
  clear Hi Hr. revert K. induction Ho as [|a l la lp Ho1 Ho2 IH]; intros K; [reflexivity|].
  cbn [combine map]. change (csum (?a :: ?b)) with (Cplus a (csum b)). rewrite IH by (intros; apply K; [right|]; assumption). f_equal.
  apply K; [left; reflexivity|exact Ho1].
Qed.
