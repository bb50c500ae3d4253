From Coq Require Import Reals ZArith List Bool Lra Lia Permutation.
From Coquelicot Require Import Complex.
From Verif Require Import Spec.Lin3 Spec.Cell Spec.Symm Spec.Scatter Spec.StructSpec Spec.MagSpec
  Model.MatrixOps Model.UnitCell Model.Symmetry Model.AtomFactors Model.StructFactor Model.MagStruct
  Proofs.SymmBaseP Proofs.SymmGroupP Proofs.SymmExP Proofs.ScatterP Proofs.StructFactorP Proofs.StructFactorP2 Proofs.StructFactorP3
  Proofs.MagStructP Proofs.MagStructP4.
Import ListNotations.
Open Scope list_scope.
Open Scope R_scope.

(** A magnetic ion with the susceptibility 1 (isotropic), form factor 1 (only orbital: 0). *)
Definition sc_one : Q6 (Q6 R) := mkQ (mkQ 1 0 0 0 0 0) (mkQ 0 1 0 0 0 0) (mkQ 0 0 1 0 0 0) (mkQ 0 0 0 1 0 0) (mkQ 0 0 0 0 1 0) (mkQ 0 0 0 0 0 1).
Definition j_one : jpar := mkJ 0 0 0 0 0 0 1.
Definition j_zero : jpar := mkJ 0 0 0 0 0 0 0.
Definition ion (x biso : R) : para := mkP (mkV x 0 0) 1 (mkQ 1 1 1 0 0 0) sc_one biso q_zero 2 1 j_one j_zero.
Lemma ion_ff : forall only h uc x b, pff only h uc (ion x b) = if only then 0 else 1.
Proof.
  intros [] h uc x b; unfold pff, ion, calc_form_factor, calc_j0, calc_j2, j_sum, j_one, j_zero;
  cbn [pa_lande pa_kappa pa_j0 pa_j2 j_A j_B j_C j_D j_a j_b j_c]; ring.
Qed.
Lemma ion_chi : forall x b i j, qget (site_chi (ion x b)) i j = delta i j.
Proof. intros x b [] []; unfold site_chi, ion, q_row_dot, sc_one, qget, delta; cbn [pa_sc pa_chi q_11 q_22 q_33 q_12 q_13 q_23]; ring. Qed.
Lemma ion_hhe : forall uc x b e i j, nondegenerate uc -> det3 (rot_real e) <> 0 -> mget (hhe uc (ion x b) e) i j = 2695 / 10000 * delta i j.
Proof.
  intros uc x b e i j N D. apply hhe_carried; [exact N|exact D|]. intros p q. unfold sum3. rewrite !ion_chi. destruct p, q; unfold delta; ring.
Qed.
Lemma ion_tensor : forall only s uc mu x b h, nondegenerate uc -> sym_ok s -> (forall e, In e (full_of s) -> det3 (rot_real e) <> 0) ->
  (forall e, In e (full_of s) -> phase (hdot h (act e (vget (mkV x 0 0)))) = RtoC 1) ->
  mget (t_one only s uc mu [ion x b] h) X1 X1 = RtoC ((if only then 0 else 1) * (INR (mu (ion x b)) * exp (- (b * calc_sthovl (hkl_real h) uc ^ 2))) * (2695 / 10000)).
Proof.
  intros only s uc mu x b h N Ok D P. rewrite t_one_iso; [|exact Ok|intros a [<-|[]]; reflexivity]. cbn [map]. unfold csum at 1. cbn [fold_right].
  unfold wsum. rewrite (csum_const _ _ (RtoC (2695 / 10000))).
  2:{ intros e He. rewrite ion_hhe by auto. change (vget (pa_xyz (ion x b))) with (vget (mkV x 0 0)). rewrite P by exact He.
      change (delta X1 X1) with 1. rewrite Cmult_1_l. f_equal. ring. }
  assert (NZ : INR (length (full_of s)) <> 0).
  { apply not_0_INR. pose proof (full_nonempty s Ok). destruct (full_of s); [congruence|discriminate]. }
  rewrite ion_ff. unfold pdw. cbn [ion pa_biso pa_occ]. rewrite Cplus_0_r, <- !RtoC_mult. f_equal. field. exact NZ.
Qed.

Lemma det_p1 : forall e, In e (full_of s_p1) -> det3 (rot_real e) <> 0.
Proof. intros e [<-|[]]. unfold det3, rot_real. cbn. lra. Qed.
Lemma det_pm1 : forall e, In e (full_of s_pm1) -> det3 (rot_real e) <> 0.
Proof. intros e [<-|[<-|[]]]; unfold det3, rot_real; cbn; lra. Qed.
Lemma cubic_nondegenerate : forall a, 0 < a -> nondegenerate (cubic a).
Proof.
  intros a H. pose proof PI_RGT_0 as P. unfold nondegenerate, cubic. cbn [u_a u_b u_c u_al u_be u_ga]. rewrite ?cos_PI2. repeat split; lra.
Qed.
Lemma cubic_0 : forall a, 0 < a -> calc_sthovl (hkl_real (mkV 0 0 0)%Z) (cubic a) = 0.
Proof.
  intros a H. unfold calc_sthovl, calc_inv_d, cubic, hkl_real. cbn [u_a u_b u_c u_al u_be u_ga v_1 v_2 v_3]. rewrite cos_PI2. cbv zeta.
  match goal with |- _ * sqrt ?X = _ => replace X with 0 by (unfold Rsqr; field; lra) end. rewrite sqrt_0. ring.
Qed.

(** stale reads *)
Lemma m_stale : forall d fl only h s uc atoms v, d_hkl d = Some h \/ d_hkl d = None -> flag_any fl = false -> d_sft d = Some v ->
  fst (calc_sft_ccs_dict true fl only d h s uc atoms) = v.
Proof.
  intros d fl only h s uc atoms v H R E. unfold calc_sft_ccs_dict.
  assert (D0 : match d_hkl d with Some h0 => if hkl_dec h0 h then d else only_hkl h | None => d end = d).
  { destruct H as [-> | ->]; [|reflexivity]. destruct (hkl_dec h h); [reflexivity|congruence]. }
  rewrite D0. cbv zeta. cbn [fst]. fold (flag_any fl). rewrite R, E. reflexivity.
Qed.
Lemma m_after : forall k, d_hkl (snd (do_mcall (only_hkl (m_hkl k)) k)) = Some (m_hkl k) /\ d_sft (snd (do_mcall (only_hkl (m_hkl k)) k)) = Some (mfresh k).
Proof.
  intros k. destruct (m_clear k) as [A B]. split; [apply (n_hkl _ _ B)|]. destruct (n_sft _ _ B) as [Q|Q]; [|exact Q].
  unfold do_mcall, calc_sft_ccs_dict in Q. cbn [snd d_sft] in Q. discriminate.
Qed.
Lemma mrun_two : forall d k k', mrun d [k; k'] = [fst (do_mcall d k); fst (do_mcall (snd (do_mcall d k)) k')].
Proof. intros. cbn [mrun]. destruct (do_mcall d k) as [v d']. cbn [fst snd]. destruct (do_mcall d' k') as [w d'']. reflexivity. Qed.
Lemma mrun_stale : forall k k', m_hkl k' = m_hkl k -> m_use k' = true -> flag_any (m_fl k') = false ->
  mrun (only_hkl (m_hkl k)) [k; k'] = [mfresh k; mfresh k].
Proof.
  intros k k' Eh U R. rewrite mrun_two, (proj1 (m_clear k)). f_equal. f_equal. destruct (m_after k) as [B1 B2].
  unfold do_mcall at 1. rewrite U, Eh. apply m_stale; auto.
Qed.
Definition no_mf : mflags := mkMF false false false false false false false false.
Definition all_mf : mflags := mkMF true true true true true true true true.
Definition empty_dict : mcache := mkMC None None None None None None None None None None None None None None.
Lemma second_tensor : forall (u v w : list (M3 C)), [u; v] = [u; w] -> v = w.
Proof. intros u v w H. injection H as H. exact H. Qed.
Lemma one_tensor : forall A B : M3 C, [A] = [B] -> mget A X1 X1 = mget B X1 X1.
Proof. intros A B H. injection H as H. rewrite H. reflexivity. Qed.
Theorem orbital_stale : exists k k', m_announced k k' /\ m_s k' = m_s k /\ m_hkl k' = m_hkl k /\ m_atoms k' = m_atoms k /\ m_uc k' = m_uc k /\ m_only k' <> m_only k /\
  mrun (only_hkl (m_hkl k)) [k; k'] <> [mfresh k; mfresh k'].
Proof.
  exists (mkMcall true no_mf false [mkV 0 0 0]%Z s_p1 (cubic 1) [ion 0 0]), (mkMcall true no_mf true [mkV 0 0 0]%Z s_p1 (cubic 1) [ion 0 0]).
  split; [repeat split; reflexivity|]. do 4 (split; [reflexivity|]). split; [discriminate|].
  rewrite mrun_stale by reflexivity. intros E. apply second_tensor in E. unfold mfresh in E. cbn [m_only m_hkl m_s m_uc m_atoms] in E. rewrite !sft_map in E. cbn [map] in E.
  apply one_tensor in E. rewrite !ion_tensor in E; try (apply cubic_nondegenerate; lra); try apply s_p1_ok; try apply det_p1; try (intros; apply phase_000).
  apply RtoC_inj in E. change (pmult (full_of s_p1) (ion 0 0)) with (calc_multiplicity (full_of s_p1) (get_atom_symm_elem (mkV 0 0 0))) in E.
  rewrite round_0 in E. change (calc_multiplicity (full_of s_p1) (AtomPos (mkV 0 0 0)%Z 3000000)) with 1%nat in E. rewrite Rmult_0_l, Ropp_0, exp_0 in E. cbn [INR] in E. lra.
Qed.
(** the same through the dictionary: dict_in_out["flag_only_orbital"] *)
Theorem orbital_by_dictionary_stale : exists fl d hkls s uc atoms o,
  fst (calc_sft_ccs_by_dictionary true fl (set_only o (snd (calc_sft_ccs_by_dictionary true fl (only_hkl hkls) hkls s uc atoms))) hkls s uc atoms)
    = fst (calc_sft_ccs_by_dictionary true fl (only_hkl hkls) hkls s uc atoms) /\
  d = set_only o (only_hkl hkls) /\ fst (calc_sft_ccs_by_dictionary true fl d hkls s uc atoms) = calc_sft_ccs o hkls s uc atoms /\
  fst (calc_sft_ccs_by_dictionary true fl (only_hkl hkls) hkls s uc atoms) <> calc_sft_ccs o hkls s uc atoms.
Proof.
  exists no_mf, (set_only true (only_hkl [mkV 0 0 0]%Z)), [mkV 0 0 0]%Z, s_p1, (cubic 1), [ion 0 0], true.
  set (k := mkMcall true no_mf false [mkV 0 0 0]%Z s_p1 (cubic 1) [ion 0 0]).
  assert (E0 : calc_sft_ccs_by_dictionary true no_mf (only_hkl [mkV 0 0 0]%Z) [mkV 0 0 0]%Z s_p1 (cubic 1) [ion 0 0] = do_mcall (only_hkl (m_hkl k)) k) by reflexivity.
  rewrite E0. destruct (m_clear k) as [A _]. destruct (m_after k) as [B1 B2].
  split.
  { rewrite A. unfold calc_sft_ccs_by_dictionary. apply m_stale; [left|reflexivity|]; unfold set_only; cbn [d_hkl d_sft]; [exact B1|exact B2]. }
  split; [reflexivity|]. split.
  { unfold calc_sft_ccs_by_dictionary, set_only, only_hkl. cbn [d_hkl d_full d_mult d_pr1 d_pr2 d_pr3 d_pr4 d_sthovl d_pr5 d_only d_ff d_dwf d_asym d_sft].
    unfold calc_sft_ccs_dict. cbn [d_hkl d_full d_mult d_pr1 d_pr2 d_pr3 d_pr4 d_sthovl d_pr5 d_only d_ff d_dwf d_asym d_sft].
    destruct (hkl_dec [mkV 0 0 0]%Z [mkV 0 0 0]%Z); [|congruence]. cbv zeta. cbn [d_hkl d_full d_mult d_pr1 d_pr2 d_pr3 d_pr4 d_sthovl d_pr5 d_only d_ff d_dwf d_asym d_sft].
    rewrite !fetch_none. reflexivity. }
  rewrite A. unfold mfresh, k. cbn [m_only m_hkl m_s m_uc m_atoms]. rewrite !sft_map. cbn [map]. intros E.
  apply one_tensor in E. rewrite !ion_tensor in E; try (apply cubic_nondegenerate; lra); try apply s_p1_ok; try apply det_p1; try (intros; apply phase_000).
  apply RtoC_inj in E. change (pmult (full_of s_p1) (ion 0 0)) with (calc_multiplicity (full_of s_p1) (get_atom_symm_elem (mkV 0 0 0))) in E.
  rewrite round_0 in E. change (calc_multiplicity (full_of s_p1) (AtomPos (mkV 0 0 0)%Z 3000000)) with 1%nat in E. rewrite Rmult_0_l, Ropp_0, exp_0 in E. cbn [INR] in E. lra.
Qed.
Lemma act_x_hdot0 : forall h e, phase (hdot (mkV 0 0 0)%Z (act e (vget h))) = RtoC 1.
Proof. intros. apply phase_000. Qed.
(** a call with all flags takes only the multiplicity and pr_2, pr_3, pr_4 from the dictionary *)
Lemma m_all_flags : forall k k', m_s k' = m_s k -> m_hkl k' = m_hkl k -> m_use k' = true -> m_fl k' = all_mf ->
  fst (do_mcall (snd (do_mcall (only_hkl (m_hkl k)) k)) k') =
  sft_arr (sft_asym_arr (p_mult_arr (full_of (m_s k)) (m_atoms k)) (p_dwf_arr (m_hkl k) (sthovl_arr (m_hkl k) (m_uc k')) (m_s k) (m_atoms k')) (m_atoms k')
     (p_pr1_arr (m_hkl k) (m_s k) (m_atoms k')) (pr2_arr (m_hkl k) (m_s k)) (pr5_arr (m_s k) (m_uc k')))
     (ff_arr (m_only k') (sthovl_arr (m_hkl k) (m_uc k')) (m_atoms k')) (pr3_arr (m_hkl k) (m_s k)) (m_s k) (pr4_arr (m_hkl k) (m_s k)).
Proof.
  intros k k' Es Eh U Fl. destruct (m_clear k) as [_ I].
  assert (Full : d_mult (snd (do_mcall (only_hkl (m_hkl k)) k)) <> None /\ d_pr2 (snd (do_mcall (only_hkl (m_hkl k)) k)) <> None /\
      d_pr3 (snd (do_mcall (only_hkl (m_hkl k)) k)) <> None /\ d_pr4 (snd (do_mcall (only_hkl (m_hkl k)) k)) <> None).
  { unfold do_mcall, calc_sft_ccs_dict. cbn [snd d_mult d_pr2 d_pr3 d_pr4]. repeat split; discriminate. }
  destruct Full as (F1 & F2 & F3 & F4). set (d := snd _) in *.
  pose proof (n_mult _ _ I) as [Q1|Q1]; [contradiction|]. pose proof (n_pr2 _ _ I) as [Q2|Q2]; [contradiction|].
  pose proof (n_pr3 _ _ I) as [Q3|Q3]; [contradiction|]. pose proof (n_pr4 _ _ I) as [Q4|Q4]; [contradiction|].
  unfold do_mcall, calc_sft_ccs_dict. rewrite U, Fl, (n_hkl _ _ I), Eh, Es. destruct (hkl_dec (m_hkl k) (m_hkl k)); [|congruence].
  cbv zeta. unfold all_mf. cbn [g_uc g_xyz g_occ g_chi g_biso g_beta g_lande g_kappa orb andb negb fst].
  rewrite Q1, Q2, Q3, Q4. reflexivity.
Qed.
Theorem m_multiplicity_stale : exists k k', m_announced k k' /\ m_s k' = m_s k /\ m_hkl k' = m_hkl k /\ m_only k' = m_only k /\ m_fl k' = all_mf /\
  mrun (only_hkl (m_hkl k)) [k; k'] <> [mfresh k; mfresh k'].
Proof.
  exists (mkMcall true all_mf false [mkV 0 0 0]%Z s_pm1 (cubic 1) [ion 0 0]), (mkMcall true all_mf false [mkV 0 0 0]%Z s_pm1 (cubic 1) [ion (1 / 5) 0]).
  split; [repeat split; cbn; congruence|]. do 4 (split; [reflexivity|]).
  rewrite mrun_two. rewrite m_all_flags by reflexivity. rewrite (proj1 (m_clear _)). cbn [m_only m_hkl m_s m_uc m_atoms].
  set (mu := fun _ : para => calc_multiplicity (full_of s_pm1) (get_atom_symm_elem (mkV 0 0 0))).
  change (p_mult_arr (full_of s_pm1) [ion 0 0]) with (map mu [ion (1 / 5) 0]). rewrite sft_gen. cbn [map].
  unfold mfresh. cbn [m_only m_hkl m_s m_uc m_atoms]. rewrite !sft_map. cbn [map]. intros E. apply second_tensor in E. apply one_tensor in E.
  rewrite !ion_tensor in E; try (apply cubic_nondegenerate; lra); try apply s_pm1_ok; try apply det_pm1; try (intros; apply phase_000).
  apply RtoC_inj in E. rewrite !Rmult_0_l, !Ropp_0, !exp_0 in E. unfold mu, pmult in E. change (pa_xyz (ion (1 / 5) 0)) with (mkV (1 / 5) 0 0) in E. rewrite round_0, round_15 in E.
  change (calc_multiplicity (full_of s_pm1) (AtomPos (mkV 0 0 0)%Z 3000000)) with 1%nat in E.
  change (calc_multiplicity (full_of s_pm1) (AtomPos (mkV 600000 0 0)%Z 3000000)) with 2%nat in E. cbn [INR] in E. lra.
Qed.
Theorem m_symmetry_stale : exists k k', m_uc k' = m_uc k /\ m_atoms k' = m_atoms k /\ m_hkl k' = m_hkl k /\ m_only k' = m_only k /\ m_use k' = false /\ m_fl k' = all_mf /\
  mrun (only_hkl (m_hkl k)) [k; k'] <> [mfresh k; mfresh k'].
Proof.
  exists (mkMcall false all_mf false [mkV 0 0 0]%Z s_p1 (cubic 1) [ion (1 / 5) 0]), (mkMcall false all_mf false [mkV 0 0 0]%Z s_pm1 (cubic 1) [ion (1 / 5) 0]).
  do 6 (split; [reflexivity|]). rewrite mrun_two.
  match goal with |- context [do_mcall (snd ?X) ?k'] => assert (Q : fst (do_mcall (snd X) k') =
     sft_arr (sft_asym_arr (map (pmult (full_of s_p1)) [ion (1 / 5) 0]) (p_dwf_arr [mkV 0 0 0]%Z (sthovl_arr [mkV 0 0 0]%Z (cubic 1)) s_pm1 [ion (1 / 5) 0]) [ion (1 / 5) 0]
     (p_pr1_arr [mkV 0 0 0]%Z s_pm1 [ion (1 / 5) 0]) (pr2_arr [mkV 0 0 0]%Z s_pm1) (pr5_arr s_pm1 (cubic 1)))
     (ff_arr false (sthovl_arr [mkV 0 0 0]%Z (cubic 1)) [ion (1 / 5) 0]) (pr3_arr [mkV 0 0 0]%Z s_pm1) s_pm1 (pr4_arr [mkV 0 0 0]%Z s_pm1)) by reflexivity end.
  rewrite Q, sft_gen. rewrite (proj1 (m_clear _)). unfold mfresh. cbn [m_only m_hkl m_s m_uc m_atoms]. rewrite !sft_map. cbn [map]. intros E. apply second_tensor in E. apply one_tensor in E.
  rewrite !ion_tensor in E; try (apply cubic_nondegenerate; lra); try apply s_pm1_ok; try apply det_pm1; try (intros; apply phase_000).
  apply RtoC_inj in E. rewrite !Rmult_0_l, !Ropp_0, !exp_0 in E. unfold pmult in E. change (pa_xyz (ion (1 / 5) 0)) with (mkV (1 / 5) 0 0) in E. rewrite round_15 in E.
  change (calc_multiplicity (full_of s_p1) (AtomPos (mkV 600000 0 0)%Z 3000000)) with 1%nat in E.
  change (calc_multiplicity (full_of s_pm1) (AtomPos (mkV 600000 0 0)%Z 3000000)) with 2%nat in E. cbn [INR] in E. lra.
Qed.
(** an empty dictionary never learns the reflections *)
Theorem m_empty_dict_stale : exists k k', m_announced k k' /\ m_uc k' = m_uc k /\ m_atoms k' = m_atoms k /\ m_s k' = m_s k /\ m_only k' = m_only k /\
  mrun empty_dict [k; k'] <> [mfresh k; mfresh k'].
Proof.
  exists (mkMcall true no_mf false [mkV 0 0 0]%Z s_p1 (cubic 1) [ion 0 1]), (mkMcall true no_mf false [mkV 1 0 0]%Z s_p1 (cubic 1) [ion 0 1]).
  split; [repeat split; reflexivity|]. do 4 (split; [reflexivity|]). set (k := mkMcall true no_mf false [mkV 0 0 0]%Z s_p1 (cubic 1) [ion 0 1]).
  rewrite mrun_two.
  assert (A : fst (do_mcall empty_dict k) = mfresh k).
  { unfold do_mcall, calc_sft_ccs_dict, empty_dict. cbn [d_hkl d_full d_mult d_pr1 d_pr2 d_pr3 d_pr4 d_sthovl d_pr5 d_only d_ff d_dwf d_asym d_sft]. cbv zeta. rewrite !fetch_none. reflexivity. }
  assert (B : d_hkl (snd (do_mcall empty_dict k)) = None /\ d_sft (snd (do_mcall empty_dict k)) = Some (mfresh k)).
  { split; [reflexivity|]. rewrite <- A. reflexivity. }
  rewrite A. destruct B as [B1 B2].
  match goal with |- context [do_mcall ?d (mkMcall true ?fl ?o ?h ?s ?u ?a)] =>
    assert (F : fst (do_mcall d (mkMcall true fl o h s u a)) = mfresh k) by (apply (m_stale d fl o h s u a (mfresh k)); [right; exact B1|reflexivity|exact B2]) end.
  rewrite F. intros E. apply second_tensor in E. unfold mfresh, k in E. cbn [m_only m_hkl m_s m_uc m_atoms] in E. rewrite !sft_map in E. cbn [map] in E.
  apply one_tensor in E.
  assert (PH : forall h e, In e (full_of s_p1) -> phase (hdot h (act e (vget (mkV 0 0 0)))) = RtoC 1).
  { intros h e He. change (In e [op_id]) in He. destruct He as [<-|[]]. replace (hdot h (act op_id (vget (mkV 0 0 0)))) with 0; [apply phase_0|]. unfold hdot, act, sum3. cbn. lra. }
  rewrite !ion_tensor in E; try (apply cubic_nondegenerate; lra); try apply s_p1_ok; try apply det_p1; try apply PH.
  apply RtoC_inj in E. change (pmult (full_of s_p1) (ion 0 1)) with (calc_multiplicity (full_of s_p1) (get_atom_symm_elem (mkV 0 0 0))) in E.
  rewrite round_0 in E. change (calc_multiplicity (full_of s_p1) (AtomPos (mkV 0 0 0)%Z 3000000)) with 1%nat in E. rewrite cubic_sthovl, cubic_0 in E by lra.
  cbn [INR] in E. rewrite !Rmult_1_l in E. apply Rmult_eq_reg_r in E; [|lra]. apply exp_inv in E. lra.
Qed.
