(** Property theorems C79-C84 (structure_factor.py: magnetic structure factors and bulk susceptibility). *)
From Coq Require Import Reals ZArith List Bool Lra Lia.
From Coquelicot Require Import Coquelicot.
From Verif Require Import Spec.Lin3 Spec.Cell Spec.Symm Spec.Scatter Spec.StructSpec Spec.HklSpec Spec.MagSpec Model.MatrixOps Model.UnitCell Model.Symmetry Model.AtomFactors
  Model.StructFactor Model.MagStruct Proofs.SymmBaseP Proofs.SymmExP Proofs.StructFactorP2 Proofs.StructFactorP3 Proofs.StructFactorP4
  Proofs.MagStructP Proofs.MagStructP2 Proofs.MagStructP3 Proofs.MagStructP4 Proofs.MagStructP5 Proofs.MagStructP6 Proofs.MagStructP7 Proofs.HklExP Proofs.MagDerP Proofs.MagStructExP.
Import ListNotations.
Open Scope list_scope.
Open Scope R_scope.

(** C79.  The tensor is the structure factor of the magnetic ions of one cell, each with its own tensor. *)
Theorem C79_textbook : forall only s uc atoms ions h T, sym_ok s -> symmetry_group (full_of s) -> nondegenerate uc -> (forall a, In a atoms -> p_isotropic a) ->
  Forall2 (fun a l => ions_of (full_of s) uc a l) atoms ions ->
  (forall a e, In a atoms -> In e (full_of s) ->
     (same_point (act e (rounded (pa_xyz a))) (rounded (pa_xyz a)) <-> same_point (act e (vget (pa_xyz a))) (vget (pa_xyz a)))) ->
  calc_sft_ccs only [h] s uc atoms = [T] ->
  forall i j, mget T i j = structure_factor h (flat_map (p_sites only h uc i j) (combine atoms ions)).
Proof. exact tensor_textbook. Qed.
Print Assumptions C79_textbook.
Theorem C79_reflections_independent : forall only h1 h2 s uc atoms, calc_sft_ccs only (h1 ++ h2) s uc atoms = calc_sft_ccs only h1 s uc atoms ++ calc_sft_ccs only h2 s uc atoms.
Proof. exact sft_app. Qed.
Print Assumptions C79_reflections_independent.
(** (R, t) is e, g = hR, A is R in Cartesian axes: A T(hR) = exp(2 pi i h.t) T(h) A. *)
Theorem C79_covariant : forall only s uc atoms e A h g T U, sym_ok s -> symmetry_group (full_of s) -> nondegenerate uc ->
  (forall a, In a atoms -> p_isotropic a) -> In e (full_of s) -> metric_invariant uc e -> is_hR h e g ->
  in_frame (mget (calc_m_m uc)) e A ->
  calc_sft_ccs only [h; g] s uc atoms = [T; U] -> forall i j,
  csum3 (fun k => Cmult (RtoC (A i k)) (mget U k j)) =
  Cmult (phase (- hdot h (frac (e_b e) (e_d e)))) (csum3 (fun k => Cmult (mget T i k) (RtoC (A k j)))).
Proof. exact tensor_covariant. Qed.
Print Assumptions C79_covariant.
Theorem C79_reduced_equals_full : forall only hkls s uc atoms, sym_ok s -> (forall a, In a atoms -> p_isotropic a) ->
  calc_sft_ccs only hkls s uc atoms = calc_sft_ccs only hkls (by_full (full_of s)) uc atoms.
Proof. exact tensor_reduced_is_full. Qed.
Print Assumptions C79_reduced_equals_full.
Theorem C79_symmetric : forall only s uc atoms h T, nondegenerate uc -> (forall e, In e (s_red s) -> metric_invariant uc e) ->
  calc_sft_ccs only [h] s uc atoms = [T] -> forall i j, mget T i j = mget T j i.
Proof. exact tensor_symmetric. Qed.
Print Assumptions C79_symmetric.
Theorem C79_friedel : forall only s uc atoms h T U, sym_ok s -> nondegenerate uc ->
  calc_sft_ccs only [h; z_opp_v h] s uc atoms = [T; U] -> forall i j, mget U i j = Cconj (mget T i j).
Proof. exact tensor_friedel. Qed.
Print Assumptions C79_friedel.
Theorem C79_real_up_to_phase : forall only s uc atoms h T, s_centro s = true ->
  calc_sft_ccs only [h] s uc atoms = [T] -> forall i j, real_valued (Cmult (mget T i j) (phase (- hdot h (frac (fst (s_cp s)) (snd (s_cp s)))))).
Proof. exact tensor_centric. Qed.
Print Assumptions C79_real_up_to_phase.
Theorem C79_centring_absences : forall only s uc atoms h T, (forall t, In t (s_tr s) -> (0 < snd t)%Z) ->
  csum (map (fun t => phase (hdot h (frac (fst t) (snd t)))) (s_tr s)) = RtoC 0 ->
  calc_sft_ccs only [h] s uc atoms = [T] -> forall i j, mget T i j = RtoC 0.
Proof. exact tensor_absence. Qed.
Print Assumptions C79_centring_absences.
(** P-1 with a general tensor on a general position; the operations of P2_1/m as in C32. *)
Example C79_case : sym_ok s_pm1 /\ symmetry_group (full_of s_pm1) /\ nondegenerate mono /\ p_isotropic iron /\ ions_of (full_of s_pm1) mono iron iron_ions /\
  (forall e, same_point (act e (rounded (pa_xyz iron))) (rounded (pa_xyz iron)) <-> same_point (act e (vget (pa_xyz iron))) (vget (pa_xyz iron))) /\
  sym_ok p21m_sym /\ symmetry_group (full_of p21m_sym) /\ In op_screw (full_of p21m_sym) /\ metric_invariant mono op_screw /\
  (exists A, in_frame (mget (calc_m_m mono)) op_screw A) /\ is_hR (mkV 1 2 3)%Z op_screw (mkV (-1) 2 (-3))%Z.
Proof.
  pose proof mono_invariant as [N M]. fold mono in N, M.
  split; [unfold sym_ok, s_pm1; cbn [s_red s_tr s_cp snd]; repeat split; try discriminate; try lia; [intros e [<-|[]]; cbn; lia|intros t [<-|[]]; cbn; lia]|].
  split; [exact pm1_group|]. split; [exact N|]. split; [reflexivity|]. split; [exact iron_case|]. split; [intros e; apply rounded_site; exact x0_exact|].
  split; [unfold sym_ok, p21m_sym; cbn [s_red s_tr s_cp snd]; repeat split; try discriminate; try lia; [intros e [<-|[<-|[]]]; cbn; lia|intros t [<-|[]]; cbn; lia]|].
  split; [exact p21m_group|]. split; [right; left; reflexivity|]. split; [apply M; right; left; reflexivity|].
  split; [exists (rho mono op_screw); apply rho_frame; exact N|]. intros []; unfold sum3; cbn; ring.
Qed.

(** C80.  The projection perpendicular to q, for a unit vector q; |F_perp|^2 of equivalent reflections. *)
Theorem C80_perpendicular : forall T H q, cdot (vget q) (vget (calc_f_m_perp T H q)) = RtoC 0.
Proof. exact perp_is_perp. Qed.
Print Assumptions C80_perpendicular.
Theorem C80_projection : forall T H q, dot (vget q) (vget q) = 1 -> forall i,
  vget (calc_f_m_perp T H q) i =
  Cminus (csum3 (fun k => Cmult (mget T i k) (RtoC (vget H k))))
    (Cmult (cdot (vget q) (fun j => csum3 (fun k => Cmult (mget T j k) (RtoC (vget H k))))) (RtoC (vget q i))).
Proof. exact perp_projection. Qed.
Print Assumptions C80_projection.
Theorem C80_linear_in_field : forall T a b H K q i,
  vget (calc_f_m_perp T (mkV (a * v_1 H + b * v_1 K) (a * v_2 H + b * v_2 K) (a * v_3 H + b * v_3 K)) q) i =
  Cplus (Cmult (RtoC a) (vget (calc_f_m_perp T H q) i)) (Cmult (RtoC b) (vget (calc_f_m_perp T K q) i)).
Proof. exact perp_linear. Qed.
Print Assumptions C80_linear_in_field.
(** H is the field turned by the operation: equivalent reflections in equivalent fields. *)
Theorem C80_covariant : forall only s uc atoms e A h g T U H K, sym_ok s -> symmetry_group (full_of s) -> nondegenerate uc ->
  (forall a, In a atoms -> p_isotropic a) -> In e (full_of s) -> metric_invariant uc e -> is_hR h e g ->
  in_frame (mget (calc_m_m uc)) e A -> (forall i, vget H i = sum3 (fun k => A i k * vget K k)) ->
  calc_sft_ccs only [h; g] s uc atoms = [T; U] -> forall i,
  csum3 (fun k => Cmult (RtoC (A i k)) (vget (calc_f_m_perp U K (calc_eq_ccs (hkl_real g) uc)) k)) =
  Cmult (phase (- hdot h (frac (e_b e) (e_d e)))) (vget (calc_f_m_perp T H (calc_eq_ccs (hkl_real h) uc)) i).
Proof. exact perp_covariant. Qed.
Print Assumptions C80_covariant.
Theorem C80_equal_modulus : forall only s uc atoms e A h g T U H K, sym_ok s -> symmetry_group (full_of s) -> nondegenerate uc ->
  (forall a, In a atoms -> p_isotropic a) -> In e (full_of s) -> metric_invariant uc e -> is_hR h e g ->
  in_frame (mget (calc_m_m uc)) e A -> (forall i, vget H i = sum3 (fun k => A i k * vget K k)) ->
  calc_sft_ccs only [h; g] s uc atoms = [T; U] ->
  cnorm2 (vget (calc_f_m_perp U K (calc_eq_ccs (hkl_real g) uc))) = cnorm2 (vget (calc_f_m_perp T H (calc_eq_ccs (hkl_real h) uc))).
Proof. exact perp_modulus. Qed.
Print Assumptions C80_equal_modulus.
(** The derivative over the scattering vector can never be had: the call raises KeyError. *)
Theorem C80_flag_eq_ccs_refuted : forall T H q, calc_f_m_perp_call T H q true = KeyError.
Proof. exact flag_eq_keyerror. Qed.
Print Assumptions C80_flag_eq_ccs_refuted.

(** C81 *)
Theorem C81_cached_equals_fresh_partial : forall k ks, m_safe_history k ks -> mrun (only_hkl (m_hkl k)) (k :: ks) = map mfresh (k :: ks).
Proof. exact m_cached_fresh. Qed.
Print Assumptions C81_cached_equals_fresh_partial.
Theorem C81_only_orbital_refuted : exists k k', m_announced k k' /\ m_s k' = m_s k /\ m_hkl k' = m_hkl k /\ m_atoms k' = m_atoms k /\ m_uc k' = m_uc k /\ m_only k' <> m_only k /\
  mrun (only_hkl (m_hkl k)) [k; k'] <> [mfresh k; mfresh k'].
Proof. exact orbital_stale. Qed.
Print Assumptions C81_only_orbital_refuted.
Theorem C81_multiplicity_refuted : exists k k', m_announced k k' /\ m_s k' = m_s k /\ m_hkl k' = m_hkl k /\ m_only k' = m_only k /\ m_fl k' = all_mf /\
  mrun (only_hkl (m_hkl k)) [k; k'] <> [mfresh k; mfresh k'].
Proof. exact m_multiplicity_stale. Qed.
Print Assumptions C81_multiplicity_refuted.
Theorem C81_symmetry_refuted : exists k k', m_uc k' = m_uc k /\ m_atoms k' = m_atoms k /\ m_hkl k' = m_hkl k /\ m_only k' = m_only k /\ m_use k' = false /\ m_fl k' = all_mf /\
  mrun (only_hkl (m_hkl k)) [k; k'] <> [mfresh k; mfresh k'].
Proof. exact m_symmetry_stale. Qed.
Print Assumptions C81_symmetry_refuted.
(** A dictionary that is empty at first never learns its reflections. *)
Theorem C81_empty_dictionary_refuted : exists k k', m_announced k k' /\ m_uc k' = m_uc k /\ m_atoms k' = m_atoms k /\ m_s k' = m_s k /\ m_only k' = m_only k /\
  mrun empty_dict [k; k'] <> [mfresh k; mfresh k'].
Proof. exact m_empty_dict_stale. Qed.
Print Assumptions C81_empty_dictionary_refuted.
(** The cell, an occupancy and a displacement parameter change, with flags; other reflections follow. *)
Example C81_case :
  let c u fl hs a occ b := mkMcall u fl false hs p21m_sym (mkU a 4 5 (PI / 2) (PI / 3) (PI / 2)) [mkP (mkV 0 0 0) occ (mkQ 1 2 3 0 4 0) sc_one b q_zero 2 1 j_one j_zero] in
  m_safe_history (c true no_mf [mkV 1 2 3]%Z 3 1 1)
    [c true (mkMF false false false false true false false false) [mkV 1 2 3]%Z 3 1 2;
     c true (mkMF true false true false false false false false) [mkV 1 2 3]%Z (7/2) (1/2) 2;
     c true no_mf [mkV 1 2 3; mkV 0 2 0]%Z 4 1 2; c false no_mf [mkV 1 2 3; mkV 0 2 0]%Z 5 1 1].
Proof.
  cbv zeta. unfold m_safe_history, m_safe, m_announced, m_some_flag, no_mf.
  cbn [m_use m_fl m_only m_hkl m_s m_uc m_atoms g_uc g_xyz g_occ g_chi g_biso g_beta g_lande g_kappa map pa_xyz pa_occ pa_chi pa_sc pa_biso pa_beta pa_lande pa_kappa pa_j0 pa_j2].
  repeat match goal with |- _ /\ _ => split | |- True => exact Logic.I | |- _ -> _ => intros end; try reflexivity; try discriminate; left; reflexivity.
Qed.

(** C82.  What is reported is (1 + i) times the derivative, for proper rotations and no inversion centre. *)
Theorem C82_derivative_partial : forall only h s uc pre a post k l i j d, nondegenerate uc -> s_centro s = false ->
  (forall e, In e (s_red s) -> det3 (rot_real e) = 1) -> is_tensor_derivative only h s uc pre a post k l i j d ->
  calc_sft_ccs_dder only h s uc a k l i j = Cmult (1, 1) d.
Proof. exact dder_noncentro. Qed.
Print Assumptions C82_derivative_partial.
Theorem C82_derivative_refuted : exists only h s uc a k l i j d, nondegenerate uc /\ sym_ok s /\ s_centro s = false /\
  is_tensor_derivative only h s uc [] a [] k l i j d /\ calc_sft_ccs_dder only h s uc a k l i j <> d.
Proof. exact dder_refuted. Qed.
Print Assumptions C82_derivative_refuted.
(** With an inversion centre at the origin and for a reflection not extinct by the centring, the derivative is the real part of what
    is reported (the imaginary part should be zero and is not). *)
Theorem C82_centrosymmetric_partial : forall only h s uc pre a post k l i j d, nondegenerate uc -> s_centro s = true ->
  fst (s_cp s) = mkV 0%Z 0%Z 0%Z -> symmetry_group (map translation_op (s_tr s)) -> present (s_tr s) h ->
  (forall e, In e (s_red s) -> det3 (rot_real e) = 1) -> is_tensor_derivative only h s uc pre a post k l i j d ->
  d = RtoC (Re (calc_sft_ccs_dder only h s uc a k l i j)).
Proof. exact dder_centro. Qed.
Print Assumptions C82_centrosymmetric_partial.
Example C82_centro_case : s_centro (mkS [op_id] true (mkV 0 0 0, 1)%Z body) = true /\ symmetry_group (map translation_op body) /\
  present body (mkV 1 1 0)%Z /\ forall e, In e [op_id] -> det3 (rot_real e) = 1.
Proof. exact centro_case. Qed.
Theorem C82_centrosymmetric_refuted : exists only h s uc a k l i j d, nondegenerate uc /\ sym_ok s /\ s_centro s = true /\
  is_tensor_derivative only h s uc [] a [] k l i j d /\ calc_sft_ccs_dder only h s uc a k l i j <> d.
Proof. exact dder_centro_refuted. Qed.
Print Assumptions C82_centrosymmetric_refuted.
Example C82_case : s_centro (mkS [op_id; op_screw] false (mkV 0 0 0, 1)%Z [(mkV 0 0 0, 1)%Z]) = false /\
  forall e, In e [op_id; op_screw] -> det3 (rot_real e) = 1.
Proof. split; [reflexivity|]. intros e [<-|[<-|[]]]; unfold det3, rot_real; cbn; ring. Qed.

(** C83.  The moments of the cell, each once, axial vectors, reversed by time reversal; projected perpendicular to q. *)
Theorem C83_textbook_partial : forall only els uc atoms ions h V, symmetry_group (map fst els) -> nondegenerate uc -> axes_matched uc (map fst els) ->
  (forall a, In a atoms -> mo_isotropic a) -> Forall2 (fun a l => moments_of els uc a l) atoms ions ->
  (forall a e, In a atoms -> In e (map fst els) ->
     (same_point (act e (rounded (mo_xyz a))) (rounded (mo_xyz a)) <-> same_point (act e (vget (mo_xyz a))) (vget (mo_xyz a)))) ->
  h <> mkV 0%Z 0%Z 0%Z ->
  calc_f_m_perp_ordered only [h] els uc atoms = [V] ->
  exists F, (forall i, F i = structure_factor h (flat_map (mo_sites only h uc i) (combine atoms ions))) /\
    forall i, vget V i = Cminus (F i) (Cmult (cdot (vget (calc_eq_ccs (hkl_real h) uc)) F) (RtoC (vget (calc_eq_ccs (hkl_real h) uc) i))).
Proof. exact ordered_textbook. Qed.
Print Assumptions C83_textbook_partial.
(** Where an operation mixes axes of different lengths the moments are turned wrongly. *)
Theorem C83_unequal_axes_refuted : exists (only : bool) (els : list (Op * Z)) (uc : U6 R) (a : moment) (ions : list ((ix -> R) * (ix -> R))) (h : V3 Z) V,
  symmetry_group (map fst els) /\ nondegenerate uc /\ (forall e, In e (map fst els) -> metric_invariant uc e) /\
  mo_isotropic a /\ moments_of els uc a ions /\ (forall i, exact_coordinate (vget (mo_xyz a) i)) /\
  h <> mkV 0%Z 0%Z 0%Z /\ calc_f_m_perp_ordered only [h] els uc [a] = [V] /\
  ~ exists F, (forall i, F i = structure_factor h (flat_map (mo_sites only h uc i) (combine [a] [ions]))) /\
    forall i, vget V i = Cminus (F i) (Cmult (cdot (vget (calc_eq_ccs (hkl_real h) uc)) F) (RtoC (vget (calc_eq_ccs (hkl_real h) uc) i))).
Proof. exact ordered_axes_refuted. Qed.
Print Assumptions C83_unequal_axes_refuted.
(** An antiferromagnet with the group P-1': moments m at x and -m at -x. *)
Example C83_case : symmetry_group (map fst els_pm1') /\ nondegenerate mono /\ axes_matched mono (map fst els_pm1') /\ mo_isotropic ordered_iron /\
  moments_of els_pm1' mono ordered_iron ordered_ions /\
  (forall e, same_point (act e (rounded (mo_xyz ordered_iron))) (rounded (mo_xyz ordered_iron)) <-> same_point (act e (vget (mo_xyz ordered_iron))) (vget (mo_xyz ordered_iron))).
Proof.
  split; [exact pm1_group|]. split; [exact (proj1 mono_invariant)|]. split; [apply diagonal_matched|]. split; [reflexivity|]. split; [exact ordered_case|].
  intros e. apply rounded_site. exact x0_exact.
Qed.

(** C84.  The bulk susceptibility is the sum over the ions of one cell, and has the symmetry of the crystal. *)
Theorem C84_textbook : forall s uc atoms ions, sym_ok s -> symmetry_group (full_of s) -> nondegenerate uc ->
  Forall2 (fun a l => ions_of (full_of s) uc a l) atoms ions ->
  (forall a e, In a atoms -> In e (full_of s) ->
     (same_point (act e (rounded (pa_xyz a))) (rounded (pa_xyz a)) <-> same_point (act e (vget (pa_xyz a))) (vget (pa_xyz a)))) ->
  forall i j, mget (calc_bulk s uc atoms) i j =
    fold_right Rplus 0 (flat_map (fun q : para * list ((ix -> R) * (ix -> ix -> R)) => map (fun pt => pa_occ (fst q) * snd pt i j) (snd q)) (combine atoms ions)).
Proof. exact bulk_textbook. Qed.
Print Assumptions C84_textbook.
Theorem C84_invariant : forall s uc atoms e A, sym_ok s -> symmetry_group (full_of s) -> nondegenerate uc -> In e (full_of s) ->
  in_frame (mget (calc_m_m uc)) e A -> forall i j,
  sum3 (fun k => A i k * mget (calc_bulk s uc atoms) k j) = sum3 (fun k => mget (calc_bulk s uc atoms) i k * A k j).
Proof. exact bulk_invariant. Qed.
Print Assumptions C84_invariant.
(** Two ions with the tensor chi and occupancy 9/10: 18/10 chi. *)
Example C84_case : Forall2 (fun a l => ions_of (full_of s_pm1) mono a l) [iron] [iron_ions] /\
  fold_right Rplus 0 (flat_map (fun q : para * list ((ix -> R) * (ix -> ix -> R)) => map (fun pt => pa_occ (fst q) * snd pt X1 X2) (snd q)) (combine [iron] [iron_ions])) = 72 / 10.
Proof. split; [constructor; [exact iron_case|constructor]|]. cbn. lra. Qed.
