(** Property theorems C32-C36 (structure_factor.py: nuclear structure factor). *)
From Coq Require Import Reals ZArith List Bool Lra Lia.
From Coquelicot Require Import Complex.
From Verif Require Import Spec.Lin3 Spec.Cell Spec.Symm Spec.Scatter Spec.StructSpec Model.UnitCell Model.Symmetry Model.AtomFactors Model.StructFactor
  Proofs.SymmBaseP Proofs.SymmExP Proofs.StructFactorP2 Proofs.StructFactorP3 Proofs.StructFactorP4.
Import ListNotations.
Open Scope list_scope.
Open Scope R_scope.

(** Reflections are independent of each other. *)
Theorem C32_reflections_independent : forall h1 h2 s uc atoms, calc_f_nucl (h1 ++ h2) s uc atoms = calc_f_nucl h1 s uc atoms ++ calc_f_nucl h2 s uc atoms.
Proof. exact f_nucl_app. Qed.
Print Assumptions C32_reflections_independent.
(** C32.  The operation (R, t) is e; g = hR; phase u is exp(-2 pi i u), so the factor is exp(+2 pi i h.t). *)
Theorem C32_phase_relation : forall s uc atoms e h g F G, sym_ok s -> symmetry_group (full_of s) -> nondegenerate uc ->
  (forall a, In a atoms -> isotropic a) -> In e (full_of s) -> metric_invariant uc e -> is_hR h e g ->
  calc_f_nucl [h; g] s uc atoms = [F; G] -> G = Cmult F (phase (- hdot h (frac (e_b e) (e_d e)))).
Proof. exact phase_relation. Qed.
Print Assumptions C32_phase_relation.
Theorem C32_equal_modulus : forall s uc atoms e h g F G, sym_ok s -> symmetry_group (full_of s) -> nondegenerate uc ->
  (forall a, In a atoms -> isotropic a) -> In e (full_of s) -> metric_invariant uc e -> is_hR h e g ->
  calc_f_nucl [h; g] s uc atoms = [F; G] -> Cmod G = Cmod F.
Proof. exact equal_modulus. Qed.
Print Assumptions C32_equal_modulus.
Theorem C32_systematic_absences : forall s uc atoms e h F, sym_ok s -> symmetry_group (full_of s) -> nondegenerate uc ->
  (forall a, In a atoms -> isotropic a) -> In e (full_of s) -> metric_invariant uc e -> is_hR h e h ->
  (forall n : Z, hdot h (frac (e_b e) (e_d e)) <> IZR n) ->
  calc_f_nucl [h] s uc atoms = [F] -> F = RtoC 0.
Proof. exact systematic_absence. Qed.
Print Assumptions C32_systematic_absences.
(** With anisotropic displacement tensors, even if each has the symmetry of its site, equivalent reflections differ. *)
Theorem C32_anisotropic_refuted : exists s uc atoms e h g F G, sym_ok s /\ symmetry_group (full_of s) /\ nondegenerate uc /\
  (forall f, In f (full_of s) -> metric_invariant uc f) /\
  (forall a f, In a atoms -> In f (full_of s) -> admissible (at_beta a) f) /\
  In e (full_of s) /\ is_hR h e g /\ calc_f_nucl [h; g] s uc atoms = [F; G] /\ Cmod G <> Cmod F.
Proof. exact anisotropic_refuted. Qed.
Print Assumptions C32_anisotropic_refuted.
(** P2_1/m: screw axis along b; 010 is absent, 123 and -1 2 -3 are equivalent. *)
Definition p21m_data : symmetry := mkS [op_id; op_screw] true (mkV 0 0 0, 1)%Z [(mkV 0 0 0, 1)%Z].
Definition two_atoms : list atom := [mkA (mkV (1/5) (2/5) (3/10)) 1 (RtoC 3) (1/2) q_zero; mkA (mkV 0 (1/4) 0) (1/2) (1, 2) 1 q_zero].
Example C32_case : full_of p21m_data = p21m /\ sym_ok p21m_data /\ symmetry_group (full_of p21m_data) /\
  nondegenerate (mkU 3 4 5 (PI / 2) (PI / 3) (PI / 2)) /\ metric_invariant (mkU 3 4 5 (PI / 2) (PI / 3) (PI / 2)) op_screw /\
  (forall a, In a two_atoms -> isotropic a) /\ In op_screw (full_of p21m_data) /\
  is_hR (mkV 1 2 3)%Z op_screw (mkV (-1) 2 (-3))%Z /\ is_hR (mkV 0 1 0)%Z op_screw (mkV 0 1 0)%Z /\
  (forall n : Z, hdot (mkV 0 1 0)%Z (frac (e_b op_screw) (e_d op_screw)) <> IZR n).
Proof.
  split; [reflexivity|]. split.
  { unfold sym_ok, p21m_data. cbn [s_red s_tr s_cp snd]. repeat split; try discriminate; try lia; [intros e [<-|[<-|[]]]; cbn; lia|intros t [<-|[]]; cbn; lia]. }
  split; [exact p21m_group|]. split; [apply mono_invariant|]. split; [apply mono_invariant; right; left; reflexivity|].
  split; [intros a [<-|[<-|[]]]; reflexivity|]. split; [right; left; reflexivity|].
  split; [intros []; unfold sum3; cbn; ring|]. split; [intros []; unfold sum3; cbn; ring|].
  intros n E. unfold hdot, frac, sum3, op_screw in E. cbn in E. assert (G : 1 = IZR (2 * n)) by (rewrite mult_IZR; lra). apply eq_IZR in G. lia.
Qed.

(** C33 *)
Theorem C33_reduced_equals_full : forall hkls s uc atoms, sym_ok s -> (forall a, In a atoms -> isotropic a) ->
  calc_f_nucl hkls s uc atoms = calc_f_nucl hkls (by_full (full_of s)) uc atoms.
Proof. exact reduced_is_full. Qed.
Print Assumptions C33_reduced_equals_full.
(** The result is the structure factor of the content of the cell: every site once, weighted by scattering length,
    occupancy and displacement factor. *)
Theorem C33_textbook : forall s uc atoms orbits h F, sym_ok s -> symmetry_group (full_of s) -> (forall a, In a atoms -> isotropic a) ->
  Forall2 (fun a pts => is_orbit (full_of s) (vget (at_xyz a)) pts) atoms orbits ->
  (forall a e, In a atoms -> In e (full_of s) ->
     (same_point (act e (rounded (at_xyz a))) (rounded (at_xyz a)) <-> same_point (act e (vget (at_xyz a))) (vget (at_xyz a)))) ->
  calc_f_nucl [h] s uc atoms = [F] ->
  F = structure_factor h (flat_map (sites h uc) (combine atoms orbits)).
Proof. exact textbook. Qed.
Print Assumptions C33_textbook.
Theorem C33_rounding_harmless : forall x e, (forall i, exact_coordinate (vget x i)) ->
  (same_point (act e (rounded x)) (rounded x) <-> same_point (act e (vget x)) (vget x)).
Proof. exact rounded_site. Qed.
Print Assumptions C33_rounding_harmless.
(** Thirds given with six digits are taken as thirds, but not negative ones. *)
Theorem C33_thirds : forall x i,
  (vget x i = 333333 / 1000000 -> rounded x i = 1 / 3) /\ (vget x i = 666666 / 1000000 -> rounded x i = 2 / 3) /\ (vget x i = 666667 / 1000000 -> rounded x i = 2 / 3).
Proof. exact rounded_thirds. Qed.
Print Assumptions C33_thirds.
Theorem C33_thirds_refuted : exists x : V3 R, vget x X3 = - (333333 / 1000000) /\ rounded x X3 <> - (1 / 3).
Proof. exact rounded_thirds_refuted. Qed.
Print Assumptions C33_thirds_refuted.
Theorem C33_anisotropic_refuted : exists s uc atoms h, sym_ok s /\ symmetry_group (full_of s) /\ nondegenerate uc /\
  (forall f, In f (full_of s) -> metric_invariant uc f) /\
  (forall a f, In a atoms -> In f (full_of s) -> admissible (at_beta a) f) /\
  calc_f_nucl [h] s uc atoms <> calc_f_nucl [h] (by_full (full_of s)) uc atoms.
Proof. exact reduced_full_anisotropic_refuted. Qed.
Print Assumptions C33_anisotropic_refuted.
Example C33_orbit : is_orbit p21m (vget (mkV 0 (1/4) 0)) [vget (mkV 0 (1/4) 0); vget (mkV 0 (3/4) 0)] /\
  (forall i, exact_coordinate (vget (mkV 0 (1/4) 0) i)).
Proof.
  split; [split; [|split]|].
  - intros p [<-|[<-|[]]]; [exists op_id|exists op_screw]; (split; [cbn; tauto|]); intros []; exists 0%Z; unfold act, sum3; cbn; lra.
  - constructor; [constructor; [|constructor]|constructor; constructor]. intros S. destruct (S X2) as [n E]. cbn in E.
    assert (G : -1 = IZR (2 * n)) by (rewrite mult_IZR; lra). apply eq_IZR in G. lia.
  - intros e [<-|[<-|[<-|[<-|[]]]]]; first [exists (vget (mkV 0 (1/4) 0)); split; [cbn; tauto|]; solve [intros []; exists 0%Z; unfold act, sum3; cbn; lra]
      | exists (vget (mkV 0 (3/4) 0)); split; [cbn; tauto|]; intros []; (solve [exists 0%Z; unfold act, sum3; cbn; lra] || (exists (-1)%Z; unfold act, sum3; cbn; lra))].
  - intros []; [exists 0%Z|exists 750000%Z|exists 0%Z]; cbn; repeat split; try lia; lra.
Qed.

(** C34.  Any displacement parameters; the inversion centre at the origin, or anywhere (then real up to the phase of the centre). *)
Theorem C34_real_origin : forall s uc atoms h F, s_centro s = true -> fst (s_cp s) = mkV 0%Z 0%Z 0%Z -> (forall a, In a atoms -> real_valued (at_b a)) ->
  calc_f_nucl [h] s uc atoms = [F] -> real_valued F.
Proof. exact centric_origin_real. Qed.
Print Assumptions C34_real_origin.
Theorem C34_real_up_to_phase : forall s uc atoms h F, s_centro s = true -> (forall a, In a atoms -> real_valued (at_b a)) ->
  calc_f_nucl [h] s uc atoms = [F] -> real_valued (Cmult F (phase (- hdot h (frac (fst (s_cp s)) (snd (s_cp s)))))).
Proof. exact centric_real. Qed.
Print Assumptions C34_real_up_to_phase.
Theorem C34_centring_absences : forall s uc atoms h F, (forall t, In t (s_tr s) -> (0 < snd t)%Z) ->
  csum (map (fun t => phase (hdot h (frac (fst t) (snd t)))) (s_tr s)) = RtoC 0 ->
  calc_f_nucl [h] s uc atoms = [F] -> F = RtoC 0.
Proof. exact centring_absence. Qed.
Print Assumptions C34_centring_absences.
(** Friedel's law. *)
Theorem C34_friedel : forall s uc atoms h F G, sym_ok s -> nondegenerate uc -> (forall a, In a atoms -> real_valued (at_b a)) ->
  calc_f_nucl [h; z_opp_v h] s uc atoms = [F; G] -> G = Cconj F.
Proof. exact friedel. Qed.
Print Assumptions C34_friedel.
Example C34_case : s_centro p21m_data = true /\ real_valued (RtoC 3) /\
  csum (map (fun t => phase (hdot (mkV 1 0 0)%Z (frac (fst t) (snd t)))) [(mkV 0 0 0, 1)%Z; (mkV 1 1 1, 2)%Z]) = RtoC 0.
Proof.
  split; [reflexivity|]. split; [reflexivity|]. cbn [map fst snd]. unfold csum. cbn [fold_right].
  replace (hdot (mkV 1 0 0)%Z (frac (mkV 0 0 0)%Z 1)) with 0 by (unfold hdot, frac, sum3; cbn; lra).
  replace (hdot (mkV 1 0 0)%Z (frac (mkV 1 1 1)%Z 2)) with (1 / 2) by (unfold hdot, frac, sum3; cbn; lra).
  unfold phase. replace (2 * PI * 0) with 0 by ring. replace (2 * PI * (1 / 2)) with PI by field.
  rewrite cos_0, sin_0, cos_PI, sin_PI. unfold Cplus, RtoC. cbn [fst snd]. f_equal; ring.
Qed.

(** C35.  The structure factor hands the wrong rows to the displacement factor: for the identity the exponent is
    evaluated at (k,k,l) instead of (h,k,l). *)
Theorem C35_identity_operation_partial : forall h k l st b_iso beta, dwf_call (mkV h k l) st op_id b_iso beta =
  exp (- (b_iso * st ^ 2 + sum3 (fun i => sum3 (fun j => qget beta i j * IZR (vget (mkV k k l) i) * IZR (vget (mkV k k l) j))))).
Proof. exact dwf_identity. Qed.
Print Assumptions C35_identity_operation_partial.
Theorem C35_rotated_factor_refuted : exists h e st beta, e_r e = (mkM 1 0 0 0 1 0 0 0 1)%Z /\
  dwf_call h st e 0 beta <> exp (- sum3 (fun i => sum3 (fun j => qget beta i j *
     sum3 (fun k => IZR (vget h k) * IZR (mget (e_r e) k i)) * sum3 (fun k => IZR (vget h k) * IZR (mget (e_r e) k j))))).
Proof. exact dwf_rotated_refuted. Qed.
Print Assumptions C35_rotated_factor_refuted.
Theorem C35_isotropic : forall h st e b_iso, dwf_call h st e b_iso q_zero = exp (- (b_iso * st ^ 2)).
Proof. exact dwf_isotropic. Qed.
Print Assumptions C35_isotropic.

(** C36.  Announced changes are not always enough: the hypotheses of [safe_history] are needed. *)
Theorem C36_cached_equals_fresh_partial : forall k ks, safe_history k ks -> run (with_hkl (k_hkl k)) (k :: ks) = map fresh (k :: ks).
Proof. exact cached_fresh. Qed.
Print Assumptions C36_cached_equals_fresh_partial.
Theorem C36_occupancy_refuted : exists k k', announced k k' /\ k_s k' = k_s k /\ k_hkl k' = k_hkl k /\
  run (with_hkl (k_hkl k)) [k; k'] <> [fresh k; fresh k'].
Proof. exact occupancy_stale. Qed.
Print Assumptions C36_occupancy_refuted.
Theorem C36_cell_refuted : exists k k', announced k k' /\ k_s k' = k_s k /\ k_hkl k' = k_hkl k /\ f_uc (k_fl k') = true /\
  run (with_hkl (k_hkl k)) [k; k'] <> [fresh k; fresh k'].
Proof. exact cell_stale. Qed.
Print Assumptions C36_cell_refuted.
(** An atom that moves onto or off a special position keeps its old multiplicity, with all flags set. *)
Theorem C36_multiplicity_refuted : exists k k', announced k k' /\ k_s k' = k_s k /\ k_hkl k' = k_hkl k /\ k_fl k' = mkFl true true true true true /\
  run (with_hkl (k_hkl k)) [k; k'] <> [fresh k; fresh k'].
Proof. exact multiplicity_stale. Qed.
Print Assumptions C36_multiplicity_refuted.
(** A call without stored data for other reflections spoils the dictionary for the next one. *)
Theorem C36_other_reflections_refuted : exists k k' k'', k_uc k' = k_uc k /\ k_uc k'' = k_uc k /\ k_atoms k' = k_atoms k /\ k_atoms k'' = k_atoms k /\ k_s k' = k_s k /\ k_s k'' = k_s k /\
  run (with_hkl (k_hkl k)) [k; k'; k''] <> [fresh k; fresh k'; fresh k''].
Proof. exact hkl_stale. Qed.
Print Assumptions C36_other_reflections_refuted.
(** The stored list of operations is used even when stored data are not to be used. *)
Theorem C36_symmetry_refuted : exists k k', k_uc k' = k_uc k /\ k_atoms k' = k_atoms k /\ k_hkl k' = k_hkl k /\ k_use k' = false /\
  run (with_hkl (k_hkl k)) [k; k'] <> [fresh k; fresh k'].
Proof. exact symmetry_stale. Qed.
Print Assumptions C36_symmetry_refuted.
Example C36_case : 
  let c u fl hs a occ b := mkCall u fl hs p21m_data (mkU a 4 5 (PI / 2) (PI / 3) (PI / 2)) [mkA (mkV 0 0 0) occ (RtoC 1) b q_zero] in
  safe_history (c true (mkFl false false false true false) [mkV 1 2 3]%Z 3 1 1)
    [c true (mkFl false false false true false) [mkV 1 2 3]%Z 3 1 2; c true (mkFl true false true true false) [mkV 1 2 3]%Z (7/2) (1/2) 3;
     c true (mkFl false false false false false) [mkV 1 2 3; mkV 0 2 0]%Z 4 1 2; c false (mkFl false false false false false) [mkV 1 2 3; mkV 0 2 0]%Z 5 1 1].
Proof.
  cbv zeta. unfold safe_history, safe, announced.
  cbn [k_use k_fl k_hkl k_s k_uc k_atoms f_uc f_xyz f_occ f_biso f_beta map at_xyz at_occ at_b at_biso at_beta].
  repeat match goal with |- _ /\ _ => split | |- True => exact I end;
  try reflexivity; try (intros; reflexivity); try (intros; discriminate).
  - intros _ _. repeat match goal with |- _ /\ _ => split end; try (intros; reflexivity); try (intros; discriminate). intros [|]; discriminate.
  - intros _ _. repeat match goal with |- _ /\ _ => split end; try (intros; reflexivity); try (intros; discriminate). intros _. right; left; reflexivity.
Qed.
