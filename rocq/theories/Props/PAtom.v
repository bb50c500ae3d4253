(** Property theorems C49, C50, C61 (debye_waller_factor.py, preferred_orientation.py, magnetic_form_factor.py) and the
    displacement part of C35. *)
From Coq Require Import Reals Lra.
From Coquelicot Require Import Coquelicot.
From Verif Require Import Spec.Lin3 Spec.Cell Spec.Adp Model.UnitCell Model.AtomFactors Proofs.UnitCellP Proofs.AtomFactorsP.
Open Scope R_scope.

Theorem C49_u_beta_u : forall uc u, nondegenerate uc ->
  calc_u_ij_by_beta (calc_beta_by_u_ij u (calc_reciprocal uc)) (calc_reciprocal uc) = u /\
  calc_beta_by_u_ij (calc_u_ij_by_beta u (calc_reciprocal uc)) (calc_reciprocal uc) = u.
Proof. exact u_beta_both. Qed.
Print Assumptions C49_u_beta_u.
(** Parameters -> (B_iso, beta) -> parameters, for every displacement type.  The parameter the type does not use comes
    back as zero. *)
Theorem C49_parameters_roundtrip : forall uc t iso aniso, nondegenerate uc ->
  let '(b, beta) := calc_b_iso_beta uc t iso aniso in
  let '(iso', aniso') := calc_param_iso_aniso_by_b_iso_beta uc t b beta in
  iso' = (match t with Uiso | Biso | Uovl | Umpe | Bovl => iso | _ => 0 end) /\
  aniso' = (match t with Uani | Bani => aniso | _ => mkQ 0 0 0 0 0 0 end).
Proof. exact adp_roundtrip. Qed.
Print Assumptions C49_parameters_roundtrip.
Theorem C49_b_beta_roundtrip : forall uc t b beta, nondegenerate uc ->
  let '(iso, aniso) := calc_param_iso_aniso_by_b_iso_beta uc t b beta in
  let '(b', beta') := calc_b_iso_beta uc t iso aniso in
  b' = (match t with Uiso | Biso | Uovl | Umpe | Bovl => b | _ => 0 end) /\
  beta' = (match t with Uani | Bani => beta | _ => mkQ 0 0 0 0 0 0 end).
Proof. exact beta_roundtrip. Qed.
Print Assumptions C49_b_beta_roundtrip.
(** The converted tensor is 2 pi^2 a*_i U_ij a*_j for every pair of axes. *)
Theorem C49_beta_definition : forall uc u i j,
  qget (calc_beta_by_u_ij u (calc_reciprocal uc)) i j =
  2 * PI ^ 2 * axis_len (calc_reciprocal uc) i * axis_len (calc_reciprocal uc) j * qget u i j.
Proof. exact beta_def. Qed.
Print Assumptions C49_beta_definition.
(** The isotropic tensor written as U_ij gives the same Debye-Waller exponent as U_iso, for every cell. *)
Theorem C49_isotropic_consistent : forall uc h u, nondegenerate uc ->
  let rc := calc_reciprocal uc in
  calc_power_dwf_aniso h (calc_beta_by_u_ij (mkQ u u u (u * cos (u_ga rc)) (u * cos (u_be rc)) (u * cos (u_al rc))) rc) eye =
  calc_power_dwf_iso (calc_sthovl h uc) (fst (calc_b_iso_beta uc Uiso u (mkQ 0 0 0 0 0 0))).
Proof. exact iso_as_aniso. Qed.
Print Assumptions C49_isotropic_consistent.
Theorem C49_conversion_derivatives : forall u b rc n, (n < 6)%nat ->
  is_derive (fun t => q_elem (calc_beta_by_u_ij (q_vary u n t) rc) n) (q_elem u n) (q_elem (calc_beta_by_u_ij_dder rc) n) /\
  is_derive (fun t => q_elem (calc_u_ij_by_beta (q_vary b n t) rc) n) (q_elem b n) (q_elem (calc_u_ij_by_beta_dder rc) n).
Proof. exact (fun u b rc n N => conj (beta_u_d u rc n N) (u_beta_d b rc n N)). Qed.
Print Assumptions C49_conversion_derivatives.
Example C49_case : nondegenerate (mkU 3 4 5 (PI/2) (PI/2) (PI/2)).
Proof. repeat split; cbn [u_a u_b u_c u_al u_be u_ga]; try lra; assert (P := PI_RGT_0); try lra. rewrite cos_PI2. lra. Qed.

(** The factor of an operation with rotation R is exp(-B s^2) exp(-(hR) beta (hR)^T). *)
Theorem C35_factor_of_rotated_atom : forall h s b beta r, calc_dwf h s b beta r = exp (- (b * s ^ 2)) *
  exp (- sum3 (fun i => sum3 (fun j => sum3 (fun k => vget h k * mget r k i) * qget beta i j * sum3 (fun k => vget h k * mget r k j)))).
Proof. exact dwf_form. Qed.
Print Assumptions C35_factor_of_rotated_atom.
(** For a physical displacement tensor it lies in (0, 1]. *)
Theorem C35_factor_range : forall h s b beta r, 0 <= b -> psd beta -> 0 < calc_dwf h s b beta r <= 1.
Proof. exact dwf_range. Qed.
Print Assumptions C35_factor_range.
Theorem C35_derivatives : forall h s b beta r,
  is_derive (fun t => calc_power_dwf_iso s t) b (fst (calc_power_dwf_iso_dder s b)) /\
  is_derive (fun t => calc_power_dwf_iso t b) s (snd (calc_power_dwf_iso_dder s b)) /\
  forall n, (n < 6)%nat -> is_derive (fun t => calc_power_dwf_aniso h (q_vary beta n t) r) (q_elem beta n) (q_elem (calc_power_dwf_aniso_dder h r) n).
Proof. exact (fun h s b beta r => conj (proj1 (power_iso_d s b)) (conj (proj2 (power_iso_d s b)) (power_aniso_d h beta r))). Qed.
Print Assumptions C35_derivatives.
Example C35_case : psd (mkQ 1 2 3 0 0 0).
Proof. intros v. unfold sum3. cbn [qget q_11 q_22 q_33 q_12 q_13 q_23]. nra. Qed.

(** ** Texture *)
Theorem C50_no_texture : forall h ax uc al g1 g2,
  (let '(v, _, _) := calc_preferred_orientation_pd h 1 g2 ax uc in v = 1) /\ (let '(v, _, _) := calc_preferred_orientation_pd h g1 1 ax uc in v = 1) /\
  (let '(v, _, _) := calc_preferred_orientation_pd2d al h 1 g2 ax uc in v = 1) /\ (let '(v, _, _) := calc_preferred_orientation_pd2d al h g1 1 ax uc in v = 1).
Proof. exact tex_one. Qed.
Print Assumptions C50_no_texture.
Theorem C50_positive : forall h ax uc al g1 g2, 0 <= g2 <= 1 ->
  (let '(v, _, _) := calc_preferred_orientation_pd h g1 g2 ax uc in 0 < v) /\ (let '(v, _, _) := calc_preferred_orientation_pd2d al h g1 g2 ax uc in 0 < v).
Proof. exact tex_pos. Qed.
Print Assumptions C50_positive.
(** g_2 is the fraction of untextured powder. *)
Theorem C50_mixture : forall h ax uc al g1 g2,
  let pd g2 := let '(v, _, _) := calc_preferred_orientation_pd h g1 g2 ax uc in v in
  let pd2d g2 := let '(v, _, _) := calc_preferred_orientation_pd2d al h g1 g2 ax uc in v in
  pd g2 = g2 * 1 + (1 - g2) * pd 0 /\ pd2d g2 = g2 * 1 + (1 - g2) * pd2d 0.
Proof. exact tex_mix. Qed.
Print Assumptions C50_mixture.
(** The returned derivatives are those of the factor, for every non-degenerate cell and g_1 > 0. *)
Theorem C50_derivatives : forall h ax uc g1 g2, nondegenerate uc -> 0 < g1 ->
  let '(_, d1, d2) := calc_preferred_orientation_pd h g1 g2 ax uc in
  is_derive (fun t => fst (fst (calc_preferred_orientation_pd h t g2 ax uc))) g1 d1 /\
  is_derive (fun t => fst (fst (calc_preferred_orientation_pd h g1 t ax uc))) g2 d2.
Proof. exact tex_d. Qed.
Print Assumptions C50_derivatives.
Theorem C50_derivatives_2d : forall al h ax uc g1 g2, nondegenerate uc -> 0 < g1 ->
  let '(_, d1, d2) := calc_preferred_orientation_pd2d al h g1 g2 ax uc in
  is_derive (fun t => fst (fst (calc_preferred_orientation_pd2d al h t g2 ax uc))) g1 d1 /\
  is_derive (fun t => fst (fst (calc_preferred_orientation_pd2d al h g1 t ax uc))) g2 d2.
Proof. exact tex_d2. Qed.
Print Assumptions C50_derivatives_2d.
(** The one-dimensional factor is the two-dimensional one at azimuth 90 degrees. *)
Theorem C50_2d_contains_1d : forall h g1 g2 ax uc, nondegenerate uc ->
  calc_preferred_orientation_pd2d (PI/2) h g1 g2 ax uc = calc_preferred_orientation_pd h g1 g2 ax uc.
Proof. exact pd2d_90. Qed.
Print Assumptions C50_2d_contains_1d.
(** As a function of the angle to the texture axis the factor is normalised: its mean over the sphere is one. *)
Theorem C50_normalised : forall g1 g2, 0 < g1 -> is_RInt (fun x => po_value g1 g2 (Rsqr x)) 0 1 1.
Proof. exact march_norm. Qed.
Print Assumptions C50_normalised.
Example C50_case : nondegenerate (mkU 3 4 5 (PI/2) (PI/2) (PI/2)) /\ 0 < 1/2 /\ 0 <= 1/3 <= 1.
Proof. split; [apply C49_case|lra]. Qed.

(** ** Form factor *)
Theorem C61_at_zero : forall lande kappa j0 j2,
  calc_form_factor false 0 lande kappa j0 j2 = j_A j0 + j_B j0 + j_C j0 + j_D j0 /\
  calc_form_factor true 0 lande kappa j0 j2 = 0 /\ calc_j2 0 kappa j2 = 0.
Proof. exact ff_zero. Qed.
Print Assumptions C61_at_zero.
Theorem C61_j0_derivatives : forall s k j, k <> 0 ->
  is_derive (fun t => calc_j0 t k j) s (calc_j0_d_sthovl s k j) /\ is_derive (fun t => calc_j0 s t j) k (calc_j0_d_kappa s k j).
Proof. exact (fun s k j K => conj (j0_ds s k j K) (j0_dk s k j K)). Qed.
Print Assumptions C61_j0_derivatives.
Theorem C61_lande_derivative : forall b s l k j0 j2, l <> 0 ->
  is_derive (fun t => calc_form_factor b s t k j0 j2) l (calc_form_factor_d_lande s l k j2).
Proof. exact ff_dl. Qed.
Print Assumptions C61_lande_derivative.
(** With the Lande factor 2 (no orbital part) all derivatives of the form factor are right. *)
Theorem C61_spin_only_derivatives_partial : forall s k j0 j2, k <> 0 ->
  is_derive (fun t => calc_form_factor false t 2 k j0 j2) s (calc_form_factor_d_sthovl false s 2 k j0 j2) /\
  is_derive (fun t => calc_form_factor false s 2 t j0 j2) k (calc_form_factor_d_kappa false s 2 k j0 j2).
Proof. exact ff_spin. Qed.
Print Assumptions C61_spin_only_derivatives_partial.
(** Otherwise the chain rule of j2 is wrong: the code's derivative lacks the factor 2 s / kappa; the exact error. *)
Theorem C61_derivative_error_partial : forall b s l k j0 j2, k <> 0 ->
  is_derive (fun t => calc_form_factor b t l k j0 j2) s
    (calc_form_factor_d_sthovl b s l k j0 j2 + (2 / l - 1) * (j_sum j2 ((s / k) ^ 2) / k * (2 * s / k - 1))) /\
  is_derive (fun t => calc_form_factor b s l t j0 j2) k
    (calc_form_factor_d_kappa b s l k j0 j2 + (2 / l - 1) * (j_sum j2 ((s / k) ^ 2) / k * (s / k - 2 * (s / k) ^ 2))).
Proof. exact ff_err. Qed.
Print Assumptions C61_derivative_error_partial.
Theorem C61_j2_derivative_refuted : forall s k j, 0 < k -> 2 * s <> k -> calc_j2 s k j <> 0 ->
  ~ is_derive (fun t => calc_j2 t k j) s (calc_j2_d_sthovl s k j) /\ ~ is_derive (fun t => calc_j2 s t j) k (calc_j2_d_kappa s k j).
Proof. exact j2_wrong. Qed.
Print Assumptions C61_j2_derivative_refuted.
Example C61_case : 0 < 1 /\ 2 * 1 <> 1 /\ calc_j2 1 1 (mkJ 0 0 0 0 0 0 1) <> 0.
Proof. unfold calc_j2, j_sum, j_h, Rsqr; cbn. repeat split; lra. Qed.
