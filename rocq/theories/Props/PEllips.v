(** Property theorems C89, C90 (local_susceptibility.py; cl_1_atom_site_susceptibility.py l.205-279). *)
From Coq Require Import Reals Bool String Lra.
From Coquelicot Require Import Coquelicot.
From Verif Require Import Spec.Lin3 Spec.Cell Spec.Deriv Spec.Ellipsoid Model.MatrixOps Model.UnitCell Model.Vibration Model.LocalSusc
  Proofs.UnitCellP Proofs.UnitCellDerivP Proofs.LocalSuscP.
Open Scope R_scope.

(** C89.  The U_ij reported for plotting, evaluated on any reciprocal direction h (coordinates on unit reciprocal axes),
    is the square of the moment induced by the field with those coordinates. *)
Theorem C89_u_is_squared_moment : forall chi uc h, nondegenerate uc ->
  let f := fun i => sum3 (fun k => mget (calc_m_b_norm uc) i k * vget h k) in
  form_of (qget (calc_magnetization_ellipsoid_as_u chi uc)) (vget h)
  = dot (moment_of (qget chi) f) (moment_of (qget chi) f).
Proof. exact as_u_is_induced_moment. Qed.
Print Assumptions C89_u_is_squared_moment.
Theorem C89_u_is_adp_of_square : forall chi uc, nondegenerate uc ->
  calc_magnetization_ellipsoid_as_u chi uc = transform_ccs_to_reciprocal_norm (calc_q_sq chi) uc.
Proof. exact as_u_is_adp_of_square. Qed.
Print Assumptions C89_u_is_adp_of_square.
(** The surface x W x = 1 drawn for the tensor (W is the inverse of the Cartesian tensor) is the set of the moments induced by
    the unit fields. *)
Theorem C89_drawn_surface : forall chi uc w f, nondegenerate uc ->
  is_inverse (qget (transform_reciprocal_norm_to_ccs (calc_magnetization_ellipsoid_as_u chi uc) uc)) w ->
  form_of w (moment_of (qget chi) f) = dot f f.
Proof. exact drawn_surface. Qed.
Print Assumptions C89_drawn_surface.
(** The derivatives that can be asked for together with U_ij are zeros. *)
Theorem C89_u_derivative_refuted : forall uc, nondegenerate uc ->
  ~ is_partial_q (fun q => qget (calc_magnetization_ellipsoid_as_u q uc) X1 X1) (mkQ 1 0 0 0 0 0) X1 X1 (ellipsoid_as_u_dder_susceptibility 0 0).
Proof. exact as_u_dder_refuted. Qed.
Print Assumptions C89_u_derivative_refuted.
(** The moments, fields and vectors of the report: the vectors are the moments induced by the fields, the moments have the
    lengths of these vectors, and the sign says whether the vector is along the field. *)
Theorem C89_axes : forall chi val vec, is_eigh (mget (eigh_input chi)) val vec ->
  let '(moments, eig_fields, eig_moments) := calc_magnetization_ellipsoid_axes chi (val, vec) in
  eig_fields = vec /\
  (forall n i, mget eig_moments i n = moment_of (qget chi) (column eig_fields n) i) /\
  forall n, Rabs (vget moments n) = sqrt (dot (column eig_moments n) (column eig_moments n)) /\
            (0 < vget moments n -> 0 <= dot (column eig_fields n) (column eig_moments n)) /\
            (vget moments n < 0 -> dot (column eig_fields n) (column eig_moments n) < 0).
Proof. exact axes_magnitude. Qed.
Print Assumptions C89_axes.
(** They are the principal susceptibilities unless the tensor has two opposite ones ... *)
Theorem C89_principal_partial : forall chi val vec, is_eigh (mget (eigh_input chi)) val vec -> no_opposite_pair (qget chi) ->
  forall n i, moment_of (qget chi) (column vec n) i
    = vget (fst (fst (calc_magnetization_ellipsoid_axes chi (val, vec)))) n * mget vec i n.
Proof. exact axes_principal. Qed.
Print Assumptions C89_principal_partial.
(** ... in particular when no principal susceptibility is negative. *)
Theorem C89_paramagnet : forall chi val vec, is_eigh (mget (eigh_input chi)) val vec -> nonneg_form (qget chi) ->
  let m := fst (fst (calc_magnetization_ellipsoid_axes chi (val, vec))) in
  no_opposite_pair (qget chi) /\ 0 <= v_1 m <= v_2 m /\ v_2 m <= v_3 m.
Proof. exact (fun chi val vec H P => conj (nonneg_no_opposite _ P) (axes_nonneg chi val vec H P)). Qed.
Print Assumptions C89_paramagnet.
(** With an opposite pair a negative principal susceptibility is reported as a positive one, along a field that does not
    induce a parallel moment. *)
Theorem C89_opposite_pair_refuted : exists chi val vec,
  is_eigh (mget (eigh_input chi)) val vec /\ is_eigenvalue (qget chi) (-1) /\
  let m := fst (fst (calc_magnetization_ellipsoid_axes chi (val, vec))) in
  (forall n, vget m n = 1) /\ (exists n i, moment_of (qget chi) (column vec n) i <> vget m n * mget vec i n).
Proof. exact opposite_pair_lost. Qed.
Print Assumptions C89_opposite_pair_refuted.
(** The ellipsoid factor of a tensor without negative principal values lies between -1 and 1. *)
Theorem C89_ellipsoid_factor_partial : forall chi val vec, is_eigh (mget (eigh_input chi)) val vec -> nonneg_form (qget chi) ->
  let m := fst (fst (calc_magnetization_ellipsoid_axes chi (val, vec))) in
  -1 <= calc_ellipsoid_factor chi (val, vec) <= 1 /\
  (0 < v_2 m -> calc_ellipsoid_factor chi (val, vec) = v_1 m / v_2 m - v_2 m / v_3 m) /\
  (0 = v_2 m /\ 0 < v_3 m -> calc_ellipsoid_factor chi (val, vec) = 1) /\
  (0 = v_3 m -> calc_ellipsoid_factor chi (val, vec) = 0).
Proof. exact factor_psd. Qed.
Print Assumptions C89_ellipsoid_factor_partial.
(** The semi-axes 3, 2, 1 of the tensor with principal values -3, -2, 1 have the factor 1/2 - 2/3; the code reports 7/2. *)
Theorem C89_ellipsoid_factor_refuted : forall val vec, is_eigh (mget (eigh_input (mkQ (-3) (-2) 1 0 0 0))) val vec ->
  calc_ellipsoid_factor (mkQ (-3) (-2) 1 0 0 0) (val, vec) = 7 / 2.
Proof. exact factor_refuted. Qed.
Print Assumptions C89_ellipsoid_factor_refuted.
Example C89_ellipsoid_factor_refuted_met : is_eigh (mget (eigh_input (mkQ (-3) (-2) 1 0 0 0))) (mkV 1 4 9) (mkM 0 0 1 0 1 0 1 0 0).
Proof. exact diag_eigh. Qed.
Example C89_met : is_eigh (mget (eigh_input (mkQ 1 2 3 0 0 0))) (mkV 1 4 9) (mkM 1 0 0 0 1 0 0 0 1) /\ nonneg_form (qget (mkQ 1 2 3 0 0 0)).
Proof. exact diag_positive_eigh. Qed.
Example C89_u_cell_met : nondegenerate (mkU 1 1 1 (PI / 2) (PI / 3) (PI / 2)).
Proof. exact mono_nondegenerate. Qed.
(** The uncertainties of the moments are reported as zero whatever the uncertainties of the tensor. *)
Theorem C89_moment_sigma_refuted : forall it e, snd (fst (fst (calc_main_axes it e))) = mkV 0 0 0.
Proof. exact axes_sigma_zero. Qed.
Print Assumptions C89_moment_sigma_refuted.
(** The tensor of a symmetry-equivalent atom; asking for the derivative raises. *)
Theorem C89_symmetry_equivalent_tensor : forall chi r, det3 (mget r) <> 0 ->
  exists x, calc_chi_direct_norm_with_symmetry chi r false = Ok x /\
    forall i j, sum3 (fun k => mget x i k * mget r k j) = sum3 (fun k => mget r i k * mget chi k j).
Proof. exact chi_symmetry_value. Qed.
Print Assumptions C89_symmetry_equivalent_tensor.
Theorem C89_symmetry_derivative_raises_refuted : forall chi r, calc_chi_direct_norm_with_symmetry chi r true = KeyError.
Proof. exact chi_symmetry_raises. Qed.
Print Assumptions C89_symmetry_derivative_raises_refuted.

(** C90.  An atom of type Ciso gets the isotropic tensor of its chi_11, only chi_11 can stay refined, all others are
    constrained; uncertainties follow. *)
Theorem C90_isotropic : forall it t, su_type it = Some t -> startswith (lower t) "ciso" = true ->
  let it' := apply_chi_iso_constraint it in
  (forall i j, qget (su_chi it') i j = q_11 (su_chi it) * delta i j) /\
  (forall i j, qget (su_ref it') i j = true -> i = X1 /\ j = X1 /\ qget (su_ref it) X1 X1 = true) /\
  (forall i j, ~ (i = X1 /\ j = X1) -> qget (su_con it') i j = true) /\
  qget (su_con it') X1 X1 = qget (su_con it) X1 X1 /\
  (forall i j, qget (su_sigma it') i j = q_11 (su_sigma it) * delta i j).
Proof. exact iso_tensor. Qed.
Print Assumptions C90_isotropic.
Theorem C90_other_types_untouched : forall it, (forall t, su_type it = Some t -> startswith (lower t) "ciso" = false) -> apply_chi_iso_constraint it = it.
Proof. exact iso_other. Qed.
Print Assumptions C90_other_types_untouched.
Theorem C90_idempotent : forall it, apply_chi_iso_constraint (apply_chi_iso_constraint it) = apply_chi_iso_constraint it.
Proof. exact iso_idempotent. Qed.
Print Assumptions C90_idempotent.
(** The result is compatible with every symmetry: no rotation or reflection changes it. *)
Theorem C90_invariant : forall it t m, su_type it = Some t -> startswith (lower t) "ciso" = true ->
  (forall i j, sum3 (fun k => mget m i k * mget m j k) = delta i j) ->
  calc_m_q_mt m (su_chi (apply_chi_iso_constraint it)) = su_chi (apply_chi_iso_constraint it).
Proof. exact iso_invariant. Qed.
Print Assumptions C90_invariant.
(** Its three principal moments are chi_11 (with its sign), whatever axes the eigenvalue routine chose. *)
Theorem C90_principal_moments : forall it t val vec, su_type it = Some t -> startswith (lower t) "ciso" = true ->
  let it' := apply_chi_iso_constraint it in
  is_eigh (mget (eigh_input (su_chi it'))) val vec ->
  forall n, vget (fst (fst (fst (calc_main_axes it' (val, vec))))) n = q_11 (su_chi it).
Proof. exact iso_axes. Qed.
Print Assumptions C90_principal_moments.
Example C90_met : let it := mkSus (Some "Ciso"%string) (mkQ 3 5 7 1 1 1) (mkQ 1 2 3 4 5 6) (mkQ true true false true false true) (mkQ false false false false false false) in
  startswith (lower "Ciso") "ciso" = true /\ su_chi (apply_chi_iso_constraint it) = mkQ 3 3 3 0 0 0 /\ su_ref (apply_chi_iso_constraint it) = mkQ true false false false false false.
Proof. repeat split. Qed.
Example C90_met_other : startswith (lower "Cani") "ciso" = false.
Proof. reflexivity. Qed.
