(** Model of cryspy/A_functions_base/local_susceptibility.py l.24-135 and of
    cryspy/C_item_loop_classes/cl_1_atom_site_susceptibility.py l.205-279 (one atom). Real arithmetic. *)
From Coq Require Import Reals Bool String.
From Verif Require Import Spec.Lin3 Spec.Cell Model.MatrixOps Model.UnitCell Model.Vibration.
Open Scope R_scope.

(** local_susceptibility.py l.24-62 calc_magnetization_ellipsoid_as_u, value (l.33-38). *)
Definition calc_magnetization_ellipsoid_as_u (susceptibility : Q6 R) (uc : U6 R) : Q6 R :=
  let m_inv_g_norm := calc_m_reciprocal_g_norm uc in
  let inv_b_norm := calc_m_inv_b_norm uc in
  let hh_1 := calc_m_q_inv_m inv_b_norm susceptibility in
  calc_mt_q_m hh_1 m_inv_g_norm.
(** l.42-52: dder["susceptibility"] is nine rows of zeros (rows 0..8; only the six of the result are meaningful). *)
Definition ellipsoid_as_u_dder_susceptibility : nat -> nat -> R := fun _ _ => 0.

(** l.80-84: the matrix handed to numpy.linalg.eigh. *)
Definition eigh_input (susceptibility : Q6 R) : M3 R :=
  let '(mkQ q0 q1 q2 q3 q4 q5) := calc_q_sq susceptibility in
  mkM q0 q3 q4 q3 q1 q5 q4 q5 q2.
Definition np_chi_ccs (s : Q6 R) : M3 R :=
  let '(mkQ s0 s1 s2 s3 s4 s5) := s in mkM s0 s3 s4 s3 s1 s5 s4 s5 s2.
(** l.65-97 calc_magnetization_ellipsoid_axes. The result of numpy.linalg.eigh is an argument (LAPACK is not
    modelled; its documented contract is Spec.Ellipsoid.is_eigh). [unit_cell_parameters] is not used. *)
Definition axis_sign (x : R) : R := if Rle_dec 0 x then 2 * 1 - 1 else 2 * 0 - 1.
Definition calc_magnetization_ellipsoid_axes (susceptibility : Q6 R) (eigh : V3 R * M3 R) : V3 R * M3 R * M3 R :=
  let '(val, eig_fields) := eigh in
  let moments_pos := mkV (sqrt (v_1 val)) (sqrt (v_2 val)) (sqrt (v_3 val)) in
  let eig_moments := calc_m1_m2 (np_chi_ccs susceptibility) eig_fields in
  let s n := axis_sign (mget eig_fields X1 n * mget eig_moments X1 n + mget eig_fields X2 n * mget eig_moments X2 n
                        + mget eig_fields X3 n * mget eig_moments X3 n) in
  (mkV (v_1 moments_pos * s X1) (v_2 moments_pos * s X2) (v_3 moments_pos * s X3), eig_fields, eig_moments).

(** numpy.sort of three numbers: least, middle, greatest. *)
Definition sort2 (x y : R) : R * R := if Rle_dec x y then (x, y) else (y, x).
Definition sort3 (v : V3 R) : V3 R :=
  let '(a, b) := sort2 (v_1 v) (v_2 v) in
  let '(b, c) := sort2 b (v_3 v) in
  let '(a, b) := sort2 a b in mkV a b c.
(** local_susceptibility.py l.100-117 calc_ellipsoid_factor. *)
Definition ellipsoid_factor_of (moments : V3 R) : R :=
  let val_sort := sort3 moments in
  if Req_EM_T (v_3 val_sort) 0 then 0
  else if Req_EM_T (v_2 val_sort) 0 then 1 - (v_2 val_sort / v_3 val_sort)
  else (v_1 val_sort / v_2 val_sort) - (v_2 val_sort / v_3 val_sort).
Definition calc_ellipsoid_factor (susceptibility : Q6 R) (eigh : V3 R * M3 R) : R :=
  ellipsoid_factor_of (fst (fst (calc_magnetization_ellipsoid_axes susceptibility eigh))).

(** local_susceptibility.py l.120-135 calc_chi_direct_norm_with_symmetry: "dder" is emptied on l.127, so with
    flag_susceptibility l.129 is false and l.132 pops a missing key. *)
Definition calc_chi_direct_norm_with_symmetry (susceptibility symm_elems_r : M3 R) (flag_susceptibility : bool) : py_result (M3 R) :=
  let chi_s_direct := calc_m1_m2_inv_m1 symm_elems_r susceptibility in
  if flag_susceptibility then KeyError else Ok chi_s_direct.

(** cl_1_atom_site_susceptibility.py: the attributes of one item that l.205-237 touches. *)
Record sus_item := mkSus
  { su_type : option string; su_chi : Q6 R; su_sigma : Q6 R; su_ref : Q6 bool; su_con : Q6 bool }.
(** l.205-237 apply_chi_iso_constraint (the cell is read but not used). *)
Definition apply_chi_iso_constraint (it : sus_item) : sus_item :=
  match su_type it with
  | None => it
  | Some chi_type =>
      if startswith (lower chi_type) "ciso" then
        let '(mkQ x _ _ _ _ _) := su_chi it in
        let '(mkQ s _ _ _ _ _) := su_sigma it in
        let '(mkQ r _ _ _ _ _) := su_ref it in
        let '(mkQ c _ _ _ _ _) := su_con it in
        mkSus (su_type it) (mkQ x x x 0 0 0) (mkQ s s s 0 0 0) (mkQ r false false false false false) (mkQ c true true true true true)
      else it
  end.
(** l.239-279 calc_main_axes_of_magnetization_ellipsoid: (moments, moments_sigma, eig_fields, eig_moments). *)
Definition calc_main_axes (it : sus_item) (eigh : V3 R * M3 R) : V3 R * V3 R * M3 R * M3 R :=
  let '(moments, eig_fields, eig_moments) := calc_magnetization_ellipsoid_axes (su_chi it) eigh in
  (moments, mkV 0 0 0, eig_fields, eig_moments).
