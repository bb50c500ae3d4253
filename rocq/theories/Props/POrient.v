(** C96-C98: orientation matrix, scattering angles, the Cell object. *)
From Coq Require Import Reals ZArith List String Sorted Lra.
From Verif Require Import Spec.Lin3 Spec.Cell Spec.Rotation Spec.Placement Model.MatrixOps Model.UnitCell Model.Matrices Model.StructFactor Model.CellObj Model.Items Model.Containers Model.Orient
  Proofs.CellItemP Proofs.OrientP.
Import ListNotations.
Open Scope R_scope.

(** * C96.  get_unit_cell_parameters gives the parameters of a Cell with the angles in radians. *)
(** For an invertible UB of any type the cell is a proper cell whose metric is the inverse of the table of scalar products
    of the columns of UB (the reciprocal axes); it does not depend on the type. *)
Theorem C96_cell : forall t ub, det3 (mget ub) <> 0 -> let uc := get_unit_cell_parameters (orient_cell t ub) in
  nondegenerate uc /\ is_inverse (metric uc) (gram (mget ub)) /\ (forall t', orient_cell t' ub = orient_cell t ub) /\
  forall i j, qget (calc_m_reciprocal_g uc) i j = gram (mget ub) i j.
Proof. exact orient_cell_spec. Qed.
Print Assumptions C96_cell.
(** U times the B matrix of that cell is UB (in the CCSL frame); U keeps scalar products and has the handedness of UB. *)
Theorem C96_u : forall t ub, det3 (mget ub) <> 0 -> let uc := get_unit_cell_parameters (orient_cell t ub) in let u := orient_u t ub in
  is_mul (mget u) (mget (calc_m_b uc)) (mget (calc_ub_ccsl t ub)) /\ (forall v w, dot (apply_to (mget u) v) (apply_to (mget u) w) = dot v w) /\
  det3 (mget u) = det3 (mget ub) / Rabs (det3 (mget ub)).
Proof. exact orient_u_spec. Qed.
Print Assumptions C96_u.
(** The accepted types: four are the CCSL frame itself (also X-YZ), the others a quarter turn about the vertical. *)
Theorem C96_types : forall ub,
  (forall t, In t ["CCSL"; "6T2@LLB"; "X-YZ"; "XYZ"]%string -> calc_ub_ccsl t ub = ub) /\
  (forall t v i, In t ["5C1@LLB"; "-YXZ"]%string -> apply_to (mget (calc_ub_ccsl t ub)) v i = turn X3 (PI / 2) (apply_to (mget ub) v) i) /\
  (forall v i, apply_to (mget (calc_ub_ccsl "BusingLevy" ub)) v i = turn X3 (- (PI / 2)) (apply_to (mget ub) v) i).
Proof. exact types_table. Qed.
Print Assumptions C96_types.
(** Going back (U or UB from the CCSL frame; calc_ub) never works: the method get_notation does not exist. *)
Theorem C96_from_ccsl_refuted : (forall t m, calc_matrix_from_ccsl t m = AttributeError) /\ forall u t abc, calc_ub u t abc = AttributeError.
Proof. exact from_ccsl_raises. Qed.
Print Assumptions C96_from_ccsl_refuted.
(** The vertical direction in the Cartesian frame of the crystal, for any detector angles. *)
Theorem C96_e_up : forall u phi omega chi, (forall v w, dot (apply_to (mget u) v) (apply_to (mget u) w) = dot v w) ->
  let e := vget (calc_e_up u phi omega chi) in
  (forall i, turn X3 (- omega) (turn X2 chi (turn X3 (- phi) (apply_to (mget u) e))) i = axis X3 i) /\ dot e e = 1.
Proof. exact e_up_spec. Qed.
Print Assumptions C96_e_up.
Theorem C96_e_up_zero : forall u i, vget (calc_e_up u 0 0 0) i = mget u X3 i.
Proof. exact e_up_zero. Qed.
Print Assumptions C96_e_up_zero.
(** calc_q2 is the squared sine of the angle between the scattering vector and the vertical. *)
Theorem C96_q2 : forall u hkl cell, (forall v w, dot (apply_to (mget u) v) (apply_to (mget u) w) = dot v w) -> nondegenerate (get_unit_cell_parameters cell) -> hkl <> mkV 0 0 0 ->
  exists t, 0 <= t <= PI /\ calc_q2 u hkl cell = (sin t) ^ 2 /\
    dot (apply_to (mget (calc_m_b (get_unit_cell_parameters cell))) (vget hkl)) (vget (calc_e_up u 0 0 0)) = 2 * cell_sthovl cell hkl * cos t.
Proof. exact q2_spec. Qed.
Print Assumptions C96_q2.
Example C96_met : det3 (mget ub_ex) <> 0 /\ ub_ex = mkM (1/5) 0 (1/50) 0 (1/4) 0 0 (1/20) (1/10).
Proof. exact ((Logic.conj (proj1 ub_met) eq_refl)). Qed.
Print Assumptions C96_q2.

(** * C97 *)
(** The reported angles bring the reflection into diffraction: turning the crystal by phi about the vertical puts UB h on
    the difference of the scattered wave vector (azimuth gamma, elevation nu) and the incident one, all of length 1/wavelength.
    For a beam to the left and anticlockwise axes the frame is right-handed; the sign s is -1 when exactly one of the two is
    reversed, and y points to the side of the scattered beam. *)
Theorem C97_angles : forall ub hkl lam beam axes gamma nu phi, 0 < lam -> calc_angle ub hkl lam beam axes = Some (gamma, nu, phi) ->
  let s := if Bool.eqb (String.eqb (lower (strip beam)) "left") (String.eqb (lower (strip axes)) "anticlockwise") then 1 else -1 in
  (forall i, k_out lam (deg (s * gamma)) (deg nu) i - k_in lam i = turn X3 (deg (s * phi)) (apply_to (mget ub) (vget hkl)) i) /\
  0 < s * gamma <= 360 /\ 0 <= sin (deg (s * gamma)) /\ -90 <= nu <= 90 /\ 0 < s * phi <= 360.
Proof. exact angle_spec. Qed.
Print Assumptions C97_angles.
(** No angles are reported exactly when no turn about the vertical brings the reflection into diffraction. *)
Theorem C97_none : forall ub hkl lam beam axes, 0 < lam ->
  (calc_angle ub hkl lam beam axes = None <->
   forall t, let k := fun i => k_in lam i + turn X3 t (apply_to (mget ub) (vget hkl)) i in dot k k <> dot (k_in lam) (k_in lam)).
Proof. exact angle_none. Qed.
Print Assumptions C97_none.
(** gamma and nu do not depend on the horizontal axes of the frame of UB (so not on its type). *)
Theorem C97_frame : forall ub ub' hkl lam beam axes a, 0 < lam -> (forall i, apply_to (mget ub') (vget hkl) i = turn X3 a (apply_to (mget ub) (vget hkl)) i) ->
  option_map fst (calc_angle ub' hkl lam beam axes) = option_map fst (calc_angle ub hkl lam beam axes).
Proof. exact angle_frame. Qed.
Print Assumptions C97_frame.
Example C97_met : exists r, calc_angle ub_ex (mkV 1 1 0) 1 "left" "anticlockwise" = Some r.
Proof. exact ((proj2 ub_met)). Qed.
Print Assumptions C97_frame.

(** * C98 *)
(** A Cell object (angles in degrees) and unit_cell.py (radians) give the same volume, metric, reciprocal cell and matrices. *)
Theorem C98_agrees : forall cell, nondegenerate (get_unit_cell_parameters cell) ->
  let uc := get_unit_cell_parameters cell in let o := form_cell cell in
  co_volume o = calc_volume_uc uc /\ (forall i j, mget (co_m_g o) i j = metric uc i j) /\ co_m_m_norm o = calc_m_m_norm uc /\
  get_unit_cell_parameters (co_reciprocal o) = calc_reciprocal uc /\ (forall i j, mget (co_m_g_reciprocal o) i j = metric (calc_reciprocal uc) i j) /\
  co_m_b_norm o = calc_m_b_norm uc /\ co_m_b o = calc_m_b uc /\ co_m_m o = calc_m_m uc.
Proof. exact cell_agrees. Qed.
Print Assumptions C98_agrees.
Theorem C98_positions : forall cell, nondegenerate (get_unit_cell_parameters cell) -> forall x,
  calc_coordinate_by_position cell (calc_position_by_coordinate cell x) = x /\ calc_position_by_coordinate cell (calc_coordinate_by_position cell x) = x.
Proof. exact position_round_trip. Qed.
Print Assumptions C98_positions.
Theorem C98_length : forall cell, nondegenerate (get_unit_cell_parameters cell) -> forall x,
  let p := vget (calc_position_by_coordinate cell x) in
  dot p p = sum3 (fun i => sum3 (fun j => vget x i * metric (get_unit_cell_parameters cell) i j * vget x j)) /\ calc_length_sq cell x = dot p p.
Proof. exact position_length. Qed.
Print Assumptions C98_length.
(** A tensor given in the basis of the unit vectors along the cell edges (e k: the k-th edge over its length) becomes Cartesian. *)
Theorem C98_orthogonalised : forall cell, nondegenerate (get_unit_cell_parameters cell) -> forall m i j,
  let e := fun k x => vget (calc_position_by_coordinate cell (match k with X1 => mkV 1 0 0 | X2 => mkV 0 1 0 | X3 => mkV 0 0 1 end)) x / axis_len cell k in
  mget (cell_ortogonalize_matrix cell m) i j = sum3 (fun k => sum3 (fun l => mget m k l * e k i * e l j)).
Proof. exact orthogonalised. Qed.
Print Assumptions C98_orthogonalised.
Theorem C98_reciprocal_length : forall cell, nondegenerate (get_unit_cell_parameters cell) -> forall hkl,
  calc_reciprocal_length_sq cell hkl = (2 * cell_sthovl cell hkl) ^ 2.
Proof. exact reciprocal_length. Qed.
Print Assumptions C98_reciprocal_length.
Theorem C98_k_loc : forall cell hkl, nondegenerate (get_unit_cell_parameters cell) -> hkl <> mkV 0 0 0 ->
  let k := cell_k_loc cell hkl in
  dot (vget k) (vget k) = 1 /\ forall i, apply_to (mget (calc_m_b (get_unit_cell_parameters cell))) (vget hkl) i = 2 * cell_sthovl cell hkl * vget k i.
Proof. exact k_loc_spec. Qed.
Print Assumptions C98_k_loc.
(** The matrix T is a rotation that brings z to the scattering vector (within 1e-5). *)
Theorem C98_matrix_t : forall cell hkl, nondegenerate (get_unit_cell_parameters cell) -> hkl <> mkV 0 0 0 ->
  exists t, cell_matrix_t cell hkl = Some t /\ is_rotation (mget t) /\
    forall i, Rabs (apply_to (mget t) (axis X3) i - vget (cell_k_loc cell hkl) i) <= 1 / 100000.
Proof. exact matrix_t_spec. Qed.
Print Assumptions C98_matrix_t.
(** For the reflection 000 the method stops the interpreter. *)
Theorem C98_matrix_t_zero_refuted : forall cell, nondegenerate (get_unit_cell_parameters cell) -> cell_matrix_t cell (mkV 0 0 0) = None.
Proof. exact matrix_t_zero. Qed.
Print Assumptions C98_matrix_t_zero_refuted.
(** calc_hkl_in_range lists every reflection of the range once, by increasing sin(theta)/lambda. *)
Theorem C98_hkl_in_range : forall cell smin smax, nondegenerate (get_unit_cell_parameters cell) ->
  let l := calc_hkl_in_range cell smin smax in
  (forall h, In h l <-> smin <= calc_sthovl (hkl_real h) (get_unit_cell_parameters cell) <= smax) /\ NoDup l /\
  StronglySorted (fun g h => calc_sthovl (hkl_real g) (get_unit_cell_parameters cell) <= calc_sthovl (hkl_real h) (get_unit_cell_parameters cell)) l.
Proof. exact hkl_in_range_spec. Qed.
Print Assumptions C98_hkl_in_range.
(** In a cell with right angles the closest distance is the smallest distance to a lattice translate. *)
Theorem C98_closest_orthogonal_partial : forall a b c f1 f2, 0 < a -> 0 < b -> 0 < c -> let cell := mkU a b c 90 90 90 in
  (exists n, closest_distance_between_fractions cell f1 f2 = image_distance (get_unit_cell_parameters cell) f1 f2 n) /\
  forall n, closest_distance_between_fractions cell f1 f2 <= image_distance (get_unit_cell_parameters cell) f1 f2 n.
Proof. exact closest_orthogonal. Qed.
Print Assumptions C98_closest_orthogonal_partial.
(** In a hexagonal cell it can be shorter than every distance. *)
Theorem C98_closest_refuted : exists cell f1 f2, nondegenerate (get_unit_cell_parameters cell) /\
  forall n, closest_distance_between_fractions cell f1 f2 < image_distance (get_unit_cell_parameters cell) f1 f2 n.
Proof. exact closest_hexagonal. Qed.
Print Assumptions C98_closest_refuted.
Example C98_met : nondegenerate (get_unit_cell_parameters (mkU 3 4 5 90 90 90)).
Proof. exact ((proj2 (ortho_m 3 4 5 ltac:(lra) ltac:(lra) ltac:(lra)))). Qed.
Print Assumptions C98_closest_refuted.
