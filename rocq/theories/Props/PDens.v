(** C102, C103: maps of a density over the whole cell, density files. *)
From Coq Require Import Reals ZArith List Sorted.
From Verif Require Import Spec.Lin3 Spec.Cell Spec.Symm Spec.DensityMap Model.MatrixOps Model.Symmetry Model.Matrices Model.DensityMaps Model.DenFile
  Proofs.SymmExP Proofs.DensMapP2 Proofs.DensMapP3 Proofs.DensMapP4 Proofs.DensMapP5 Proofs.DensMapExP Proofs.DenFileP2.
Import ListNotations.
Open Scope R_scope.

(** * transform_to_p1 *)
(** The result lists, sorted and each once, the points that are images of the points given, with the entry of the first point of which
    they are an image. *)
Theorem C102_p1_members : forall (A : Type) n elems shift centro (rows : list (V3 Z * A)), (forall i, (0 < vget n i)%Z) ->
  (forall e, In e elems -> grid_compatible n e) -> (forall s, In s shift -> shift_compatible n s) ->
  exists out, transform_to_p1 n elems shift centro rows = Some out /\ StronglySorted lex_lt (map fst out) /\
  forall q d, In (q, d) out <-> in_grid n q /\ exists i p, nth_error rows i = Some (p, d) /\ related n elems shift centro p q /\
    forall j y, (j < i)%nat -> nth_error rows j = Some y -> ~ related n elems shift centro (fst y) q.
Proof. exact p1_all. Qed.
Print Assumptions C102_p1_members.
(** ValueError exactly when a translation or a shift does not fall on the grid. *)
Theorem C102_p1_rejected : forall (A : Type) n elems shift centro (rows : list (V3 Z * A)),
  (forall e, In e elems -> (0 < e_d e)%Z) -> (forall s, In s shift -> (0 < snd s)%Z) ->
  (transform_to_p1 n elems shift centro rows = None <->
   (exists e i, In e elems /\ ~ (e_d e | vget n i)%Z) \/ (exists s i, In s shift /\ ~ (snd s | vget n i)%Z)).
Proof. exact p1_rejected. Qed.
Print Assumptions C102_p1_rejected.
(** The points of the asymmetric unit of a space group give every point of the cell once, with the density of its class. *)
Theorem C102_p1_whole : forall n l cells, (forall i, (0 < vget n i)%Z) -> symmetry_group l -> (forall e, In e l -> grid_compatible n e) ->
  calc_asymmetric_unit_cell_indexes n l = Some cells ->
  forall (A : Type) ops shifts centro (dens : list A), (forall e, In e ops -> grid_compatible n e) -> (forall s, In s shifts -> shift_compatible n s) ->
  generated l ops shifts centro -> List.length dens = List.length cells ->
  exists out, transform_to_p1 n ops shifts centro (combine (map fst cells) dens) = Some out /\
    StronglySorted lex_lt (map fst out) /\ (forall q, In q (map fst out) <-> in_grid n q) /\
    forall q d, In (q, d) out <-> in_grid n q /\ exists k r c, nth_error cells k = Some (r, c) /\ nth_error dens k = Some d /\ grid_equivalent n l r q.
Proof. exact p1_whole. Qed.
Print Assumptions C102_p1_whole.
(** Numbers of steps that do not fit the rotations are accepted, and points are listed that are no image of the point given. *)
Theorem C102_p1_axes_refuted : exists n ops rows out q d, (forall i, (0 < vget n i)%Z) /\ (forall e, In e ops -> (0 < e_d e)%Z) /\
  (forall p a, In (p, a) rows -> in_grid n p) /\ transform_to_p1 n ops [no_shift] false rows = Some out /\ In (q, d) out /\
  forall (p : V3 Z) (a : R), In (p, a) rows -> ~ related n ops [no_shift] false p q.
Proof. exact four_refuted. Qed.
Print Assumptions C102_p1_axes_refuted.
Example C102_p1_met : (forall i, (0 < vget n242 i)%Z) /\ symmetry_group p21m /\ (forall e, In e p21m -> grid_compatible n242 e) /\
  (exists cells, calc_asymmetric_unit_cell_indexes n242 p21m = Some cells /\ List.length cells = 8%nat) /\
  (forall e, In e [op_id; op_screw] -> grid_compatible n242 e) /\ (forall s, In s [no_shift] -> shift_compatible n242 s) /\ generated p21m [op_id; op_screw] [no_shift] true.
Proof. exact p1_met. Qed.
Print Assumptions C102_p1_axes_refuted.

(** * transfer_to_density_3d, transfer_to_chi_3d *)
(** Points that are not equivalent to each other: every point of the cell gets the density of the point listed that is equivalent to it,
    zero when there is none. *)
Theorem C102_map_rows : forall n l, (forall i, (0 < vget n i)%Z) -> symmetry_group l -> (forall e, In e l -> grid_compatible n e) ->
  forall rows q, in_grid n q -> ForallOrdPairs (fun a b => ~ grid_equivalent n l (fst a) (fst b)) rows ->
  (forall p d, In (p, d) rows -> grid_equivalent n l p q -> transfer_to_density_3d rows n l q = d) /\
  ((forall p d, In (p, d) rows -> ~ grid_equivalent n l p q) -> transfer_to_density_3d rows n l q = 0).
Proof. exact density_rows. Qed.
Print Assumptions C102_map_rows.
(** The map has the symmetry of the group. *)
Theorem C102_map_invariant : forall n l, (forall i, (0 < vget n i)%Z) -> symmetry_group l -> (forall e, In e l -> grid_compatible n e) ->
  forall rows p q, in_grid n p -> in_grid n q -> grid_equivalent n l p q -> ForallOrdPairs (fun a b => ~ grid_equivalent n l (fst a) (fst b)) rows ->
  transfer_to_density_3d rows n l p = transfer_to_density_3d rows n l q.
Proof. exact density_invariant. Qed.
Print Assumptions C102_map_invariant.
(** The sum over the cell is the sum over the asymmetric unit with the multiplicities. *)
Theorem C102_map_total : forall n l cells, (forall i, (0 < vget n i)%Z) -> symmetry_group l -> (forall e, In e l -> grid_compatible n e) ->
  calc_asymmetric_unit_cell_indexes n l = Some cells ->
  forall dens pts, List.length dens = List.length cells -> is_grid n pts ->
  total pts (transfer_to_density_3d (combine (map fst cells) dens) n l) = fold_right Rplus 0 (map (fun x => INR (snd (fst x)) * snd x) (combine cells dens)).
Proof. exact density_total. Qed.
Print Assumptions C102_map_total.
(** The susceptibility of the image of a point is the rotated susceptibility of the point, when that has the symmetry of its site. *)
Theorem C102_map_chi : forall n l, (forall i, (0 < vget n i)%Z) -> symmetry_group l -> (forall e, In e l -> grid_compatible n e) ->
  forall rows p chi q e, in_grid n q -> ForallOrdPairs (fun a b => ~ grid_equivalent n l (fst a) (fst b)) rows -> In (p, chi) rows ->
  (forall f, In f l -> same_point (act f (grid_fract n p)) (grid_fract n p) -> forall i j, Symm.conj (rot_real f) (qget chi) i j = qget chi i j) ->
  In e l -> same_point (act e (grid_fract n p)) (grid_fract n q) ->
  forall i j, qget (transfer_to_chi_3d rows n l q) i j = Symm.conj (rot_real e) (qget chi) i j.
Proof. exact chi_rows. Qed.
Print Assumptions C102_map_chi.

(** * transform_density_point_to_p1 *)
(** Every point of the cell once, in order, with its coordinates and the density of its class.  Missing: operations with fractional
    translations (there it is false, see below). *)
Theorem C102_points_partial : forall n l cells dens, (forall i, (0 < vget n i)%Z) -> symmetry_group l -> (forall e, In e l -> grid_compatible n e) ->
  (forall e, In e l -> forall i, (e_d e | vget (e_b e) i)%Z) ->
  calc_asymmetric_unit_cell_indexes n l = Some cells -> List.length dens = List.length cells ->
  let out := transform_density_point_to_p1 (combine (map fst cells) dens) l n in
  StronglySorted lex_lt (map (fun x => fst (fst x)) out) /\ (forall q, In q (map (fun x => fst (fst x)) out) <-> in_grid n q) /\
  forall q x d, In (q, x, d) out -> (forall i, vget x i = grid_fract n q i) /\
    exists k r c, nth_error cells k = Some (r, c) /\ nth_error dens k = Some d /\ grid_equivalent n l r q.
Proof. exact p1_points_whole. Qed.
Print Assumptions C102_points_partial.
(** Density one in the whole asymmetric unit of I1, and a point of the cell listed with density zero. *)
Theorem C102_points_refuted : exists n l cells dens q x, (forall i, (0 < vget n i)%Z) /\ symmetry_group l /\ (forall e, In e l -> grid_compatible n e) /\
  calc_asymmetric_unit_cell_indexes n l = Some cells /\ List.length dens = List.length cells /\ (forall d, In d dens -> d = 1) /\
  In (q, x, 0) (transform_density_point_to_p1 (combine (map fst cells) dens) l n) /\ in_grid n q.
Proof. exact points_refuted. Qed.
Print Assumptions C102_points_refuted.

(** * C103: density files *)
(** A file that was written is read again: grid, centre, operations, indices exactly, numbers to the digits written; angles are written in
    degrees and read in radians.  Missing: angles in radians (as read_den_file returns them), shifts that are fractions; there it is false,
    see below. *)
Theorem C103_round_trip_partial : forall x, (forall e, In e (dn_ops x) -> (0 < e_d e)%Z /\ (e_d e | 48)%Z) -> (forall s, In s (dn_shift x) -> snd s = 1%Z) ->
  exists y, read_den_file (save_to_den_file x) = Some y /\ dn_points y = dn_points x /\ dn_centro y = dn_centro x /\ cell_close (dn_cell x) (dn_cell y) /\
    Forall2 row_close (dn_rows x) (dn_rows y) /\
    Forall2 (fun e f => e_r f = e_r e /\ (0 < e_d f)%Z /\ (e_d f | e_d e)%Z /\ forall i, frac (e_b f) (e_d f) i = frac (e_b e) (e_d e) i) (dn_ops x) (dn_ops y) /\
    Forall2 (fun s t => snd t = snd s /\ forall i, vget (fst t) i = vget (fst s) i) (dn_shift x) (dn_shift y).
Proof. exact round_trip. Qed.
Print Assumptions C103_round_trip_partial.
Example C103_round_trip_met : (forall e, In e (dn_ops den_right) -> (0 < e_d e)%Z /\ (e_d e | 48)%Z) /\ (forall s, In s (dn_shift den_right) -> snd s = 1%Z).
Proof. exact right_met. Qed.
Print Assumptions C103_round_trip_partial.
(** recalc_den_file_to_p1 on a file with the asymmetric unit of a group: the file written has the identity as the only operation and every
    point of the cell once, sorted, with the density of its class. *)
Theorem C103_recalc_whole : forall input x l cells dens, read_den_file input = Some x ->
  (forall i, (0 < vget (dn_points x) i)%Z) -> symmetry_group l -> (forall e, In e l -> grid_compatible (dn_points x) e) ->
  calc_asymmetric_unit_cell_indexes (dn_points x) l = Some cells -> List.length dens = List.length cells -> dn_rows x = combine (map fst cells) dens ->
  (forall e, In e (dn_ops x) -> grid_compatible (dn_points x) e) -> (forall s, In s (dn_shift x) -> shift_compatible (dn_points x) s) ->
  generated l (dn_ops x) (dn_shift x) (dn_centro x) ->
  exists out y, recalc_den_file_to_p1 input = Some out /\ read_den_file out = Some y /\ dn_points y = dn_points x /\ dn_centro y = false /\
    (exists e s, dn_ops y = [e] /\ dn_shift y = [s] /\ forall p i, act e p i + frac (fst s) (snd s) i = p i) /\
    StronglySorted lex_lt (map fst (dn_rows y)) /\ (forall q, In q (map fst (dn_rows y)) <-> in_grid (dn_points x) q) /\
    forall q d, In (q, d) (dn_rows y) -> exists k r c d0, nth_error cells k = Some (r, c) /\ nth_error dens k = Some d0 /\ grid_equivalent (dn_points x) l r q /\ row_close (q, d0) (q, d).
Proof. exact recalc_whole. Qed.
Print Assumptions C103_recalc_whole.
Example C103_recalc_met : forall dens, List.length dens = 8%nat -> exists x cells d, read_den_file (save_to_den_file (den_screw dens)) = Some x /\
  (forall i, (0 < vget (dn_points x) i)%Z) /\ symmetry_group p21m /\ (forall e, In e p21m -> grid_compatible (dn_points x) e) /\
  calc_asymmetric_unit_cell_indexes (dn_points x) p21m = Some cells /\ List.length d = List.length cells /\ dn_rows x = combine (map fst cells) d /\
  (forall e, In e (dn_ops x) -> grid_compatible (dn_points x) e) /\ (forall s, In s (dn_shift x) -> shift_compatible (dn_points x) s) /\
  generated p21m (dn_ops x) (dn_shift x) (dn_centro x).
Proof. exact screw_read. Qed.
Print Assumptions C103_recalc_whole.
(** It destroys the angles: read from a file with 90 degrees they are pi/2, in the file written they are below 0.05. *)
Theorem C103_recalc_angles_refuted : exists input x out y, read_den_file input = Some x /\ recalc_den_file_to_p1 input = Some out /\ read_den_file out = Some y /\
  u_al (dn_cell x) = PI / 2 /\ u_al (dn_cell y) < 1 / 20.
Proof. exact recalc_angle_refuted. Qed.
Print Assumptions C103_recalc_angles_refuted.
(** The shift (1/2, 1/2, 1/2) is read back as (1, 1, 1). *)
Theorem C103_shift_refuted : exists x y, read_den_file (save_to_den_file x) = Some y /\ dn_shift x = [((mkV 1 1 1)%Z, 2%Z)] /\ dn_shift y = [((mkV 1 1 1)%Z, 1%Z)].
Proof. exact shift_refuted. Qed.
Print Assumptions C103_shift_refuted.
(** A negative density given as one number and as the difference of two is written differently. *)
Theorem C103_sign_refuted : exists d, d < 0 /\ row_of_one d <> row_of_two (0, - d) /\ fst (fst (row_of_one d)) = fst (fst (row_of_two (0, - d))).
Proof. exact sign_refuted. Qed.
Print Assumptions C103_sign_refuted.
