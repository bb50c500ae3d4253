(** C99-C101: equivalent reflections, atoms of the cell, lists of reflections of a Cell. *)
From Coq Require Import Reals ZArith List String Sorted.
From Verif Require Import Spec.Lin3 Spec.Cell Spec.Symm Spec.Scatter Spec.HklSpec Spec.SgSpec Spec.Orbit Model.UnitCell Model.Symmetry Model.StructFactor Model.HklList Model.SgTables Model.SpaceGroup Model.CellObj Model.SiteSymm Model.Orbits
  Proofs.SymmExP Proofs.HklExP Proofs.HklListP Proofs.HklListP2 Proofs.OrbitsP Proofs.OrbitSgP Proofs.OrbitHklP Proofs.OrbitAtomsP Proofs.OrbitExP.
Import ListNotations.
Open Scope R_scope.

(** * C99 *)
(** The reflections returned are those equivalent to hkl or to its Friedel mate, each once. *)
Theorem C99_members : forall red h, (forall g, In g (fst (calc_hkl_equiv red h)) <-> equivalent red true h g) /\ NoDup (fst (calc_hkl_equiv red h)).
Proof. exact ((fun red h => Logic.conj (equiv_members red h) (equiv_nodup red h))). Qed.
Print Assumptions C99_members.
(** The reported multiplicity is the number of rotations that take h to itself, plus those that take it to its negative; times the
    number of reflections returned it gives the order of the Laue group. *)
Theorem C99_multiplicity : forall red h, laue_list red -> let '(l, m) := calc_hkl_equiv red h in
  (m * Z.of_nat (List.length l) = 2 * Z.of_nat (List.length red))%Z /\
  exists plus minus, NoDup plus /\ NoDup minus /\ (forall e, In e plus <-> In e red /\ is_hR h e h) /\
    (forall e, In e minus <-> In e red /\ is_hR h e (mkV (- v_1 h) (- v_2 h) (- v_3 h))%Z) /\ m = Z.of_nat (List.length plus + List.length minus).
Proof. exact hkl_equiv_count. Qed.
Print Assumptions C99_multiplicity.
(** Equivalent reflections get the same answer. *)
Theorem C99_same_class : forall red h g, laue_list red -> equivalent red true h g -> calc_hkl_equiv red g = calc_hkl_equiv red h.
Proof. exact ((fun red h g L => equiv_class red L h g)). Qed.
Print Assumptions C99_same_class.
(** Every setting that can be built has such a list of operations. *)
Theorem C99_all_groups : forall it code g, (1 <= it <= 230)%Z -> offered (get_it_coordinate_system_codes_by_it_number it) code -> space_group it code = Some g ->
  exists red, get_symm_elems (sg_reduced g) = Some red /\ laue_list red.
Proof. exact laue_groups. Qed.
Print Assumptions C99_all_groups.
Example C99_met : laue_list [op_id; op_screw].
Proof. exact screw_laue. Qed.
Print Assumptions C99_all_groups.

(** * C100 *)
(** Every listed position is within 5e-6 of the image of an atom with this label, and every image of every atom is listed. *)
Theorem C100_sound : forall ops atoms p lab, In (p, lab) (calc_atoms_in_unit_cell ops atoms) ->
  exists e x, In e ops /\ In (x, lab) atoms /\ close_points (5 / 1000000) (vget p) (act e (vget x)) /\ forall i, 0 <= vget p i <= 1.
Proof. exact atoms_sound. Qed.
Print Assumptions C100_sound.
Theorem C100_complete : forall ops atoms e x lab, In e ops -> In (x, lab) atoms ->
  exists p, In (p, lab) (calc_atoms_in_unit_cell ops atoms) /\ close_points (5 / 1000000) (vget p) (act e (vget x)).
Proof. exact atoms_complete. Qed.
Print Assumptions C100_complete.
(** An atom is listed as many times as it has equivalent points, when images that differ do so by more than 1e-5. *)
Theorem C100_count : forall ops atoms, NoDup (map snd atoms) -> forall x lab, In (x, lab) atoms -> clear_images ops x ->
  exists l, orbit_of ops (vget x) l /\ ForallOrdPairs (fun p q => ~ same_point p q) l /\
    List.length l = List.length (filter (fun q => String.eqb (snd q) lab) (calc_atoms_in_unit_cell ops atoms)).
Proof. exact atoms_count. Qed.
Print Assumptions C100_count.
(** In the order of the atoms. *)
Theorem C100_order : forall ops atoms, NoDup (map snd atoms) -> forall i j p q a b x y, (i < j)%nat ->
  nth_error (calc_atoms_in_unit_cell ops atoms) i = Some p -> nth_error (calc_atoms_in_unit_cell ops atoms) j = Some q ->
  nth_error atoms a = Some (x, snd p) -> nth_error atoms b = Some (y, snd q) -> (a <= b)%nat.
Proof. exact atoms_order. Qed.
Print Assumptions C100_order.
(** A coordinate may be listed as 1 instead of 0. *)
Theorem C100_below_one_refuted : ~ forall ops atoms p lab, In (p, lab) (calc_atoms_in_unit_cell ops atoms) -> forall i, 0 <= vget p i < 1.
Proof. exact atoms_not_below_one. Qed.
Print Assumptions C100_below_one_refuted.
Example C100_met : NoDup (map snd [(mkV (1/10) (1/5) (3/10), "O"%string); (mkV 0 (1/2) 0, "Fe"%string)]) /\
  clear_images [op_id; OrbitExP.op_inv] (mkV (1/10) (1/5) (3/10)) /\ clear_images [op_id; OrbitExP.op_inv] (mkV 0 (1/2) 0).
Proof. exact atoms_met. Qed.
Print Assumptions C100_below_one_refuted.

(** * C101.  The space group enters with its reduced operations and the centring translations. *)
Theorem C101_in_range_and_present : forall cell red ts smin smax, nondegenerate (get_unit_cell_parameters cell) -> rotation_group red true -> centring_group ts red ->
  forall g m, In (g, m) (cell_calc_hkl cell red ts smin smax) -> smin < calc_sthovl (hkl_real g) (get_unit_cell_parameters cell) < smax /\ present ts g.
Proof. exact ((fun cell red ts smin smax N G T => kout_range cell red ts smin smax G T)). Qed.
Print Assumptions C101_in_range_and_present.
Theorem C101_sorted : forall cell red ts smin smax,
  StronglySorted (fun a b => calc_sthovl (hkl_real (fst a)) (get_unit_cell_parameters cell) <= calc_sthovl (hkl_real (fst b)) (get_unit_cell_parameters cell)) (cell_calc_hkl cell red ts smin smax).
Proof. exact kout_sorted. Qed.
Print Assumptions C101_sorted.
Theorem C101_complete : forall cell red ts smin smax, nondegenerate (get_unit_cell_parameters cell) -> rotation_group red true ->
  (forall e, In e red -> metric_invariant (get_unit_cell_parameters cell) e) -> centring_group ts red ->
  forall h, smin < calc_sthovl (hkl_real h) (get_unit_cell_parameters cell) < smax -> present ts h ->
  exists g m, In (g, m) (cell_calc_hkl cell red ts smin smax) /\ equivalent red true h g.
Proof. exact kout_complete. Qed.
Print Assumptions C101_complete.
(** The multiplicity is the number of equivalent reflections, Friedel mates included. *)
Theorem C101_multiplicity : forall cell red ts smin smax, rotation_group red true -> centring_group ts red ->
  forall g m, In (g, m) (cell_calc_hkl cell red ts smin smax) -> exists cls, NoDup cls /\ (forall x, In x cls <-> equivalent red true g x) /\ List.length cls = m.
Proof. exact kout_size. Qed.
Print Assumptions C101_multiplicity.
(** No class twice.  Missing: cells and ranges for which k or l may reach 50 (there it is false, see below). *)
Theorem C101_one_per_class_partial : forall cell red ts smin smax, nondegenerate (get_unit_cell_parameters cell) -> rotation_group red true ->
  (forall e, In e red -> metric_invariant (get_unit_cell_parameters cell) e) -> centring_group ts red -> 2 * u_b cell * smax < 50 -> 2 * u_c cell * smax < 50 ->
  ForallOrdPairs (fun a b => ~ equivalent red true (fst a) (fst b)) (cell_calc_hkl cell red ts smin smax).
Proof. exact kout_distinct. Qed.
Print Assumptions C101_one_per_class_partial.
(** For a = b = 1, c = 1000 the reflections 0 1 -100 and 0 -1 100 are both listed. *)
Theorem C101_one_per_class_refuted : nondegenerate (get_unit_cell_parameters (mkU 1 1 1000 90 90 90)) /\ rotation_group [op_id] true /\ centring_group no_t [op_id] /\
  exists g g' m m', g <> g' /\ equivalent [op_id] true g g' /\
  In (g, m) (cell_calc_hkl (mkU 1 1 1000 90 90 90) [op_id] no_t 0 1) /\ In (g', m') (cell_calc_hkl (mkU 1 1 1000 90 90 90) [op_id] no_t 0 1).
Proof. exact long_cell_twice. Qed.
Print Assumptions C101_one_per_class_refuted.
Example C101_met : nondegenerate (get_unit_cell_parameters (mkU 3 4 5 90 90 90)) /\ rotation_group [op_id; op_screw] true /\
  (forall e, In e [op_id; op_screw] -> metric_invariant (get_unit_cell_parameters (mkU 3 4 5 90 90 90)) e) /\ centring_group body [op_id; op_screw] /\
  2 * u_b (mkU 3 4 5 90 90 90) * 1 < 50 /\ 2 * u_c (mkU 3 4 5 90 90 90) * 1 < 50.
Proof. exact hkl_met. Qed.
Print Assumptions C101_one_per_class_refuted.
