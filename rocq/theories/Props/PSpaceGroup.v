(** Property theorems C59 and C68-C73: space groups, their settings, names, Wyckoff positions, cells
    (A_functions_base/function_2_space_group.py with its two tables, C_item_loop_classes/cl_2_space_group.py,
    cl_1_space_group_symop.py, cl_1_space_group_wyckoff.py, cl_1_atom_site.py, cl_1_cell.py). *)
From Coq Require Import Reals ZArith QArith List String Ascii Bool.
From Verif Require Import Spec.Lin3 Spec.Cell Spec.Symm Spec.Lattice Spec.SgSpec Model.Strings Model.Symmetry Model.Vibration Model.SgTables Model.WyckoffData Model.SpaceGroup
  Proofs.SgAllP Proofs.SgHallP Proofs.SgConjP Proofs.SgWyckP Proofs.WyckAtomP Proofs.WyckAtom2P Proofs.SgMetricP Proofs.SgNamesP Proofs.SgRefP Proofs.SgRef2P Proofs.SgRef3P Proofs.SgStdP Proofs.SgExP.
Import ListNotations.
Open Scope string_scope.
Open Scope list_scope.
Open Scope Z_scope.

(** * C59: names and numbers *)
(** For each of the three lists of 230 names: every number has a name, which leads back to the number; a name that leads to a number
    is the name of this number; other numbers have no name. *)
Theorem C59_hm_short : (forall it, 1 <= it <= 230 -> exists name, get_name_hm_short_by_it_number it = Some name /\ get_it_number_by_name_hm_short name = Some it) /\
  (forall name it, get_it_number_by_name_hm_short name = Some it -> 1 <= it <= 230 /\ get_name_hm_short_by_it_number it = Some name) /\
  (forall it, ~ 1 <= it <= 230 -> get_name_hm_short_by_it_number it = None).
Proof. exact (table_inverse _ hm_short_good). Qed.
Print Assumptions C59_hm_short.
Theorem C59_schoenflies : (forall it, 1 <= it <= 230 -> exists name, get_name_schoenflies_by_it_number it = Some name /\ get_it_number_by_name_schoenflies name = Some it) /\
  (forall name it, get_it_number_by_name_schoenflies name = Some it -> 1 <= it <= 230 /\ get_name_schoenflies_by_it_number it = Some name) /\
  (forall it, ~ 1 <= it <= 230 -> get_name_schoenflies_by_it_number it = None).
Proof. exact (table_inverse _ schoenflies_good). Qed.
Print Assumptions C59_schoenflies.
Theorem C59_hall : (forall it, 1 <= it <= 230 -> exists name, get_name_hall_by_it_number it = Some name /\ get_it_number_by_name_hall name = Some it) /\
  (forall name it, get_it_number_by_name_hall name = Some it -> 1 <= it <= 230 /\ get_name_hall_by_it_number it = Some name) /\
  (forall it, ~ 1 <= it <= 230 -> get_name_hall_by_it_number it = None).
Proof. exact (table_inverse _ hall_good). Qed.
Print Assumptions C59_hall.
(** Full names: inverse where there are any; the monoclinic groups have none. *)
Theorem C59_hm_full : forall it name, get_name_hm_full_by_it_number it = Some name <-> get_it_number_by_name_hm_full name = Some it.
Proof. exact hm_full_inverse. Qed.
Print Assumptions C59_hm_full.
Theorem C59_hm_full_missing : forall it, 1 <= it <= 230 -> (get_name_hm_full_by_it_number it = None <-> 3 <= it <= 15).
Proof. exact hm_full_missing. Qed.
Print Assumptions C59_hm_full_missing.
(** Extended names lead back to the number and to a list of settings with the one asked for, except "P 1 1 1" ... *)
Theorem C59_hm_extended : forall it code name, get_name_hm_extended_by_it_number_it_coordinate_system_code it code = Some name -> name <> "P 1 1 1" ->
  exists codes, get_it_number_it_coordinate_system_codes_by_name_hm_extended name = (Some it, codes) /\ In code codes.
Proof. exact extended_inverse. Qed.
Print Assumptions C59_hm_extended.
(** ... which is the name of group 1 and is read as that of another group. *)
Theorem C59_hm_extended_refuted : exists it code, get_name_hm_extended_by_it_number_it_coordinate_system_code it code = Some "P 1 1 1" /\
  fst (get_it_number_it_coordinate_system_codes_by_name_hm_extended "P 1 1 1") <> Some it.
Proof. exact extended_ambiguous. Qed.
Print Assumptions C59_hm_extended_refuted.
(** The crystal systems are the usual ranges of numbers. *)
Theorem C59_crystal_system : forall it s, get_crystal_system_by_it_number it = Some s <->
  (1 <= it <= 2 /\ s = "triclinic") \/ (3 <= it <= 15 /\ s = "monoclinic") \/ (16 <= it <= 74 /\ s = "orthorhombic") \/ (75 <= it <= 142 /\ s = "tetragonal") \/
  (143 <= it <= 167 /\ s = "trigonal") \/ (168 <= it <= 194 /\ s = "hexagonal") \/ (195 <= it <= 230 /\ s = "cubic").
Proof. exact system_ranges. Qed.
Print Assumptions C59_crystal_system.
(** The default setting is one of those offered exactly when the group is not trigonal with a primitive lattice. *)
Theorem C59_default_setting_partial : forall it, 1 <= it <= 230 ->
  (offered (get_it_coordinate_system_codes_by_it_number it) (get_default_it_coordinate_system_code_by_it_number it) <->
   ~ (143 <= it <= 167 /\ ~ In it [146; 148; 155; 160; 161; 166; 167])).
Proof. exact default_offered'. Qed.
Print Assumptions C59_default_setting_partial.
(** Any of the names of a group builds the same object as its number. *)
Theorem C59_built_by_name : forall it, 1 <= it <= 230 -> exists h s m,
  get_name_hall_by_it_number it = Some h /\ get_name_schoenflies_by_it_number it = Some s /\ get_name_hm_short_by_it_number it = Some m /\
  let g := new_space_group (mkInput (Some it) None None None None None) in
  new_space_group (mkInput None None None None (Some h) None) = g /\ new_space_group (mkInput None None None None None (Some s)) = g /\
  new_space_group (mkInput None None None (Some m) None None) = g /\ new_space_group (mkInput None None (Some m) None None None) = g.
Proof. exact by_names. Qed.
Print Assumptions C59_built_by_name.
Theorem C59_built_by_extended_name : forall it code name, get_name_hm_extended_by_it_number_it_coordinate_system_code it code = Some name ->
  offered (get_it_coordinate_system_codes_by_it_number it) code -> name <> "P 1 1 1" ->
  new_space_group (mkInput None code (Some name) None None None) = space_group it code.
Proof. exact by_extended_name. Qed.
Print Assumptions C59_built_by_extended_name.
Theorem C59_built_by_number_and_code : forall it c, 1 <= it <= 230 -> offered (get_it_coordinate_system_codes_by_it_number it) (Some c) ->
  new_space_group (mkInput (Some it) (Some c) None None None None) = space_group it (Some c).
Proof. exact by_number_and_code. Qed.
Print Assumptions C59_built_by_number_and_code.
(** A code that is not offered is ignored: the object is that of the number alone. *)
Theorem C59_other_code_ignored : forall it c, 1 <= it <= 230 -> ~ offered (get_it_coordinate_system_codes_by_it_number it) (Some c) ->
  new_space_group (mkInput (Some it) (Some c) None None None None) = new_space_group (mkInput (Some it) None None None None None).
Proof. exact by_other_code. Qed.
Print Assumptions C59_other_code_ignored.
(** The reported centrosymmetry, point group and Laue class are those of the operations; for 183-186 the last two are missing. *)
Theorem C59_point_group_partial : forall it code g, 1 <= it <= 230 -> offered (get_it_coordinate_system_codes_by_it_number it) code -> space_group it code = Some g ->
  exists ops, get_symm_elems (sg_full g) = Some ops /\
  (sg_centrosymmetry g = true <-> exists e, In e ops /\ e_r e = neg3 id3) /\
  (~ (183 <= it <= 186) -> exists p l rots lrots, sg_point_group_hm g = Some p /\ sg_laue_class g = Some l /\
    rotations_of ops rots /\ point_group_named p rots /\
    point_group_named l lrots /\ forall r, In r lrots <-> In r rots \/ exists r', In r' rots /\ r = neg3 r').
Proof. exact point_groups. Qed.
Print Assumptions C59_point_group_partial.
Theorem C59_point_group_refuted : exists g, space_group 183 (Some "h") = Some g /\ sg_laue_class g = None /\ sg_point_group_hm g = None.
Proof. exact no_laue_183. Qed.
Print Assumptions C59_point_group_refuted.

(** * C68: the operations *)
(** Which of the settings offered can be built at all. *)
Theorem C68_builds_partial : forall it code, 1 <= it <= 230 -> offered (get_it_coordinate_system_codes_by_it_number it) code ->
  (space_group it code = None <-> missing_setting it code = true).
Proof. exact builds. Qed.
Print Assumptions C68_builds_partial.
(** Number 228 alone (default setting 2) raises. *)
Theorem C68_builds_refuted : new_space_group (mkInput (Some 228) None None None None None) = None.
Proof. exact raises_228. Qed.
Print Assumptions C68_builds_refuted.
(** In every setting that can be built the operations are a group without repetitions modulo lattice translations, and the strings of
    full_space_group_symop say the same as the integer operations used in the calculations; except 48 with origin 1. *)
Theorem C68_group_partial : forall it code g, 1 <= it <= 230 -> offered (get_it_coordinate_system_codes_by_it_number it) code ->
  space_group it code = Some g -> ~ (it = 48 /\ misplaced_centre it code = true) ->
  exists ops, get_symm_elems (sg_full g) = Some ops /\ symmetry_group ops /\
    Forall2 (fun s e => exists rb, symop_r_b s = Some rb /\ forall x i, act e x i = pos_at rb x i) (sg_full g) ops.
Proof. exact groups. Qed.
Print Assumptions C68_group_partial.
Theorem C68_group_refuted : exists g ops, space_group 48 (Some "1abc") = Some g /\ get_symm_elems (sg_full g) = Some ops /\ ~ symmetry_group ops.
Proof. exact not_a_group_48. Qed.
Print Assumptions C68_group_refuted.
(** The group built from a number is the one generated by the Hall symbol the object reports. *)
Theorem C68_hall_partial : forall it, 1 <= it <= 230 -> it <> 144 -> it <> 228 ->
  exists g h gens ops, new_space_group (mkInput (Some it) None None None None None) = Some g /\ sg_hall g = Some h /\ hall_generators h = Some gens /\
    get_symm_elems (sg_full g) = Some ops /\ generated_by gens ops.
Proof. exact hall. Qed.
Print Assumptions C68_hall_partial.
Theorem C68_hall_refuted : exists g gens ops, new_space_group (mkInput (Some 144) None None None None None) = Some g /\ sg_hall g = Some "P 31" /\ hall_generators "P 31" = Some gens /\
  get_symm_elems (sg_full g) = Some ops /\ ~ generated_by gens ops.
Proof. exact wrong_144. Qed.
Print Assumptions C68_hall_refuted.
(** The dictionary of a crystal holds the same operations twice: as the full list, and as reduced list, centre and lattice translations. *)
Theorem C68_dictionary : forall it code g, 1 <= it <= 230 -> offered (get_it_coordinate_system_codes_by_it_number it) code -> space_group it code = Some g ->
  ~ (it = 48 /\ misplaced_centre it code = true) ->
  exists d, symm_dictionary g = Some d /\ get_symm_elems (sg_full g) = Some (sd_full d) /\
    same_operations (sd_full d) (calc_full_symm_elems_by_reduced (sd_reduced d) (sd_centrosymmetry d) (match sd_cp d with Some c => c | None => (mkV 0 0 0, 1) end) (sd_translations d)).
Proof. exact dictionary. Qed.
Print Assumptions C68_dictionary.

(** * C69: the settings of one number are the same group in other axes *)
(** The axes are those the code says; the origin may be moved.  (For 228 the standard setting is origin 1, see C68_builds_refuted.) *)
Theorem C69_settings_partial : forall it code g, 1 <= it <= 230 -> offered (get_it_coordinate_system_codes_by_it_number it) code ->
  space_group it code = Some g -> misplaced_centre it code = false ->
  exists r f ops_r ops,
    ((it <> 228 -> new_space_group (mkInput (Some it) None None None None None) = Some r) /\ (it = 228 -> space_group 228 (Some "1") = Some r)) /\
    get_symm_elems (sg_full r) = Some ops_r /\ get_symm_elems (sg_full g) = Some ops /\
    axes_of_code code = Some (e_r f) /\ 0 < e_d f /\ carries f ops_r ops.
Proof. exact settings_conjugate. Qed.
Print Assumptions C69_settings_partial.
Theorem C69_settings_refuted : exists r g ops_r ops A, new_space_group (mkInput (Some 50) None None None None None) = Some r /\ space_group 50 (Some "1cab") = Some g /\
  get_symm_elems (sg_full r) = Some ops_r /\ get_symm_elems (sg_full g) = Some ops /\ axes_of_code (Some "1cab") = Some A /\
  forall f, e_r f = A -> ~ carries f ops_r ops.
Proof. exact not_conjugate. Qed.
Print Assumptions C69_settings_refuted.

(** * C70: the Wyckoff positions *)
Theorem C70_orbits_partial : forall it code g, 1 <= it <= 230 -> offered (get_it_coordinate_system_codes_by_it_number it) code -> space_group it code = Some g ->
  exists ops, get_symm_elems (sg_full g) = Some ops /\
  forall w, In w (sg_wyckoff g) -> odd_position it code (w_letter w) = false ->
    exists full, wyckoff_full (sg_shift g) (w_coords w) = Some full /\ wyckoff_position ops (w_mult w) full.
Proof. exact positions. Qed.
Print Assumptions C70_orbits_partial.
(** The coordinate strings of full_coord_xyz say the same as the rationals used in the calculations, except for twelfths. *)
Theorem C70_coordinate_strings_partial : forall it code g w, 1 <= it <= 230 -> offered (get_it_coordinate_system_codes_by_it_number it) code -> space_group it code = Some g ->
  In w (sg_wyckoff g) -> misprinted_position it code (w_letter w) = false ->
  exists full l, wyckoff_full (sg_shift g) (w_coords w) = Some full /\ full_coord_xyz (sg_shift g) (w_coords w) = Some l /\
    Forall2 (fun s rb => exists rb', symop_r_b s = Some rb' /\ forall t i, pos_at rb' t i = pos_at rb t i) l full.
Proof. exact coordinate_strings. Qed.
Print Assumptions C70_coordinate_strings_partial.
Theorem C70_coordinate_strings_refuted : exists g w full l s rb rb', space_group 167 (Some "h") = Some g /\ In w (sg_wyckoff g) /\ w_letter w = chars "a" /\
  wyckoff_full (sg_shift g) (w_coords w) = Some full /\ full_coord_xyz (sg_shift g) (w_coords w) = Some l /\ In (s, rb) (combine l full) /\ symop_r_b s = Some rb' /\
  ~ same_point (pos_at rb (point 0 0 0)) (pos_at rb' (point 0 0 0)).
Proof. exact misprinted_167. Qed.
Print Assumptions C70_coordinate_strings_refuted.

(** * C71: the position found for an atom *)
(** apply_constraints never fails. *)
Theorem C71_total : forall it code g x y z, 1 <= it <= 230 -> offered (get_it_coordinate_system_codes_by_it_number it) code -> space_group it code = Some g ->
  apply_constraints_on_atom (sg_shift g) (sg_wyckoff g) x y z <> None.
Proof. exact atom_total. Qed.
Print Assumptions C71_total.
(** The multiplicity is at least the number of points equivalent to the atom ... *)
Theorem C71_multiplicity_partial : forall it code g x y z mult letter flags q, 1 <= it <= 230 -> offered (get_it_coordinate_system_codes_by_it_number it) code ->
  space_group it code = Some g -> apply_constraints_on_atom (sg_shift g) (sg_wyckoff g) x y z = Some (mult, letter, flags, q) ->
  Zpos (Qden (Qred x)) <= 99999 -> Zpos (Qden (Qred y)) <= 99999 -> Zpos (Qden (Qred z)) <= 99999 ->
  odd_position it code letter = false ->
  exists ops, get_symm_elems (sg_full g) = Some ops /\ orbit_at_most ops (point x y z) mult.
Proof. exact atom_multiplicity. Qed.
Print Assumptions C71_multiplicity_partial.
(** ... and no larger than that of any position the atom is on, except some with 2x. *)
Theorem C71_smallest_partial : forall it code g x y z mult letter flags q, 1 <= it <= 230 -> offered (get_it_coordinate_system_codes_by_it_number it) code ->
  space_group it code = Some g -> apply_constraints_on_atom (sg_shift g) (sg_wyckoff g) x y z = Some (mult, letter, flags, q) ->
  Zpos (Qden (Qred x)) <= 99999 -> Zpos (Qden (Qred y)) <= 99999 -> Zpos (Qden (Qred z)) <= 99999 ->
  forall w' full', In w' (sg_wyckoff g) -> wyckoff_full (sg_shift g) (w_coords w') = Some full' -> lies_on full' (point x y z) ->
  doubled_position it code (w_letter w') = false -> mult <= w_mult w'.
Proof. exact atom_smallest. Qed.
Print Assumptions C71_smallest_partial.
(** P3m1, atom at 0, 1/2, 1/10 on a mirror plane: multiplicity 6, but only three equivalent points. *)
Theorem C71_multiplicity_refuted : exists g letter flags q ops, space_group 156 (Some "h") = Some g /\
  apply_constraints_on_atom (sg_shift g) (sg_wyckoff g) 0 (1 # 2) (1 # 10) = Some (6, letter, flags, q) /\
  get_symm_elems (sg_full g) = Some ops /\ orbit_at_most ops (point 0 (1 # 2) (1 # 10)) 3.
Proof. exact wrong_multiplicity_156. Qed.
Print Assumptions C71_multiplicity_refuted.
(** The position is looked for once: an atom of P-1 moved away from the origin is put back. *)
Theorem C71_moved_atom_refuted : exists g a w letter flags q w' ops, space_group 2 None = Some g /\ apply_constraints_on_stored (sg_shift g) (sg_wyckoff g) None 0 0 0 = Some (a, w) /\
  apply_constraints_on_stored (sg_shift g) (sg_wyckoff g) (Some w) (1 # 10) (1 # 5) (3 # 10) = Some ((1, letter, flags, q), w') /\
  get_symm_elems (sg_full g) = Some ops /\ ~ equivalent_within (/ 100000000) ops (point (1 # 10) (1 # 5) (3 # 10)) (coords q).
Proof. exact stale_position. Qed.
Print Assumptions C71_moved_atom_refuted.
Theorem C71_first_call : forall shift ws x y z, option_map fst (apply_constraints_on_stored shift ws None x y z) = apply_constraints_on_atom shift ws x y z.
Proof. exact stored_first. Qed.
Print Assumptions C71_first_call.

(** * C72: the cell has the symmetry of the group *)
Theorem C72_metric_partial : forall it code g, 1 <= it <= 230 -> offered (get_it_coordinate_system_codes_by_it_number it) code -> space_group it code = Some g ->
  exists t ops, sg_bravais_type g = Some t /\ get_symm_elems (sg_full g) = Some ops /\
  ((startswith t "m" = true -> Lattice.unique_axis (match code with Some c => c | None => "" end) = "b"%char) ->
  forall p s r e, In e ops -> metric_invariant (radians (fst (fst (fst (apply_constraint_on_cell p s r t (match code with Some c => c | None => "" end)))))) e).
Proof. exact cell_symmetry. Qed.
Print Assumptions C72_metric_partial.
Theorem C72_metric_refuted : exists g ops e p s r, space_group 3 (Some "c1") = Some g /\ sg_bravais_type g = Some "mP" /\ get_symm_elems (sg_full g) = Some ops /\ In e ops /\ proper_deg p /\
  ~ metric_invariant (radians (fst (fst (fst (apply_constraint_on_cell p s r "mP" "c1"))))) e.
Proof. exact cell_not_symmetric. Qed.
Print Assumptions C72_metric_refuted.

(** * C73: coordinates of an atom on a special position *)
(** The letter and multiplicity are those of one listed position; the coordinates without a constraint flag are free and determine the
    others on its first expression; the new coordinates are on this expression. *)
Theorem C73_flags : forall it code g x y z mult letter flags q, 1 <= it <= 230 -> offered (get_it_coordinate_system_codes_by_it_number it) code ->
  space_group it code = Some g -> apply_constraints_on_atom (sg_shift g) (sg_wyckoff g) x y z = Some (mult, letter, flags, q) ->
  exists w, In w (sg_wyckoff g) /\ w_mult w = mult /\ w_letter w = letter /\
  exists c0 cs rb, w_coords w = c0 :: cs /\ symop_r_b c0 = Some rb /\ parametrized (pos_at rb) (flag_of flags) /\ exists t, same_point (coords q) (pos_at rb t).
Proof. exact atom_letter. Qed.
Print Assumptions C73_flags.
(** When the atom is at one of the expressions with its own coordinates (in some order, with some signs) as parameters, the new
    coordinates are those of an equivalent point (within 1e-8). *)
Theorem C73_equivalent_partial : forall it code g x y z mult letter flags q, 1 <= it <= 230 -> offered (get_it_coordinate_system_codes_by_it_number it) code ->
  space_group it code = Some g -> apply_constraints_on_atom (sg_shift g) (sg_wyckoff g) x y z = Some (mult, letter, flags, q) ->
  Zpos (Qden (Qred x)) <= 99999 -> Zpos (Qden (Qred y)) <= 99999 -> Zpos (Qden (Qred z)) <= 99999 ->
  odd_position it code letter = false -> forall w full rb h, In w (sg_wyckoff g) -> w_letter w = letter ->
  wyckoff_full (sg_shift g) (w_coords w) = Some full ->
  In rb full -> signed_order (point x y z) h -> same_point (point x y z) (pos_at rb h) ->
  exists ops, get_symm_elems (sg_full g) = Some ops /\ equivalent_within (/ 100000000) ops (point x y z) (coords q).
Proof. exact atom_moved. Qed.
Print Assumptions C73_equivalent_partial.
(** Otherwise it can jump: in Immm an atom at 0.6, 1/2, 1/2 is put on a point that is not equivalent. *)
Theorem C73_equivalent_refuted : exists g mult letter flags q ops, space_group 71 (Some "abc") = Some g /\
  apply_constraints_on_atom (sg_shift g) (sg_wyckoff g) (3 # 5) (1 # 2) (1 # 2) = Some (mult, letter, flags, q) /\
  get_symm_elems (sg_full g) = Some ops /\ ~ equivalent_within (/ 100000000) ops (point (3 # 5) (1 # 2) (1 # 2)) (coords q).
Proof. exact atom_jumps. Qed.
Print Assumptions C73_equivalent_refuted.

(** * Cases that meet the hypotheses *)
Example C59_names_case : get_it_number_by_name_hm_short "F d -3 m" = Some 227 /\ get_name_hall_by_it_number 227 = Some "-F 4vw 2vw 3".
Proof. exact ex_names. Qed.
Example C68_settings_case : offered (get_it_coordinate_system_codes_by_it_number 62) (Some "cab") /\ misplaced_centre 62 (Some "cab") = false /\ missing_setting 62 (Some "cab") = false.
Proof. exact ex_settings. Qed.
(** Pnma in the setting cab has eight operations; its group point has four positions a, b, c, d. *)
Example C68_pnma : exists g ops, space_group 62 (Some "cab") = Some g /\ get_symm_elems (sg_full g) = Some ops /\ List.length ops = 8%nat /\
  map (fun w => (w_mult w, string_of_list_ascii (w_letter w))) (sg_wyckoff g) = [(8, "d"); (4, "c"); (4, "b"); (4, "a")].
Proof. exact ex_pnma. Qed.
(** Immm, atom at 0.1, 0, 0: four equivalent points, position e, only x is free, and the coordinates stay. *)
Example C73_immm : exists g, space_group 71 (Some "abc") = Some g /\
  apply_constraints_on_atom (sg_shift g) (sg_wyckoff g) (1 # 10) 0 0 = Some (4, chars "e", (false, true, true), [1 # 10; 0; 0]%Q) /\
  odd_position 71 (Some "abc") (chars "e") = false /\ doubled_position 71 (Some "abc") (chars "e") = false.
Proof. exact ex_immm. Qed.
