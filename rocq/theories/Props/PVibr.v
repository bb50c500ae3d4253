(** Property theorems C25, C26, C64 (function_1_atomic_vibrations.py, cl_1_atom_site.py, cl_1_crystal.py). *)
From Coq Require Import Reals ZArith List String Ascii Lra Lia.
From Verif Require Import Spec.Lin3 Spec.Symm Spec.Cell Spec.Lattice Model.Vibration Proofs.VibrationP.
Import ListNotations.
Open Scope R_scope.

(** Results are (values, sigmas, refinement flags, constraint flags): r1, r2, r3, r4. *)
(** * C25: the constrained tensor is invariant under the site symmetry of the case ... *)
Theorem C25_result_invariant : forall numb p s r, (0 <= numb <= 18)%Z ->
  tensor_invariant (case_generators numb) (r1 (vibration_constraints numb p s r)).
Proof. exact vib_invariant. Qed.
Print Assumptions C25_result_invariant.
(** ... invariant tensors are not changed ... *)
Theorem C25_invariant_kept : forall numb p s r, (0 <= numb <= 18)%Z ->
  tensor_invariant (case_generators numb) p -> r1 (vibration_constraints numb p s r) = p.
Proof. exact vib_kept. Qed.
Print Assumptions C25_invariant_kept.
(** ... unconstrained components keep value, sigma and refinement flag, constrained ones are not refined ... *)
Theorem C25_flags : forall numb p s r i j, let v := vibration_constraints numb p s r in
  (qget (r4 v) i j = false -> qget (r1 v) i j = qget p i j /\ qget (r2 v) i j = qget s i j /\ qget (r3 v) i j = qget r i j) /\
  (qget (r4 v) i j = true -> qget (r3 v) i j = false).
Proof. exact vib_free. Qed.
Print Assumptions C25_flags.
(** ... and the result is determined by the unconstrained components. *)
Theorem C25_determined : forall numb p p' s r,
  (forall i j, qget (r4 (vibration_constraints numb p s r)) i j = false -> qget p i j = qget p' i j) ->
  r1 (vibration_constraints numb p s r) = r1 (vibration_constraints numb p' s r).
Proof. exact vib_determined. Qed.
Print Assumptions C25_determined.
Example C25_case : r1 (vibration_constraints 15 (mkQ 1 2 3 4 5 6) (mkQ 0 0 0 0 0 0) (mkQ true true true true true true)) = mkQ 1 2 3 (5 / 10 * 2) 5 (2 * 5).
Proof. reflexivity. Qed.

(** * C26: the constrained cell has the symmetry of its Bravais lattice, and cells that have it are kept, for the
    settings the code distinguishes (monoclinic with unique axis b, hexagonal axes announced by code h). *)
Theorem C26_cell_obeys_partial : forall t c f p s r, lattice_type t c f ->
  match f with Monoclinic_a | Monoclinic_c => False | Hexagonal => c = "h"%string | _ => True end ->
  cell_obeys f (radians (r1 (apply_constraint_on_cell p s r t c))).
Proof. exact cell_obeyed. Qed.
Print Assumptions C26_cell_obeys_partial.
Theorem C26_cell_kept_partial : forall t c f p s r, lattice_type t c f ->
  match f with Monoclinic_a | Monoclinic_c => False | Hexagonal => c = "h"%string | _ => True end ->
  proper_deg p -> cell_obeys f (radians p) -> r1 (apply_constraint_on_cell p s r t c) = p.
Proof. exact cell_kept. Qed.
Print Assumptions C26_cell_kept_partial.
Theorem C26_flags : forall t c p s r k, let v := apply_constraint_on_cell p s r t c in
  (uget (r4 v) k = false -> uget (r1 v) k = uget p k /\ uget (r2 v) k = uget s k /\ uget (r3 v) k = uget r k) /\
  (uget (r4 v) k = true -> uget (r3 v) k = false).
Proof. exact cell_free. Qed.
Print Assumptions C26_flags.
Theorem C26_determined : forall t c p p' s r,
  (forall k, uget (r4 (apply_constraint_on_cell p s r t c)) k = false -> uget p k = uget p' k) ->
  r1 (apply_constraint_on_cell p s r t c) = r1 (apply_constraint_on_cell p' s r t c).
Proof. exact cell_determined. Qed.
Print Assumptions C26_determined.
(** The constraint matrix used during refinement gives the same cell. *)
Theorem C26_refinement_matrix_agrees : forall t c p s r,
  apply_sc_uc (calc_sc_v_unit_cell_parameters t c) (radians p) = radians (r1 (apply_constraint_on_cell p s r t c)).
Proof. exact sc_uc_same. Qed.
Print Assumptions C26_refinement_matrix_agrees.
(** Monoclinic cells with unique axis c are changed although they obey their symmetry, and results may violate it. *)
Theorem C26_monoclinic_c_kept_refuted : exists t c p s r, lattice_type t c Monoclinic_c /\ proper_deg p /\ cell_obeys Monoclinic_c (radians p) /\
  r1 (apply_constraint_on_cell p s r t c) <> p.
Proof. exact mono_c_refuted. Qed.
Print Assumptions C26_monoclinic_c_kept_refuted.
Theorem C26_monoclinic_c_obeys_refuted : exists t c p s r, lattice_type t c Monoclinic_c /\ proper_deg p /\
  ~ cell_obeys Monoclinic_c (radians (r1 (apply_constraint_on_cell p s r t c))).
Proof. exact mono_c_broken. Qed.
Print Assumptions C26_monoclinic_c_obeys_refuted.
(** Primitive hexagonal lattices in a setting other than h (trigonal groups get code r by default) are made rhombohedral. *)
Theorem C26_hexagonal_refuted : exists t c p s r, lattice_type t c Hexagonal /\ proper_deg p /\ cell_obeys Hexagonal (radians p) /\
  r1 (apply_constraint_on_cell p s r t c) <> p /\ ~ cell_obeys Hexagonal (radians (r1 (apply_constraint_on_cell p s r t c))).
Proof. exact hP_refuted. Qed.
Print Assumptions C26_hexagonal_refuted.
Example C26_case : lattice_type "hR" "r" Rhombohedral /\
  r1 (apply_constraint_on_cell (mkU 3 4 5 80 70 60) (mkU 0 0 0 0 0 0) (mkU true true true true true true) "hR" "r") = mkU 3 3 3 80 80 80.
Proof. split; [apply L_hRr|reflexivity]. Qed.

(** * C64: the case number computed from the site operations *)
Theorem C64_case_number_partial : forall n, In n [0;1;2;3;4;5;6;8;9;10;11;12;13;14;15;16;17;18]%Z ->
  calc_constr_number (generated (case_generators n)) = n.
Proof. exact number_cases. Qed.
Print Assumptions C64_case_number_partial.
(** For the site symmetry 2 along [110] (case 7) no constraint is found, and tensors that break the symmetry pass. *)
Theorem C64_case7_refuted : exists site : list (M3 Z), site = [mkM 1 0 0 0 1 0 0 0 1; two_110]%Z /\
  exists p s r, ~ tensor_invariant site (r1 (vibration_constraints (calc_constr_number site) p s r)).
Proof. exact number_refuted. Qed.
Print Assumptions C64_case7_refuted.
Example C64_group_sizes : map (fun n => List.length (generated (case_generators n))) [1;4;5;8;14;16;17;18]%Z = [2;4;4;4;4;3;12;3]%nat.
Proof. exact generated_sizes. Qed.
