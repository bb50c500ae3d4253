(** Property theorems C37 (structure_factor.py: lists of reflections).
    calc_sthovl is specified by C09 (half the length of the reciprocal-lattice vector). *)
From Coq Require Import Reals ZArith List Bool Lra Lia Sorting.Sorted.
From Coquelicot Require Import Complex.
From Verif Require Import Spec.Lin3 Spec.Cell Spec.Symm Spec.Scatter Spec.HklSpec Model.UnitCell Model.Symmetry Model.StructFactor Model.HklList
  Proofs.SymmExP Proofs.HklListP2 Proofs.HklExP.
Import ListNotations.
Open Scope list_scope.
Open Scope R_scope.

(** C37 In range and not extinct by centring. *)
Theorem C37_in_range_and_present : forall uc red c ts smin smax, centring_group ts red ->
  forall g m, In (g, m) (calc_index_hkl_multiplicity_in_range smin smax uc red ts c) ->
  smin <= calc_sthovl (hkl_real g) uc <= smax /\ present ts g.
Proof. exact out_range. Qed.
Print Assumptions C37_in_range_and_present.
(** C37 Sorted by sin(theta)/lambda. *)
Theorem C37_sorted : forall uc red c ts smin smax,
  StronglySorted (fun a b => calc_sthovl (hkl_real (fst a)) uc <= calc_sthovl (hkl_real (fst b)) uc)
    (calc_index_hkl_multiplicity_in_range smin smax uc red ts c).
Proof. exact out_sorted. Qed.
Print Assumptions C37_sorted.
(** C37 Every class in range that is not extinct is listed. *)
Theorem C37_complete : forall uc red c ts smin smax, nondegenerate uc -> rotation_group red c ->
  (forall e, In e red -> metric_invariant uc e) -> centring_group ts red ->
  forall h, smin <= calc_sthovl (hkl_real h) uc <= smax -> present ts h ->
  exists g m, In (g, m) (calc_index_hkl_multiplicity_in_range smin smax uc red ts c) /\ equivalent red c h g.
Proof. exact out_complete. Qed.
Print Assumptions C37_complete.
(** C37 No class is listed twice.  Missing: cells and ranges for which k or l may reach 500 (there it is false, see below). *)
Theorem C37_one_per_class_partial : forall uc red c ts smin smax, nondegenerate uc -> rotation_group red c ->
  (forall e, In e red -> metric_invariant uc e) -> centring_group ts red ->
  2 * u_b uc * smax < 500 -> 2 * u_c uc * smax < 500 ->
  ForallOrdPairs (fun a b => ~ equivalent red c (fst a) (fst b)) (calc_index_hkl_multiplicity_in_range smin smax uc red ts c).
Proof. exact out_distinct. Qed.
Print Assumptions C37_one_per_class_partial.
(** C37 The multiplicity is the size of the class.  Same restriction. *)
Theorem C37_multiplicity_is_class_size_partial : forall uc red c ts smin smax, nondegenerate uc -> rotation_group red c ->
  (forall e, In e red -> metric_invariant uc e) -> centring_group ts red ->
  2 * u_b uc * smax < 500 -> 2 * u_c uc * smax < 500 ->
  forall g m, In (g, m) (calc_index_hkl_multiplicity_in_range smin smax uc red ts c) ->
  exists cls, NoDup cls /\ (forall x, In x cls <-> equivalent red c g x) /\ length cls = m.
Proof. exact out_multiplicity. Qed.
Print Assumptions C37_multiplicity_is_class_size_partial.
(** C37 A cell with a 1000 angstrom axis: the reflections (0 1 -1000) and (0 -1 1000) are equivalent and both listed,
    because the label 10^6 h + 10^3 k + l by which a representative is chosen is 0 for both. *)
Theorem C37_one_per_class_refuted : nondegenerate long /\ rotation_group [op_id] true /\ centring_group no_t [op_id] /\
  exists g g' m m', g <> g' /\ equivalent [op_id] true g g' /\
  In (g, m) (calc_index_hkl_multiplicity_in_range 0 1 long [op_id] no_t true) /\
  In (g', m') (calc_index_hkl_multiplicity_in_range 0 1 long [op_id] no_t true).
Proof. exact ((Logic.conj long_ok (Logic.conj id_rotations (Logic.conj id_centring long_twice)))). Qed.
Print Assumptions C37_one_per_class_refuted.
Example C37_hypotheses_met : nondegenerate mono /\ rotation_group [op_id; op_screw] true /\ (forall e, In e [op_id; op_screw] -> metric_invariant mono e) /\
  centring_group body [op_id; op_screw] /\ 2 * u_b mono * 1 < 500 /\ 2 * u_c mono * 1 < 500.
Proof.
  split; [apply mono_invariant|]. split; [apply screw_rotations|]. split; [intros e He; apply mono_invariant; cbn in *; tauto|].
  split; [apply body_centring|]. cbn. lra.
Qed.
Example C37_case : present body (mkV 1 1 0)%Z /\ exists g m,
  In (g, m) (calc_index_hkl_multiplicity_in_range 0 1 mono [op_id; op_screw] body true) /\ equivalent [op_id; op_screw] true (mkV 1 1 0)%Z g.
Proof. exact listed_110. Qed.
Example C37_class_of_110 : forall x, In x [mkV 1 1 0; mkV (-1) 1 0; mkV (-1) (-1) 0; mkV 1 (-1) 0]%Z <-> equivalent [op_id; op_screw] true (mkV 1 1 0)%Z x.
Proof. intros x. rewrite <- HklListP.eqv_members. cbn. reflexivity. Qed.
