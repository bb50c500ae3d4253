(** Property theorems C22-C24, C63 (symmetry_constraints.py and its use). *)
From Coq Require Import Reals ZArith List Lra Lia.
From Verif Require Import Spec.Lin3 Spec.Symm Spec.Cell Model.MatrixOps Model.UnitCell Model.Symmetry Model.Constraints
  Proofs.SymmExP Proofs.ConstraintsP.
Import ListNotations.
Open Scope R_scope.

(** The elements used for an atom are exactly the operations of the space group that fix it. *)
Theorem C22_site_elements : forall l b d, (forall e, In e l -> (0 < e_d e)%Z) -> (0 < d)%Z -> forall e,
  In e (site_elems l (AtomPos b d)) <-> In e l /\ same_point (act e (frac b d)) (frac b d).
Proof. exact site_elems_iff. Qed.
Print Assumptions C22_site_elements.
(** Whatever position y is proposed, the position used is fixed by every operation that fixes the atom. *)
Theorem C22_result_fixed : forall full b d x y, symmetry_group full -> (0 < d)%Z -> (forall i, vget x i = frac b d i) ->
  forall e, In e full -> same_point (act e (vget x)) (vget x) ->
  let x' := apply_sc_fract (calc_sc_fract_sc_b (site_elems full (AtomPos b d)) x) y in
  same_point (act e (vget x')) (vget x').
Proof. exact sc_site_fixed. Qed.
Print Assumptions C22_result_fixed.
(** The atom itself is not moved (modulo the lattice). *)
Theorem C22_atom_kept : forall full b d x, symmetry_group full -> (0 < d)%Z -> (forall i, vget x i = frac b d i) ->
  same_point (vget (apply_sc_fract (calc_sc_fract_sc_b (site_elems full (AtomPos b d)) x) x)) (vget x).
Proof. exact sc_site_kept. Qed.
Print Assumptions C22_atom_kept.
(** Positions displaced from the atom along directions fixed by all site rotations are kept while they stay
    inside the cell [0,1)^3 ... *)
Theorem C22_family_kept_partial : forall l x, symmetry_group l ->
  forall y, (forall i, 0 <= vget x i < 1) -> (forall i, 0 <= vget y i < 1) ->
  (forall e, In e l -> forall i, sum3 (fun j => IZR (mget (e_r e) i j) * (vget y j - vget x j)) = vget y i - vget x i) ->
  forall i, vget (apply_sc_fract (calc_sc_fract_sc_b l x) y) i = vget y i.
Proof. exact sc_family_kept. Qed.
Print Assumptions C22_family_kept_partial.
(** ... but not otherwise: positions allowed by symmetry are moved when a coordinate becomes negative. *)
Theorem C22_family_kept_refuted : exists l x y, symmetry_group l /\
  (forall e, In e l -> forall i, act e (vget x) i = vget x i) /\
  (forall e, In e l -> forall i, act e (vget y) i = vget y i) /\
  ~ same_point (vget (apply_sc_fract (calc_sc_fract_sc_b l x) y)) (vget y).
Proof. exact sc_family_refuted. Qed.
Print Assumptions C22_family_kept_refuted.
Example C22_case : symmetry_group p21m /\ same_point (act op_glide (frac (mkV 1 5 1)%Z 20)) (frac (mkV 1 5 1)%Z 20) /\
  length (site_elems p21m (AtomPos (mkV 1 5 1)%Z 20)) = 2%nat.
Proof.
  split; [exact p21m_group|]. split; [|reflexivity]. apply flags_position; reflexivity.
Qed.

(** * C23 *)
Theorem C23_result_invariant : forall full b d q, symmetry_group full -> (0 < d)%Z ->
  forall e, In e (site_elems full (AtomPos b d)) -> forall i j,
  conj (rot_real e) (qget (apply6 (calc_sc_beta (site_elems full (AtomPos b d))) q)) i j =
  qget (apply6 (calc_sc_beta (site_elems full (AtomPos b d))) q) i j.
Proof. exact beta_site. Qed.
Print Assumptions C23_result_invariant.
Theorem C23_invariant_kept : forall full b d q, symmetry_group full -> (0 < d)%Z ->
  (forall e, In e (site_elems full (AtomPos b d)) -> forall i j, conj (rot_real e) (qget q) i j = qget q i j) ->
  apply6 (calc_sc_beta (site_elems full (AtomPos b d))) q = q.
Proof. exact beta_site_kept. Qed.
Print Assumptions C23_invariant_kept.
Theorem C23_idempotent : forall l q, point_group (rotations l) ->
  apply6 (calc_sc_beta l) (apply6 (calc_sc_beta l) q) = apply6 (calc_sc_beta l) q.
Proof. exact beta_idem. Qed.
Print Assumptions C23_idempotent.
Example C23_case : apply6 (calc_sc_beta (site_elems p21m (AtomPos (mkV 1 5 1)%Z 20))) (mkQ 1 2 3 4 5 6) = mkQ 1 2 3 0 5 0.
Proof. unfold apply6, calc_sc_beta, q_mean, size, q_row_dot. cbn. f_equal; field. Qed.

(** * C24 *)
Theorem C24_full_result_invariant : forall uc l, nondegenerate uc -> point_group (signed_rotations l) ->
  forall m e A, In e l -> in_frame (mget (calc_m_m uc)) (fst e) A -> forall i j,
  sum3 (fun k => A i k * mget (apply9 (calc_sc_chi_full l uc) m) k j) =
  IZR (snd e) * sum3 (fun k => mget (apply9 (calc_sc_chi_full l uc) m) i k * A k j).
Proof. exact chi_full_invariant. Qed.
Print Assumptions C24_full_result_invariant.
Theorem C24_full_invariant_kept : forall uc l, nondegenerate uc -> point_group (signed_rotations l) ->
  forall m, (forall e A, In e l -> in_frame (mget (calc_m_m uc)) (fst e) A -> forall i j,
      sum3 (fun k => A i k * mget m k j) = IZR (snd e) * sum3 (fun k => mget m i k * A k j)) ->
  forall i j, mget (apply9 (calc_sc_chi_full l uc) m) i j = mget m i j.
Proof. exact chi_full_kept. Qed.
Print Assumptions C24_full_invariant_kept.
Theorem C24_result_invariant : forall uc l, nondegenerate uc -> point_group (signed_rotations l) ->
  (forall e, In e l -> metric_invariant uc (fst e)) ->
  forall q e A, In e l -> in_frame (mget (calc_m_m uc)) (fst e) A -> forall i j,
  sum3 (fun k => A i k * qget (apply6 (calc_sc_chi l uc) q) k j) =
  IZR (snd e) * sum3 (fun k => qget (apply6 (calc_sc_chi l uc) q) i k * A k j).
Proof. exact chi_invariant. Qed.
Print Assumptions C24_result_invariant.
Theorem C24_invariant_kept : forall uc l, nondegenerate uc -> point_group (signed_rotations l) ->
  (forall e, In e l -> metric_invariant uc (fst e)) ->
  forall q, (forall e A, In e l -> in_frame (mget (calc_m_m uc)) (fst e) A -> forall i j,
      sum3 (fun k => A i k * qget q k j) = IZR (snd e) * sum3 (fun k => qget q i k * A k j)) ->
  apply6 (calc_sc_chi l uc) q = q.
Proof. exact chi_kept. Qed.
Print Assumptions C24_invariant_kept.
(** a mirror with time reversal in a tetragonal cell *)
Example C24_case : nondegenerate tetra /\ point_group (signed_rotations [(op_id, 1%Z); (mirror_op, (-1)%Z)]) /\
  (forall e, In e [(op_id, 1%Z); (mirror_op, (-1)%Z)] -> metric_invariant tetra (fst e)).
Proof.
  split; [apply tetra_ok|]. split; [apply mirror_signed_group; right; reflexivity|].
  intros e [<-|[<-|[]]]; apply tetra_ok.
Qed.

(** * C63: refinement flags of coordinates *)
(** For an atom on the mirror (-y,-x,z) the flags of x and y are cleared although both coordinates can move. *)
Theorem C63_flags_kept_refuted : exists l x, symmetry_group l /\ (forall e, In e l -> same_point (act e (vget x)) (vget x)) /\
  let sc := calc_sc_fract_sc_b l x in
  constr_flags (fst sc) (mkV true true false) = mkV false false false /\
  exists y z : V3 R, vget y X1 <> vget z X1 /\ (forall i, 0 <= vget y i < 1) /\ (forall i, 0 <= vget z i < 1) /\
    vget (apply_sc_fract sc y) X1 <> vget (apply_sc_fract sc z) X1.
Proof. exact flags_lost. Qed.
Print Assumptions C63_flags_kept_refuted.
Theorem C63_general_position_partial : forall x f, constr_flags (fst (calc_sc_fract_sc_b [op_id] x)) f = f.
Proof. exact flags_general. Qed.
Print Assumptions C63_general_position_partial.
