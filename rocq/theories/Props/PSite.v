(** Property theorems C91, C92 (cl_2_space_group.py l.463-540; cl_1_atom_site_susceptibility.py l.18-50, l.124-203). *)
From Coq Require Import Reals ZArith List Bool Arith String.
From Verif Require Import Spec.Lin3 Spec.Cell Spec.Symm Spec.SiteSpec Model.UnitCell Model.Constraints Model.LocalSusc Model.SiteSymm
  Proofs.SiteSymmP Proofs.SiteTensorP Proofs.SiteExP Proofs.SiteCaseP.
From Verif Require Spec.LinN Proofs.ConstrMatrixP.
Import ListNotations.
Open Scope list_scope.
Open Scope R_scope.

(** C91.  The site symmetry of a point is found without an error; it is a sublist of the operations of the group. *)
Theorem C91_found : forall symop v, (exists e, In e symop /\ fixes e v) ->
  exists l, calc_el_symm_for_xyz symop v = Some l /\ l <> [] /\ exists keep, l = filter keep symop.
Proof. exact site_found_filter. Qed.
Print Assumptions C91_found.
(** It consists of exactly the operations that leave the point in place, if every other image of the point is clearly apart
    from it (0.0032 of a cell edge in one coordinate) ... *)
Theorem C91_exact_partial : forall symop v, (exists e, In e symop /\ fixes e v) ->
  (forall e, In e symop -> fixes e v \/ clearly_apart (act e (vget v)) (vget v)) ->
  exists l, calc_el_symm_for_xyz symop v = Some l /\ forall e, In e l <-> In e symop /\ fixes e v.
Proof. exact site_exact. Qed.
Print Assumptions C91_exact_partial.
(** ... and is then a group. *)
Theorem C91_group_partial : forall symop v, symmetry_group symop ->
  (forall e, In e symop -> fixes e v \/ clearly_apart (act e (vget v)) (vget v)) ->
  exists l, calc_el_symm_for_xyz symop v = Some l /\ point_group (rotations l) /\ forall e, In e l <-> In e symop /\ fixes e v.
Proof. exact site_list. Qed.
Print Assumptions C91_group_partial.
(** Closer images are confused: for an atom at x = 0.251 and the mirror x -> 1/2 - x, the site symmetry is the mirror alone,
    which moves the atom; the identity is missing. *)
Theorem C91_near_mirror_refuted : exists symop v e1 e2, symmetry_group symop /\ symop = [e1; e2] /\
  (forall x i, act e1 x i = x i) /\ ~ fixes e2 v /\ calc_el_symm_for_xyz symop v = Some [e2].
Proof. exact near_mirror_refuted. Qed.
Print Assumptions C91_near_mirror_refuted.
Example C91_met : symmetry_group [op1; opm] /\ forall e, In e [op1; opm] -> fixes e (mkV (1 / 10) 0 0) \/ clearly_apart (act e (vget (mkV (1 / 10) 0 0))) (vget (mkV (1 / 10) 0 0)).
Proof. exact ((Logic.conj near_mirror_group exact_met)). Qed.
Print Assumptions C91_near_mirror_refuted.

(** C92.  Constraining the susceptibility of an atom: another type of susceptibility is left alone. *)
Theorem C92_other_types : forall symop uc v it it', is_cani it = false -> apply_space_group_constraint symop uc v it = Some it' -> it' = it.
Proof. exact item_not_cani. Qed.
Print Assumptions C92_other_types.
(** A tensor that has the symmetry of the site is kept (to the ten digits of the constraint matrix). *)
Theorem C92_allowed_kept : forall symop uc v it, symmetry_group symop -> nondegenerate uc -> (forall e, In e symop -> metric_invariant uc e) ->
  (forall e, In e symop -> fixes e v \/ clearly_apart (act e (vget v)) (vget v)) ->
  exists it', apply_space_group_constraint symop uc v it = Some it' /\ su_type it' = su_type it /\
    (site_tensor (mget (calc_m_m uc)) (fun e => In e symop /\ fixes e v) (qget (su_chi it)) ->
     forall i j, Rabs (qget (su_chi it') i j - qget (su_chi it) i j) <= 1 / 2 / 10 ^ 10 * abs_sum (su_chi it)).
Proof. exact item_allowed. Qed.
Print Assumptions C92_allowed_kept.
(** In general position nothing changes and all six elements are free. *)
Theorem C92_general_position : forall symop uc v it, symmetry_group symop -> nondegenerate uc -> (forall e, In e symop -> metric_invariant uc e) ->
  (forall e, In e symop -> (fixes e v /\ e_r e = (mkM 1 0 0 0 1 0 0 0 1)%Z) \/ clearly_apart (act e (vget v)) (vget v)) ->
  is_cani it = true -> (forall i j, 0 <= qget (su_sigma it) i j) ->
  apply_space_group_constraint symop uc v it = Some (mkSus (su_type it) (su_chi it) (su_sigma it) (su_ref it) (mkQ false false false false false false)).
Proof. exact general_position. Qed.
Print Assumptions C92_general_position.
(** Whatever the size of the matrix: the vectors kept by the matrix and by the constraint matrix made of it are the same. *)
Theorem C92_solutions_kept : forall tol n m q, 0 <= tol -> (0 < n)%nat ->
  (allowed n (constr_matrix_unrounded tol n m) q <-> allowed n m q).
Proof. exact ConstrMatrixP.kernel_kept. Qed.
Print Assumptions C92_solutions_kept.
(** Exact arithmetic, no tolerance, no rounding: the elements without the constraint flag determine the tensor, freely; they
    keep value and uncertainty; the refinement flags of the others are cleared; and six applications give a tensor with the
    symmetry of the site. *)
Theorem C92_free_elements_partial : forall uc l, nondegenerate uc -> point_group (rotations l) -> (forall e, In e l -> metric_invariant uc e) ->
  let c := constr_matrix_unrounded 0 6 (sc_mat (calc_sc_chi (map (fun e => (e, 1%Z)) l) uc)) in
  let free := fun i => (i < 6)%nat /\ constr_con 6 c i = false in
  let is_site := fun q : Q6 R => site_tensor (mget (calc_m_m uc)) (fun e => In e l) (qget q) in
  (forall v : Q6 R, exists q, is_site q /\ forall i, free i -> q_nth 0 q i = q_nth 0 v i) /\
  (forall q r, is_site q -> is_site r -> (forall i, free i -> q_nth 0 q i = q_nth 0 r i) -> q = r) /\
  (forall v : Q6 R, is_site (times 6 (fun q => q_of (constr_values 6 c (q_nth 0 q))) v)) /\
  (forall v i, free i -> q_nth 0 (q_of (constr_values 6 c (q_nth 0 v))) i = q_nth 0 v i) /\
  (forall s i, free i -> 0 <= q_nth 0 s i -> constr_sigma 6 c (q_nth 0 s) i = q_nth 0 s i) /\
  (forall ref i, (i < 6)%nat -> constr_ref 6 c ref i = if constr_con 6 c i then false else ref i).
Proof. exact site_free. Qed.
Print Assumptions C92_free_elements_partial.
(** One application need not give a tensor with the symmetry of the site: on a three-fold axis along [111] of a cubic cell,
    diag(1, 2, 5) becomes diag(1, 1, 3/2). *)
Theorem C92_one_application_refuted : exists symop uc v it it', symmetry_group symop /\ nondegenerate uc /\
  (forall e, In e symop -> metric_invariant uc e /\ fixes e v) /\
  apply_space_group_constraint symop uc v it = Some it' /\ su_chi it = mkQ 1 2 5 0 0 0 /\ su_chi it' = mkQ 1 1 (3 / 2) 0 0 0 /\
  ~ site_tensor (mget (calc_m_m uc)) (fun e => In e symop /\ fixes e v) (qget (su_chi it')).
Proof. exact one_application_refuted. Qed.
Print Assumptions C92_one_application_refuted.
(** The atom of C91_near_mirror_refuted is in general position, but loses two elements of its tensor. *)
Theorem C92_near_mirror_refuted : exists symop uc v, symmetry_group symop /\ nondegenerate uc /\
  (forall e, In e symop -> metric_invariant uc e) /\ (forall e, In e symop -> fixes e v -> forall x i, act e x i = x i) /\
  forall it, is_cani it = true -> exists it', apply_space_group_constraint symop uc v it = Some it' /\
    su_chi it' = mkQ (q_11 (su_chi it)) (q_22 (su_chi it)) (q_33 (su_chi it)) 0 0 (q_23 (su_chi it)).
Proof. exact near_mirror_item_refuted. Qed.
Print Assumptions C92_near_mirror_refuted.
Example C92_met : symmetry_group three /\ nondegenerate cubic /\ (forall e, In e three -> metric_invariant cubic e) /\ point_group (rotations three) /\
  (forall e, In e three -> fixes e on_axis) /\ site_tensor (mget (calc_m_m cubic)) (fun e => In e three) (qget (mkQ 3 3 3 (-1) (-1) (-1))).
Proof. exact three_met. Qed.
Print Assumptions C92_near_mirror_refuted.
Example C92_general_met : symmetry_group [op1; opm] /\ (forall e, In e [op1; opm] -> metric_invariant cubic e) /\
  (forall e, In e [op1; opm] -> (fixes e (mkV (1 / 10) 0 0) /\ e_r e = (mkM 1 0 0 0 1 0 0 0 1)%Z) \/ clearly_apart (act e (vget (mkV (1 / 10) 0 0))) (vget (mkV (1 / 10) 0 0))).
Proof. exact ((Logic.conj near_mirror_group general_met)). Qed.
Print Assumptions C92_near_mirror_refuted.
