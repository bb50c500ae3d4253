(** Property theorems C57, C58: normalisation of maximum-entropy densities, basins of atoms. *)
From Coq Require Import Reals Lra Lia List String Bool Arith ZArith.
From Verif Require Import Spec.Lin3 Spec.Cell Spec.Symm Spec.Density Model.MatrixOps Model.UnitCell Model.Background Model.Mem
  Proofs.MemP Proofs.MemP2 Proofs.MemP3.
Import ListNotations.
Open Scope list_scope.
Open Scope R_scope.

(** C57.  Each row (spin direction) is divided by its integral over the cell: after it the integral is one. *)
Theorem C57_col_normalised : forall dcol m v n, n <> 0 -> v <> 0 ->
  (forall row, In row dcol -> integral v n row m <> 0) ->
  List.length (renormailize_density_col dcol m v n) = List.length dcol /\
  forall k, (k < List.length dcol)%nat ->
    let out := nth k (renormailize_density_col dcol m v n) [] in let inp := nth k dcol [] in
    List.length out = List.length inp /\ integral v n out m = 1 /\
    forall i, nth i out 0 = nth i inp 0 / integral v n inp m.
Proof. exact col_normalised. Qed.
Print Assumptions C57_col_normalised.
Theorem C57_col_idempotent : forall dcol m v n, n <> 0 -> v <> 0 ->
  (forall row, In row dcol -> integral v n row m <> 0) ->
  renormailize_density_col (renormailize_density_col dcol m v n) m v n = renormailize_density_col dcol m v n.
Proof. exact col_idempotent. Qed.
Print Assumptions C57_col_idempotent.
Theorem C57_col_nonnegative : forall dcol m v n, 0 < n -> 0 < v -> Forall (Rle 0) m ->
  (forall row x, In row dcol -> In x row -> 0 <= x) ->
  forall row x, In row (renormailize_density_col dcol m v n) -> In x row -> 0 <= x.
Proof. exact col_nonneg. Qed.
Print Assumptions C57_col_nonnegative.
(** The starting density is 1/V everywhere when the multiplicities account for all points of the grid. *)
Theorem C57_col_uniform : forall m v n, 0 < n -> 0 < v -> fold_right Rplus 0 m = n ->
  get_uniform_density_col m v n = [map (fun _ => 1 / v) m; map (fun _ => 1 / v) m].
Proof. exact col_uniform. Qed.
Print Assumptions C57_col_uniform.
(** The same for the density of the susceptibility, atom by atom. *)
Theorem C57_chi_normalised : forall pts v n, n <> 0 -> v <> 0 ->
  (forall p, In p pts -> atom_integral v n (mp_label p) pts <> 0) ->
  List.length (renormailize_density_chi pts v n) = List.length pts /\
  (forall p, In p pts -> atom_integral v n (mp_label p) (set_density (renormailize_density_chi pts v n) pts) = 1) /\
  (forall i p, nth_error pts i = Some p ->
     nth i (renormailize_density_chi pts v n) 0 = mp_density p / atom_integral v n (mp_label p) pts).
Proof. exact chi_normalised. Qed.
Print Assumptions C57_chi_normalised.
Theorem C57_chi_idempotent : forall pts v n, n <> 0 -> v <> 0 ->
  (forall p, In p pts -> atom_integral v n (mp_label p) pts <> 0) ->
  renormailize_density_chi (set_density (renormailize_density_chi pts v n) pts) v n = renormailize_density_chi pts v n.
Proof. exact chi_idempotent. Qed.
Print Assumptions C57_chi_idempotent.
Theorem C57_chi_nonnegative : forall pts v n, 0 < n -> 0 < v ->
  (forall p, In p pts -> 0 <= mp_density p /\ 0 <= mp_mult p /\ 0 < mp_amult p) ->
  forall x, In x (renormailize_density_chi pts v n) -> 0 <= x.
Proof. exact chi_nonneg. Qed.
Print Assumptions C57_chi_nonnegative.
Theorem C57_chi_uniform : forall pts v n, 0 < n -> 0 < v ->
  (forall p, In p pts -> 0 < mp_mult p /\ 0 < mp_amult p) ->
  let out := set_density (get_uniform_density_chi pts v n) pts in
  (forall p, In p pts -> atom_integral v n (mp_label p) out = 1) /\
  (forall p q, In p out -> In q out -> mp_label p = mp_label q -> mp_density p = mp_density q).
Proof. exact chi_uniform. Qed.
Print Assumptions C57_chi_uniform.
Example C57_case : integral 10 4 [1; 3] [2; 2] <> 0 /\ fold_right Rplus 0 [2; 2] = 4 /\
  (forall p, In p [mkMP 1 2 "Fe" 4; mkMP 3 2 "Fe" 4; mkMP 1 4 "O" 8] -> 0 < mp_mult p /\ 0 < mp_amult p /\
     atom_integral 10 8 (mp_label p) [mkMP 1 2 "Fe" 4; mkMP 3 2 "Fe" 4; mkMP 1 4 "O" 8] <> 0).
Proof.
  split; [|split].
  - unfold integral. cbn. lra.
  - cbn. lra.
  - intros p [<-|[<-|[<-|[]]]]; unfold atom_integral; cbn; repeat split; lra.
Qed.

(** C58.  For every cell, point and non-empty lists a result is returned; the distance is that of an existing atom,
    generated from the returned atom by some operation, and from some atom by the returned operation. *)
Theorem C58_distance_attained : forall uc p atoms symms, nondegenerate uc -> atoms <> [] -> symms <> [] ->
  exists ia is d, closest uc p atoms symms = Some (ia, is, d) /\
    (ia < List.length atoms)%nat /\ (is < List.length symms)%nat /\ 0 <= d /\
    (exists e y, In e symms /\ image_of e (vget (nth ia atoms v0)) y /\ d ^ 2 = distance_sq uc (vget p) y) /\
    (exists j y, (j < List.length atoms)%nat /\ image_of (nth is symms id_op) (vget (nth j atoms v0)) y /\ d ^ 2 = distance_sq uc (vget p) y).
Proof. exact closest_attained. Qed.
Print Assumptions C58_distance_attained.
(** When the axes are orthogonal no atom of the crystal is closer. *)
Theorem C58_minimal_orthogonal : forall uc p atoms symms ia is d, nondegenerate uc -> orthogonal uc ->
  closest uc p atoms symms = Some (ia, is, d) ->
  forall a e y, In a atoms -> In e symms -> image_of e (vget a) y -> d ^ 2 <= distance_sq uc (vget p) y.
Proof. exact closest_orthogonal. Qed.
Print Assumptions C58_minimal_orthogonal.
(** In any cell no atom within half a cell in each coordinate is closer. *)
Theorem C58_minimal_half_cell : forall uc p atoms symms ia is d, nondegenerate uc ->
  closest uc p atoms symms = Some (ia, is, d) ->
  forall a e y, In a atoms -> In e symms -> image_of e (vget a) y -> (forall i, Rabs (vget p i - y i) < 1 / 2) ->
  d ^ 2 <= distance_sq uc (vget p) y.
Proof. exact closest_half. Qed.
Print Assumptions C58_minimal_half_cell.
(** The pair (atom, operation) is consistent when one atom of the list only, or one operation only, is at the distance found. *)
Theorem C58_pair_consistent_one_atom : forall uc p atoms symms ia is d, nondegenerate uc ->
  closest uc p atoms symms = Some (ia, is, d) ->
  (forall j e y, (j < List.length atoms)%nat -> In e symms -> image_of e (vget (nth j atoms v0)) y ->
     distance_sq uc (vget p) y = d ^ 2 -> j = ia) ->
  exists y, image_of (nth is symms id_op) (vget (nth ia atoms v0)) y /\ d ^ 2 = distance_sq uc (vget p) y.
Proof. exact closest_pair. Qed.
Print Assumptions C58_pair_consistent_one_atom.
Theorem C58_pair_consistent_one_operation : forall uc p atoms symms ia is d, nondegenerate uc ->
  closest uc p atoms symms = Some (ia, is, d) ->
  (forall k a y, (k < List.length symms)%nat -> In a atoms -> image_of (nth k symms id_op) (vget a) y ->
     distance_sq uc (vget p) y = d ^ 2 -> k = is) ->
  exists y, image_of (nth is symms id_op) (vget (nth ia atoms v0)) y /\ d ^ 2 = distance_sq uc (vget p) y.
Proof. exact closest_pair_op. Qed.
Print Assumptions C58_pair_consistent_one_operation.
(** With ties the atom and the operation come from different minima and do not belong together. *)
Theorem C58_pair_on_ties_refuted : exists uc p atoms symms ia is d,
  nondegenerate uc /\ orthogonal uc /\ symmetry_group symms /\
  closest uc p atoms symms = Some (ia, is, d) /\
  forall y, image_of (nth is symms id_op) (vget (nth ia atoms v0)) y -> d ^ 2 < distance_sq uc (vget p) y.
Proof. exact pair_refuted. Qed.
Print Assumptions C58_pair_on_ties_refuted.
(** In an oblique cell a closer atom, of another kind, can be missed. *)
Theorem C58_oblique_cell_refuted : exists uc p atoms symms ia is d a e y,
  nondegenerate uc /\ symmetry_group symms /\ closest uc p atoms symms = Some (ia, is, d) /\
  In a atoms /\ In e symms /\ image_of e (vget a) y /\ distance_sq uc (vget p) y < d ^ 2 /\
  forall z e', In e' symms -> image_of e' (vget (nth ia atoms v0)) z -> distance_sq uc (vget p) y < distance_sq uc (vget p) z.
Proof. exact skew_refuted. Qed.
Print Assumptions C58_oblique_cell_refuted.
(** Basins: the retained rows are those of the points whose atom is in the list of magnetic labels; label, multiplicity
    and distance belong to one atom of the list. *)
Theorem C58_basins : forall uc symms atoms mag points, nondegenerate uc -> symms <> [] -> atoms <> [] ->
  exists flags rows, form_basins uc symms atoms mag points = Some (flags, rows) /\
    List.length flags = List.length points /\
    List.length rows = List.length (filter (fun b => b) flags) /\
    (forall label mult dist e, In (label, mult, dist, e) rows ->
       In label mag /\ In e symms /\ 0 <= dist /\
       exists xyz p f y, In (label, xyz, mult) atoms /\ In p points /\ In f symms /\
         image_of f (vget xyz) y /\ dist ^ 2 = distance_sq uc (vget p) y) /\
    (forall k, (k < List.length points)%nat ->
       exists label xyz mult ia is d, nth_error atoms ia = Some (label, xyz, mult) /\
         closest uc (nth k points v0) (map (fun a => snd (fst a)) atoms) symms = Some (ia, is, d) /\
         (nth k flags false = true <-> In label mag)).
Proof. exact basins. Qed.
Print Assumptions C58_basins.
(** The hypotheses hold: a cubic cell, a group of two operations. *)
Example C58_case : nondegenerate cub /\ orthogonal cub /\ symmetry_group ops2 /\
  closest cub (mkV 0 0 0) [atA; atB] ops2 = Some (0%nat, 0%nat, 1 / 10).
Proof. split; [apply cub_nd|]. split; [apply cub_orth|]. split; [apply ops2_group|apply closest_tie]. Qed.
