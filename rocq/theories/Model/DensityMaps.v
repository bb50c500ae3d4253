(** Model of the maps of a density over the whole cell:
    /repo/cryspy/A_functions_base/function_2_sym_elems.py l.182-326 transform_to_p1,
    /repo/cryspy/A_functions_base/function_2_mem.py l.306-375 transfer_to_density_3d and transfer_to_chi_3d,
    /repo/cryspy/D_functions_item_loop/function_1_density_point_p1.py l.18-77 transform_density_point_to_p1.
    Integer arrays are lists of Z (no int64 overflow); // and % are Z.div and Z.modulo, which agree for positive divisors.
    The two-dimensional arrays indexes_xyz and densities are a list of pairs (index, density). *)
From Coq Require Import Reals ZArith List Bool.
From Verif Require Import Spec.Lin3 Spec.Symm Model.MatrixOps Model.Symmetry Model.Matrices.
Import ListNotations.
Open Scope list_scope.
Open Scope Z_scope.

(** * transform_to_p1 *)
(** l.236-262: the ValueErrors; a translation is (numerators, denominator) *)
Definition points_compatible (n : V3 Z) (d : Z) : bool := (v_1 n mod d =? 0) && (v_2 n mod d =? 0) && (v_3 n mod d =? 0).
(** l.268-301, one point, one element, one shift *)
Definition p1_index (n : V3 Z) (e : Op) (s : V3 Z * Z) (p : V3 Z) : V3 Z :=
  let denom_xyz := Z.lcm (Z.lcm (v_1 n) (v_2 n)) (v_3 n) in
  let num := mkV (v_1 p * denom_xyz / v_1 n) (v_2 p * denom_xyz / v_2 n) (v_3 p * denom_xyz / v_3 n) in
  let denom_new := e_d e * denom_xyz in
  let r := z_m_v (e_r e) num in
  let num_new_x := v_1 r * e_d e + v_1 (e_b e) * denom_xyz + v_1 (fst s) * denom_new / snd s in
  let num_new_y := v_2 r * e_d e + v_2 (e_b e) * denom_xyz + v_2 (fst s) * denom_new / snd s in
  let num_new_z := v_3 r * e_d e + v_3 (e_b e) * denom_xyz + v_3 (fst s) * denom_new / snd s in
  mkV ((num_new_x * v_1 n / denom_new) mod v_1 n) ((num_new_y * v_2 n / denom_new) mod v_2 n) ((num_new_z * v_3 n / denom_new) mod v_3 n).
(** l.303-309 *)
Definition p1_inverted (n : V3 Z) (p : V3 Z) : V3 Z := mkV ((-1 * v_1 p) mod v_1 n) ((-1 * v_2 p) mod v_2 n) ((-1 * v_3 p) mod v_3 n).
(** numpy.unique(axis=1, return_index=True): sorted columns, each with the entry of its first occurrence (l.322-324) *)
Definition lex_ltb (p q : V3 Z) : bool :=
  (v_1 p <? v_1 q) || ((v_1 p =? v_1 q) && ((v_2 p <? v_2 q) || ((v_2 p =? v_2 q) && (v_3 p <? v_3 q)))).
Definition v3_eqb (p q : V3 Z) : bool := (v_1 p =? v_1 q) && (v_2 p =? v_2 q) && (v_3 p =? v_3 q).
Fixpoint insert_first {A} (x : V3 Z * A) (l : list (V3 Z * A)) : list (V3 Z * A) :=
  match l with
  | [] => [x]
  | y :: r => if v3_eqb (fst x) (fst y) then x :: r else if lex_ltb (fst x) (fst y) then x :: l else y :: insert_first x r
  end.
Definition unique_first {A} (l : list (V3 Z * A)) : list (V3 Z * A) := fold_right insert_first [] l.
(** l.182-326; the order of the flattened array is point, element (then its inverse), shift.  None: ValueError. *)
Definition transform_to_p1 {A} (n : V3 Z) (elems : list Op) (shift : list (V3 Z * Z)) (centrosymmetry : bool) (rows : list (V3 Z * A))
  : option (list (V3 Z * A)) :=
  if forallb (fun e => points_compatible n (e_d e)) elems && forallb (fun s => points_compatible n (snd s)) shift then
    Some (unique_first (flat_map (fun row =>
      let direct := flat_map (fun e => map (fun s => p1_index n e s (fst row)) shift) elems in
      map (fun q => (q, snd row)) (if centrosymmetry then direct ++ map (p1_inverted n) direct else direct)) rows))
  else None.

(** * transfer_to_density_3d, transfer_to_chi_3d *)
(** numpy.around(num / den): to the nearest integer, halves to even *)
Definition around (num den : Z) : Z :=
  let q := num / den in let r := num mod den in
  if 2 * r <? den then q else if den <? 2 * r then q + 1 else if Z.even q then q else q + 1.
(** l.318-326; the translations b are fractions b_n / b_d (floats in the code) *)
Definition np_ind (n : V3 Z) (e : Op) (p : V3 Z) : V3 Z :=
  let r := z_m_v (e_r e) p in
  mkV (around (v_1 r * e_d e + v_1 n * v_1 (e_b e)) (e_d e) mod v_1 n) (around (v_2 r * e_d e + v_2 n * v_2 (e_b e)) (e_d e) mod v_2 n)
      (around (v_3 r * e_d e + v_3 n * v_3 (e_b e)) (e_d e) mod v_3 n).
(** den_3d[x, y, z] = v: the array is a function of the index; with an index listed twice the last assignment stays *)
Definition assign {A} (m : V3 Z -> A) (p : V3 Z) (v : A) : V3 Z -> A := fun q => if v3_eqb p q then v else m q.
(** l.315-327 and l.344-374: the loop over the elements *)
Definition fill {A B} (n : V3 Z) (value : Op -> A -> B) (elems : list Op) (rows : list (V3 Z * A)) (m : V3 Z -> B) : V3 Z -> B :=
  fold_left (fun m e => fold_left (fun m row => assign m (np_ind n e (fst row)) (value e (snd row))) rows m) elems m.
(** l.306-328 *)
Definition transfer_to_density_3d (rows : list (V3 Z * R)) (n : V3 Z) (elems : list Op) : V3 Z -> R := fill n (fun _ d => d) elems rows (fun _ => 0%R).
(** l.331-375; the six arrays are one array of tensors, a row is (index, susceptibility) *)
Definition op_matrix (e : Op) : M3 R :=
  let '(mkM a b c d e f g h i) := e_r e in mkM (IZR a) (IZR b) (IZR c) (IZR d) (IZR e) (IZR f) (IZR g) (IZR h) (IZR i).
Definition chi_matrix (q : Q6 R) : M3 R := mkM (q_11 q) (q_12 q) (q_13 q) (q_12 q) (q_22 q) (q_23 q) (q_13 q) (q_23 q) (q_33 q).
Definition rotated_chi (e : Op) (q : Q6 R) : Q6 R :=
  let c := calc_mRmCmRT (op_matrix e) (chi_matrix q) in mkQ (m_11 c) (m_22 c) (m_33 c) (m_12 c) (m_13 c) (m_23 c).
Definition transfer_to_chi_3d (rows : list (V3 Z * Q6 R)) (n : V3 Z) (elems : list Op) : V3 Z -> Q6 R :=
  fill n rotated_chi elems rows (fun _ => mkQ 0 0 0 0 0 0)%R.

(** * transform_density_point_to_p1 *)
(** l.35-37: numpy_b_1.astype(int) *)
Definition int_translation (e : Op) : Op :=
  mkE (mkV (Z.quot (v_1 (e_b e)) (e_d e)) (Z.quot (v_2 (e_b e)) (e_d e)) (Z.quot (v_3 (e_b e)) (e_d e))) 1 (e_r e).
(** l.18-77: rows (index, fractions, density) *)
Definition transform_density_point_to_p1 (rows : list (V3 Z * R)) (elems : list Op) (n : V3 Z) : list (V3 Z * V3 R * R) :=
  let den_3d := transfer_to_density_3d rows n (map int_translation elems) in
  let den_1d := map den_3d (grid_points n) in
  let p_bc := v_2 n * v_3 n in
  map (fun q => let '(i_den, den) := q in
    let ind_x := i_den / p_bc in let h_y := i_den - p_bc * ind_x in let ind_y := h_y / v_3 n in let ind_z := h_y mod v_3 n in
    (mkV ind_x ind_y ind_z, mkV (IZR ind_x / IZR (v_1 n)) (IZR ind_y / IZR (v_2 n)) (IZR ind_z / IZR (v_3 n)), den)%R)
    (combine (map Z.of_nat (seq 0 (List.length den_1d))) den_1d).
