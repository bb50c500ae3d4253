(** Model of cryspy/A_functions_base/symmetry_elements.py.
    A symmetry element is a column of 13 integers [bx,by,bz,bd,r11..r33]; here the record [Op] of Spec/Symm.
    numpy integer arrays are Z (no int64 overflow).  numpy.mod / % / // on integers are floor operations,
    the same as Z.modulo / Z.div for a positive divisor.  Vectorised calls are modelled per column. *)
From Coq Require Import ZArith List Bool Sorting.Mergesort Orders.
From Verif Require Import Spec.Lin3 Spec.Symm Model.MatrixOps.
Import ListNotations.
Open Scope Z_scope.

(** atom_symm_elems: 4 rows (position) or 13 rows (position and the directions in which it can move).
    symmetry_elements.py l.46: the shape decides. *)
Inductive AtomElem := AtomPos (b : V3 Z) (d : Z) | AtomFull (e : Op).
Definition atom_b (a : AtomElem) : V3 Z := match a with AtomPos b _ => b | AtomFull e => e_b e end.
Definition atom_d (a : AtomElem) : Z := match a with AtomPos _ d => d | AtomFull e => e_d e end.

(** matrix_operations.py calc_m_v (value) on integer arrays. *)
Definition z_m_v (m : M3 Z) (v : V3 Z) : V3 Z :=
  let '(mkM m11 m12 m13 m21 m22 m23 m31 m32 m33) := m in let '(mkV v1 v2 v3) := v in
  mkV (m11 * v1 + m12 * v2 + m13 * v3) (m21 * v1 + m22 * v2 + m23 * v3) (m31 * v1 + m32 * v2 + m33 * v3).
(** matrix_operations.py calc_m1_m2 (value) on integer arrays. *)
Definition z_m1_m2 (a b : M3 Z) : M3 Z :=
  let '(mkM a11 a12 a13 a21 a22 a23 a31 a32 a33) := a in
  let '(mkM b11 b12 b13 b21 b22 b23 b31 b32 b33) := b in
  mkM (a11 * b11 + a12 * b21 + a13 * b31) (a11 * b12 + a12 * b22 + a13 * b32) (a11 * b13 + a12 * b23 + a13 * b33)
      (a21 * b11 + a22 * b21 + a23 * b31) (a21 * b12 + a22 * b22 + a23 * b32) (a21 * b13 + a22 * b23 + a23 * b33)
      (a31 * b11 + a32 * b21 + a33 * b31) (a31 * b12 + a32 * b22 + a33 * b32) (a31 * b13 + a32 * b23 + a33 * b33).

(** symmetry_elements.py l.30-89 calc_symm_flags. *)
Definition calc_symm_flags (symm_elem : Op) (atom : AtomElem) : bool :=
  let '(mkV bn_s_1 bn_s_2 bn_s_3) := e_b symm_elem in let bd_s := e_d symm_elem in
  let '(mkM r11 r12 r13 r21 r22 r23 r31 r32 r33) := e_r symm_elem in
  let rse_11 := r11 - 1 in let rse_12 := r12 in let rse_13 := r13 in
  let rse_21 := r21 in let rse_22 := r22 - 1 in let rse_23 := r23 in
  let rse_31 := r31 in let rse_32 := r32 in let rse_33 := r33 - 1 in
  let '(mkV bn_a_1 bn_a_2 bn_a_3) := atom_b atom in let bd_a := atom_d atom in
  let cond_1 :=
    match atom with
    | AtomPos _ _ => true
    | AtomFull a =>
      let '(mkM ra_11 ra_12 ra_13 ra_21 ra_22 ra_23 ra_31 ra_32 ra_33) := e_r a in
      (rse_11*ra_11 + rse_12*ra_21 + rse_13*ra_31 =? 0) && (rse_11*ra_12 + rse_12*ra_22 + rse_13*ra_32 =? 0) &&
      (rse_11*ra_13 + rse_12*ra_23 + rse_13*ra_33 =? 0) && (rse_21*ra_11 + rse_22*ra_21 + rse_23*ra_31 =? 0) &&
      (rse_21*ra_12 + rse_22*ra_22 + rse_23*ra_32 =? 0) && (rse_21*ra_13 + rse_22*ra_23 + rse_23*ra_33 =? 0) &&
      (rse_31*ra_11 + rse_32*ra_21 + rse_33*ra_31 =? 0) && (rse_31*ra_12 + rse_32*ra_22 + rse_33*ra_32 =? 0) &&
      (rse_31*ra_13 + rse_32*ra_23 + rse_33*ra_33 =? 0)
    end in
  let bd_sa := bd_s * bd_a in
  let p1_1 := bd_s * (rse_11*bn_a_1 + rse_12*bn_a_2 + rse_13*bn_a_3) + bd_a * bn_s_1 in
  let p1_2 := bd_s * (rse_21*bn_a_1 + rse_22*bn_a_2 + rse_23*bn_a_3) + bd_a * bn_s_2 in
  let p1_3 := bd_s * (rse_31*bn_a_1 + rse_32*bn_a_2 + rse_33*bn_a_3) + bd_a * bn_s_3 in
  let cond_2_1 := p1_1 mod bd_sa =? 0 in
  let cond_2_2 := p1_2 mod bd_sa =? 0 in
  let cond_2_3 := p1_3 mod bd_sa =? 0 in
  cond_1 && cond_2_1 && cond_2_2 && cond_2_3.

(** symmetry_elements.py l.92-101 calc_multiplicity_by_atom_symm_elems (one atom). *)
Definition calc_multiplicity (full_symm_elems : list Op) (atom : AtomElem) : nat :=
  (length full_symm_elems / length (filter (fun e => calc_symm_flags e atom) full_symm_elems))%nat.

(** symmetry_elements.py l.215-231 apply_symm_elems_to_index_xyz (one element, one index). *)
Definition apply_symm_elem_to_index (e : Op) (index n : V3 Z) : V3 Z :=
  let '(mkV b_n_1 b_n_2 b_n_3) := e_b e in let b_d := e_d e in
  let '(mkM r_11 r_12 r_13 r_21 r_22 r_23 r_31 r_32 r_33) := e_r e in
  let '(mkV i_1 i_2 i_3) := index in let '(mkV n1 n2 n3) := n in
  let p_1 := n1 / b_d in let p_2 := n2 / b_d in let p_3 := n3 / b_d in
  mkV ((r_11*i_1 + r_12*i_2 + r_13*i_3 + b_n_1*p_1) mod n1)
      ((r_21*i_1 + r_22*i_2 + r_23*i_3 + b_n_2*p_2) mod n2)
      ((r_31*i_1 + r_32*i_2 + r_33*i_3 + b_n_3*p_3) mod n3).

(** symmetry_elements.py l.118-121: numpy.arange / meshgrid(indexing="ij") / reshape in C order. *)
Definition arange (n : Z) : list Z := map Z.of_nat (seq 0 (Z.to_nat n)).
Definition grid_points (n : V3 Z) : list (V3 Z) :=
  flat_map (fun i => flat_map (fun j => map (fun k => mkV i j k) (arange (v_3 n))) (arange (v_2 n))) (arange (v_1 n)).
(** l.132-136: image of one point under one element, and its linear index.
    div = n // bd, point_index_s = (R i + div * b) mod n. *)
Definition image_index (n : V3 Z) (e : Op) (p : V3 Z) : V3 Z :=
  let r := z_m_v (e_r e) p in
  mkV ((v_1 r + (v_1 n / e_d e) * v_1 (e_b e)) mod v_1 n)
      ((v_2 r + (v_2 n / e_d e) * v_2 (e_b e)) mod v_2 n)
      ((v_3 r + (v_3 n / e_d e) * v_3 (e_b e)) mod v_3 n).
Definition value_index (n : V3 Z) (p : V3 Z) : Z := v_3 n * v_2 n * v_1 p + v_3 n * v_2 p + v_3 p.
(** l.137-140: numpy.sort(axis=1)[:,0] is the minimum over the elements. *)
Definition min_list (l : list Z) : Z :=
  match l with [] => 0 | x :: r => fold_left Z.min r x end.
Definition min_value (n : V3 Z) (elems : list Op) (p : V3 Z) : Z :=
  min_list (map (fun e => value_index n (image_index n e p)) elems).
(** numpy.unique(values, return_index=True, return_counts=True): the sorted distinct values with the index of
    the first occurrence and the number of occurrences. *)
Fixpoint insert_uniq (x : Z) (l : list Z) : list Z :=
  match l with
  | [] => [x]
  | y :: r => if x <? y then x :: l else if x =? y then l else y :: insert_uniq x r
  end.
Definition unique (l : list Z) : list Z := fold_right insert_uniq [] l.
Fixpoint first_index (x : Z) (l : list Z) : nat :=
  match l with [] => 0%nat | y :: r => if x =? y then 0%nat else S (first_index x r) end.
Definition counts (x : Z) (l : list Z) : nat := length (filter (Z.eqb x) l).
(** l.104-143 calc_asymmetric_unit_cell_indexes; [None] is the KeyError of l.130-131. *)
Definition calc_asymmetric_unit_cell_indexes (n : V3 Z) (elems : list Op) : option (list (V3 Z * nat)) :=
  if forallb (fun e => (v_1 n mod e_d e =? 0) && (v_2 n mod e_d e =? 0) && (v_3 n mod e_d e =? 0)) elems then
    let points := grid_points n in
    let values := map (min_value n elems) points in
    Some (map (fun a => (nth (first_index a values) points (mkV 0 0 0), counts a values)) (unique values))
  else None.

(** symmetry_elements.py l.146-156 sum_elem_symm_b. *)
Definition sum_elem_symm_b (b1 : V3 Z) (d1 : Z) (b2 : V3 Z) (d2 : Z) : V3 Z * Z :=
  let num := mkV (v_1 b1 * d2 + v_1 b2 * d1) (v_2 b1 * d2 + v_2 b2 * d1) (v_3 b1 * d2 + v_3 b2 * d1) in
  let denom := d1 * d2 in
  let gcd := Z.min (Z.min (Z.gcd (v_1 num) denom) (Z.gcd (v_2 num) denom)) (Z.gcd (v_3 num) denom) in
  (mkV (v_1 num / gcd) (v_2 num / gcd) (v_3 num / gcd), denom / gcd).

(** symmetry_elements.py l.159-184 calc_full_mag_elems for one operation o and one centring c (with time
    reversal theta): r_fs = r_o r_c, b_fs = r_c b_o (+) b_c, theta_fs = theta_o theta_c. *)
Definition mag_compose (o : Op * Z) (c : Op * Z) : Op * Z :=
  let '(eo, theta_o) := o in let '(ec, theta_c) := c in
  let r_fs := z_m1_m2 (e_r eo) (e_r ec) in
  let rb := z_m_v (e_r ec) (e_b eo) in
  let '(b_fs, d_fs) := sum_elem_symm_b rb (e_d eo) (e_b ec) (e_d ec) in
  (mkE b_fs d_fs r_fs, theta_o * theta_c).
(** reshape in C order: the operation index is the slow one. *)
Definition calc_full_mag_elems (os cs : list (Op * Z)) : list (Op * Z) :=
  flat_map (fun o => map (mag_compose o) cs) os.

(** symmetry_elements.py l.234-245 sum_b_elems. *)
Definition sum_b_elems (b1 : V3 Z) (d1 : Z) (b2 : V3 Z) (d2 : Z) : V3 Z * Z :=
  let denom_common := Z.lcm d1 d2 in
  let c_1 := denom_common / d1 in
  let c_2 := denom_common / d2 in
  let b_s_x := (v_1 b1 * c_1 + v_1 b2 * c_2) mod denom_common in
  let b_s_y := (v_2 b1 * c_1 + v_2 b2 * c_2) mod denom_common in
  let b_s_z := (v_3 b1 * c_1 + v_3 b2 * c_2) mod denom_common in
  let g := Z.gcd (Z.gcd (Z.gcd b_s_x b_s_y) b_s_z) denom_common in
  (mkV (b_s_x / g) (b_s_y / g) (b_s_z / g), denom_common / g).

(** symmetry_elements.py l.248-268 calc_full_symm_elems_by_reduced. *)
Definition add_translation (te : V3 Z * Z) (e : Op) : Op :=
  let '(b, d) := sum_b_elems (e_b e) (e_d e) (fst te) (snd te) in mkE b d (e_r e).
Definition z_opp_v (v : V3 Z) : V3 Z := mkV (-1 * v_1 v) (-1 * v_2 v) (-1 * v_3 v).
Definition z_opp_m (m : M3 Z) : M3 Z :=
  mkM (-1 * m_11 m) (-1 * m_12 m) (-1 * m_13 m) (-1 * m_21 m) (-1 * m_22 m) (-1 * m_23 m)
      (-1 * m_31 m) (-1 * m_32 m) (-1 * m_33 m).
Definition invert_elem (cp : V3 Z * Z) (e : Op) : Op :=
  let dcp := mkV (2 * v_1 (fst cp)) (2 * v_2 (fst cp)) (2 * v_3 (fst cp)) in
  let '(b, d) := sum_b_elems dcp (snd cp) (z_opp_v (e_b e)) (e_d e) in mkE b d (z_opp_m (e_r e)).
Definition calc_full_symm_elems_by_reduced (reduced : list Op) (centrosymmetry : bool) (cp : V3 Z * Z)
    (translations : list (V3 Z * Z)) : list Op :=
  let fse_a := flat_map (fun te => map (add_translation te) reduced) translations in
  if centrosymmetry then fse_a ++ map (invert_elem cp) fse_a else fse_a.

(** symmetry_elements.py l.271-286 calc_equivalent_reflections (one reflection). *)
Definition hkl_r (hkl : V3 Z) (e : Op) : V3 Z :=
  let '(mkV h k l) := hkl in
  let '(mkM r_11 r_12 r_13 r_21 r_22 r_23 r_31 r_32 r_33) := e_r e in
  mkV (r_11*h + r_21*k + r_31*l) (r_12*h + r_22*k + r_32*l) (r_13*h + r_23*k + r_33*l).
Definition calc_equivalent_reflections (hkl : V3 Z) (reduced : list Op) (centrosymmetry : bool) : list (V3 Z) :=
  let eq := map (hkl_r hkl) reduced in
  if centrosymmetry then eq ++ map z_opp_v eq else eq.
