(** Model of calc_index_hkl_multiplicity_in_range: /repo/cryspy/A_functions_base/structure_factor.py l.1067-1102. *)
From Coq Require Import Reals ZArith List Bool.
From Coquelicot Require Import Complex.
From Verif Require Import Spec.Lin3 Spec.Cell Spec.Symm Model.UnitCell Model.Symmetry Model.StructFactor.
Import ListNotations.
Open Scope list_scope.
Open Scope R_scope.

(** int(x) of a float: truncation towards zero. *)
Definition py_int (x : R) : Z := if Rle_dec 0 x then Int_part x else (- Int_part (- x))%Z.
(** numpy.arange(-n, n+1, 1) *)
Definition arange_sym (n : Z) : list Z := map (fun i => (Z.of_nat i - n)%Z) (seq 0 (Z.to_nat (2 * n + 1))).
(** l.1073-1079 *)
Definition hkl_box (h_max k_max l_max : Z) : list (V3 Z) :=
  flat_map (fun h => flat_map (fun k => map (fun l => mkV h k l) (arange_sym l_max)) (arange_sym k_max)) (arange_sym h_max).
(** l.1082 *)
Definition label (h : V3 Z) : Z := (1000000 * v_1 h + 1000 * v_2 h + v_3 h)%Z.
(** l.1083-1084: the equivalent reflection with the largest label.  numpy.argsort is not stable, the choice between equal
    labels is not specified; here the last of them. *)
Definition largest (l : list (V3 Z)) : V3 Z :=
  match l with [] => mkV 0 0 0 | x :: r => fold_left (fun m y => if label m <=? label y then y else m) r x end%Z.
(** l.1085: numpy.unique(axis=1, return_counts=True): distinct columns in lexicographic order and their counts. *)
Definition lex_lt (a b : V3 Z) : bool :=
  ((v_1 a <? v_1 b) || ((v_1 a =? v_1 b) && ((v_2 a <? v_2 b) || ((v_2 a =? v_2 b) && (v_3 a <? v_3 b)))))%Z.
Definition hkl_eqb (a b : V3 Z) : bool := ((v_1 a =? v_1 b) && (v_2 a =? v_2 b) && (v_3 a =? v_3 b))%Z.
Fixpoint insert_hkl (x : V3 Z) (l : list (V3 Z)) : list (V3 Z) :=
  match l with [] => [x] | y :: r => if lex_lt x y then x :: l else if hkl_eqb x y then l else y :: insert_hkl x r end.
Definition unique_hkl (l : list (V3 Z)) : list (V3 Z * nat) :=
  map (fun x => (x, length (filter (hkl_eqb x) l))) (fold_right insert_hkl [] l).
(** numpy.isclose(pr_3, 0.) : |pr_3| <= 1e-8 *)
Definition close_to_0 (z : C) : bool := if Rle_dec (Cmod z) (1 / 100000000) then true else false.
(** l.1094 numpy.argsort(sthovl) (here stable) *)
Fixpoint insert_by {A} (f : A -> R) (x : A) (l : list A) : list A :=
  match l with [] => [x] | y :: r => if Rle_dec (f x) (f y) then x :: l else y :: insert_by f x r end.
Definition sort_by {A} (f : A -> R) (l : list A) : list A := fold_right (insert_by f) [] l.
Definition rle (x y : R) : bool := if Rle_dec x y then true else false.
Definition calc_index_hkl_multiplicity_in_range (sthovl_min sthovl_max : R) (uc : U6 R) (reduced : list Op)
    (translations : list (V3 Z * Z)) (centrosymmetry : bool) : list (V3 Z * nat) :=
  let h_max := py_int (2 * u_a uc * sthovl_max) in
  let k_max := py_int (2 * u_b uc * sthovl_max) in
  let l_max := py_int (2 * u_c uc * sthovl_max) in
  let full := hkl_box h_max k_max l_max in
  let reps := map (fun h => largest (calc_equivalent_reflections h reduced centrosymmetry)) full in
  let uniq := unique_hkl reps in
  let index_hkl := filter (fun q => negb (close_to_0 (calc_pr3 (fst q) translations))) uniq in
  let sthovl := fun q : V3 Z * nat => calc_sthovl (hkl_real (fst q)) uc in
  let sorted := sort_by sthovl index_hkl in
  filter (fun q => rle sthovl_min (sthovl q) && rle (sthovl q) sthovl_max) sorted.
