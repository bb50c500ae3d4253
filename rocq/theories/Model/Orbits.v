(** Model of cryspy/C_item_loop_classes/cl_2_space_group.py l.411-433 (SpaceGroup.calc_hkl_equiv), cryspy/C_item_loop_classes/
    cl_1_cell.py l.379-431 (Cell.calc_hkl) and cryspy/A_functions_base/function_2_crystallography_base.py l.364-412
    (calc_atoms_in_unit_cell).  Real arithmetic instead of floats; the operations have integer rotation matrices. *)
From Coq Require Import Reals ZArith QArith List Bool Arith String.
From Coquelicot Require Import Complex.
From Verif Require Import Spec.Lin3 Spec.Cell Spec.Symm Spec.Scatter Model.Strings Model.Numbers Model.Vibration Model.Constraints Model.UnitCell Model.Symmetry Model.StructFactor Model.HklList
  Model.CellObj Model.SiteSymm.
Import ListNotations.
Open Scope list_scope.
Open Scope R_scope.

(** cl_2_space_group.py l.423-432: the images of hkl and their negatives, numpy.unique(axis=1) (columns in lexicographic order),
    int(round(number of images / number of distinct images)). *)
Definition calc_hkl_equiv (reduced : list Op) (hkl : V3 Z) : list (V3 Z) * Z :=
  let h_s := map (hkl_r hkl) reduced in
  let hkl_s := h_s ++ map z_opp_v h_s in
  let hkl_s_un := fold_right insert_hkl [] hkl_s in
  (hkl_s_un, round_half_even (Z.of_nat (List.length hkl_s) # Pos.of_nat (List.length hkl_s_un))).

(** cl_1_cell.py l.415-416: the centring test (shift given as numerators and denominator). *)
Definition centring_sum (hkl : V3 Z) (shift : list (V3 Z * Z)) : C :=
  sum_c (map (fun te : V3 Z * Z => let '(mkV t_1 t_2 t_3) := fst te in
    cexp (2 * PI * (IZR t_1 / IZR (snd te) * IZR (v_1 hkl) + IZR t_2 / IZR (snd te) * IZR (v_2 hkl) + IZR t_3 / IZR (snd te) * IZR (v_3 hkl)))) shift).
Definition centring_flag (hkl : V3 Z) (shift : list (V3 Z * Z)) : bool := if Rlt_dec (1 / 100000) (Cmod (centring_sum hkl shift)) then true else false.
(** l.419-420: sorted by 10000 h + 100 k + l (stable), the last one. *)
Definition key (h : V3 Z) : Z := (10000 * v_1 h + 100 * v_2 h + v_3 h)%Z.
Definition last_by_key (l : list (V3 Z)) : V3 Z :=
  match l with [] => mkV 0 0 0 | x :: r => fold_left (fun m y => if key m <=? key y then y else m) r x end%Z.
(** l.385-392, 411-414: h from 0 *)
Definition half_box (hmax kmax lmax : Z) : list (V3 Z) :=
  flat_map (fun h => flat_map (fun k => map (fun l => mkV h k l) (arange_sym lmax)) (arange_sym kmax)) (map Z.of_nat (seq 0 (Z.to_nat (hmax + 1)))).
(** l.417-422: one reflection; lhkl with lmult as a list of pairs. *)
Definition hkl_step (reduced : list Op) (shift : list (V3 Z * Z)) (acc : list (V3 Z * nat)) (hkl : V3 Z) : list (V3 Z * nat) :=
  if centring_flag hkl shift then
    let h_s := map (hkl_r hkl) reduced in
    let lhkls := h_s ++ map z_opp_v h_s in
    let r := last_by_key lhkls in
    if existsb (fun q => hkl_eqb r (fst q)) acc then acc else acc ++ [(r, List.length (fold_right insert_hkl [] lhkls))]
  else acc.
Definition rlt (x y : R) : bool := if Rlt_dec x y then true else false.
(** l.379-431 *)
Definition cell_calc_hkl (cell : U6 R) (reduced : list Op) (shift : list (V3 Z * Z)) (sthovl_min sthovl_max : R) : list (V3 Z * nat) :=
  let hmax := py_int (2 * u_a cell * sthovl_max) in
  let kmax := py_int (2 * u_b cell * sthovl_max) in
  let lmax := py_int (2 * u_c cell * sthovl_max) in
  let l := fold_left (hkl_step reduced shift) (half_box hmax kmax lmax) [] in
  let s := fun q : V3 Z * nat => cell_sthovl cell (hkl_real (fst q)) in
  filter (fun q => (rlt sthovl_min (s q) && rlt (s q) sthovl_max)%bool) (sort_by s l).

(** function_2_crystallography_base.py l.364-412.  numpy.unique(axis=1) on the four rows x, y, z, atom number. *)
Definition p_eqb (a b : V3 R * nat) : bool := v_eqb (fst a) (fst b) && Nat.eqb (snd a) (snd b).
Definition p_ltb (a b : V3 R * nat) : bool := if v_ltb (fst a) (fst b) then true else v_eqb (fst a) (fst b) && Nat.ltb (snd a) (snd b).
Fixpoint insert_p (a : V3 R * nat) (l : list (V3 R * nat)) : list (V3 R * nat) :=
  match l with
  | [] => [a]
  | b :: r => if p_eqb a b then b :: r else if p_ltb a b then a :: b :: r else b :: insert_p a r
  end.
(** l.401 numpy.argsort(number_uc) (not stable; here stable) *)
Fixpoint insert_n (a : V3 R * nat) (l : list (V3 R * nat)) : list (V3 R * nat) :=
  match l with [] => [a] | b :: r => if Nat.leb (snd a) (snd b) then a :: l else b :: insert_n a r end.
Definition calc_atoms_in_unit_cell (symop : list Op) (atoms : list (V3 R * string)) : list (V3 R * string) :=
  let numbered := combine (seq 0 (List.length atoms)) atoms in
  let r_f_xyz := flat_map (fun e => map (fun a => (round_image (fst (snd a)) e, fst a)) numbered) symop in
  let u_f_xyz := fold_right insert_p [] r_f_xyz in
  map (fun p => (fst p, nth (snd p) (map snd atoms) EmptyString)) (fold_right insert_n [] u_f_xyz).
