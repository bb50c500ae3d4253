(** Model of the nuclear structure factor: /repo/cryspy/A_functions_base/structure_factor.py
    l.19-30, l.74-142, l.145-174, l.205-262, l.422-553.
    Complex numbers are pairs of real numbers (Coquelicot's C); floating point numbers are real numbers; arrays are
    lists ([hkl, symmetry, atom] arrays are nested lists in this order). *)
From Coq Require Import Reals ZArith List Bool.
From Coquelicot Require Import Complex.
From Verif Require Import Spec.Lin3 Spec.Cell Spec.Symm Model.MatrixOps Model.UnitCell Model.Symmetry Model.AtomFactors.
Import ListNotations.
Open Scope list_scope.
Open Scope R_scope.

(** numpy.exp(1j*t) for real t. *)
Definition cexp (t : R) : C := (cos t, sin t).
(** array.sum() of complex numbers. *)
Definition sum_c (l : list C) : C := fold_right Cplus (RtoC 0) l.
Definition div_n (z : C) (n : nat) : C := Cdiv z (RtoC (INR n)).

(** numpy.round(x, decimals=0): to the nearest integer, halves to the even one. *)
Definition np_round (x : R) : Z :=
  let f := Int_part x in
  let r := x - IZR f in
  if Rlt_dec r (1 / 2) then f else if Rlt_dec (1 / 2) r then (f + 1)%Z else if Z.even f then f else (f + 1)%Z.
(** l.19-30 get_atom_symm_elems_by_atom_fract_xyz (one atom). *)
Definition fix_thirds (n : Z) : Z :=
  let n := (if n =? 999999 then 1000000 else n)%Z in
  let n := (if n =? 1999998 then 2000000 else n)%Z in
  let n := (if n =? 2000001 then 2000000 else n)%Z in n.
Definition get_atom_symm_elem (xyz : V3 R) : AtomElem :=
  let f x := fix_thirds (np_round (x * 3 * 10 ^ 6)) in
  AtomPos (mkV (f (v_1 xyz)) (f (v_2 xyz)) (f (v_3 xyz))) (3 * 10 ^ 6)%Z.

(** l.74-98 calc_pr1 (value). *)
Definition calc_pr1 (hkl : V3 Z) (e : Op) (xyz : V3 R) : C :=
  let h := IZR (v_1 hkl) in let k := IZR (v_2 hkl) in let l := IZR (v_3 hkl) in
  let '(mkM r11 r12 r13 r21 r22 r23 r31 r32 r33) := e_r e in
  let '(mkV x y z) := xyz in
  let hh := h * (IZR r11 * x + IZR r12 * y + IZR r13 * z) + k * (IZR r21 * x + IZR r22 * y + IZR r23 * z)
            + l * (IZR r31 * x + IZR r32 * y + IZR r33 * z) in
  cexp (- 2 * PI * hh).
(** l.101-111 calc_pr2. *)
Definition calc_pr2 (hkl : V3 Z) (e : Op) : C :=
  let h := IZR (v_1 hkl) in let k := IZR (v_2 hkl) in let l := IZR (v_3 hkl) in
  let '(mkV b_1 b_2 b_3) := e_b e in let b_d := IZR (e_d e) in
  let hh := h * (IZR b_1 / b_d) + k * (IZR b_2 / b_d) + l * (IZR b_3 / b_d) in
  cexp (- 2 * PI * hh).
(** l.114-124 calc_pr3. *)
Definition calc_pr3 (hkl : V3 Z) (translations : list (V3 Z * Z)) : C :=
  div_n (sum_c (map (fun te : V3 Z * Z =>
    let '(mkV t_1 t_2 t_3) := fst te in
    let hh := IZR (v_1 hkl * t_1 + v_2 hkl * t_2 + v_3 hkl * t_3) in
    cexp (- 2 * PI * hh / IZR (snd te))) translations)) (length translations).
(** l.127-137 calc_pr4. *)
Definition calc_pr4 (hkl : V3 Z) (centrosymmetry_position : option (V3 Z * Z)) : C :=
  match centrosymmetry_position with
  | None => RtoC 0
  | Some (mkV c_1 c_2 c_3, c_d) =>
    let p_1 := IZR c_1 / IZR c_d in let p_2 := IZR c_2 / IZR c_d in let p_3 := IZR c_3 / IZR c_d in
    cexp (- 4 * PI * (IZR (v_1 hkl) * p_1 + IZR (v_2 hkl) * p_2 + IZR (v_3 hkl) * p_3))
  end.
(** l.500-504: calc_dwf is called with reduced_symm_elems (13 rows: b_1, b_2, b_3, b_d, r_11, ...) where it reads the
    9 elements of the rotation from the first 9 rows. *)
Definition rows_0_8 (e : Op) : M3 R :=
  mkM (IZR (v_1 (e_b e))) (IZR (v_2 (e_b e))) (IZR (v_3 (e_b e))) (IZR (e_d e))
      (IZR (m_11 (e_r e))) (IZR (m_12 (e_r e))) (IZR (m_13 (e_r e))) (IZR (m_21 (e_r e))) (IZR (m_22 (e_r e))).
Definition hkl_real (hkl : V3 Z) : V3 R := mkV (IZR (v_1 hkl)) (IZR (v_2 hkl)) (IZR (v_3 hkl)).
Definition dwf_call (hkl : V3 Z) (sthovl : R) (e : Op) (b_iso : R) (beta : Q6 R) : R :=
  calc_dwf (hkl_real hkl) sthovl b_iso beta (rows_0_8 e).

(** One atom: atom_fract_xyz, atom_occupancy, scat_length_neutron, atom_b_iso, atom_beta. *)
Record atom := mkA { at_xyz : V3 R; at_occ : R; at_b : C; at_biso : R; at_beta : Q6 R }.

(** l.145-155 calc_f_asym_a_by_pr (value) for one reflection and one atom: lists over the symmetry elements. *)
Definition calc_f_asym_a (mult occ : R) (pr_2 pr_1 : list C) (dwf : list R) : C :=
  div_n (sum_c (map (fun q : C * (C * R) => Cmult (fst q)
     (Cmult (Cmult (Cmult (fst (snd q)) (RtoC mult)) (RtoC occ)) (RtoC (snd (snd q)))))
     (combine pr_2 (combine pr_1 dwf)))) (length pr_2).
(** l.205-239 calc_f_by_f_asym_a_pr (value) for one reflection: lists over the atoms. *)
Definition calc_f_by_f_asym (f_asym_a b : list C) (pr_3 : C) (centrosymmetry : bool) (pr_4 : C) : C :=
  let f_asym := sum_c (map (fun q => Cmult (fst q) (snd q)) (combine b f_asym_a)) in
  let f_asym_conj := sum_c (map (fun q => Cmult (fst q) (Cconj (snd q))) (combine b f_asym_a)) in
  let f_h := Cmult pr_3 f_asym in
  let f_h_conj := Cmult (Cconj pr_3) f_asym_conj in
  if centrosymmetry then Cmult (RtoC (5 / 10)) (Cplus f_h (Cmult pr_4 f_h_conj)) else f_h.

(** The symmetry part of the arguments of calc_f_nucl. *)
Record symmetry := mkS { s_red : list Op; s_centro : bool; s_cp : V3 Z * Z; s_tr : list (V3 Z * Z) }.
(** l.343-370 (calc_f_nucl_by_dictionary): centrosymmetry_position is None when centrosymmetry is False. *)
Definition cp_arg (s : symmetry) : option (V3 Z * Z) := if s_centro s then Some (s_cp s) else None.
Definition full_of (s : symmetry) : list Op := calc_full_symm_elems_by_reduced (s_red s) (s_centro s) (s_cp s) (s_tr s).
(** l.371-375: symmetry given as the full list. *)
Definition by_full (l : list Op) : symmetry := mkS l false (mkV 0 0 0, 1)%Z [(mkV 0 0 0, 1)]%Z.

(** Arrays: l.451 multiplicity, l.457-481 pr_1..pr_4, l.486 sthovl, l.500 debye_waller_factor, l.516 f_asym, l.533 f_nucl. *)
Definition mult_arr (full : list Op) (atoms : list atom) : list nat :=
  map (fun a => calc_multiplicity full (get_atom_symm_elem (at_xyz a))) atoms.
Definition pr1_arr (hkls : list (V3 Z)) (s : symmetry) (atoms : list atom) : list (list (list C)) :=
  map (fun h => map (fun e => map (fun a => calc_pr1 h e (at_xyz a)) atoms) (s_red s)) hkls.
Definition pr2_arr (hkls : list (V3 Z)) (s : symmetry) : list (list C) := map (fun h => map (calc_pr2 h) (s_red s)) hkls.
Definition pr3_arr (hkls : list (V3 Z)) (s : symmetry) : list C := map (fun h => calc_pr3 h (s_tr s)) hkls.
Definition pr4_arr (hkls : list (V3 Z)) (s : symmetry) : list C := map (fun h => calc_pr4 h (cp_arg s)) hkls.
Definition sthovl_arr (hkls : list (V3 Z)) (uc : U6 R) : list R := map (fun h => calc_sthovl (hkl_real h) uc) hkls.
Definition dwf_arr (hkls : list (V3 Z)) (sthovl : list R) (s : symmetry) (atoms : list atom) : list (list (list R)) :=
  map (fun q => map (fun e => map (fun a => dwf_call (fst q) (snd q) e (at_biso a) (at_beta a)) atoms) (s_red s)) (combine hkls sthovl).
(** column j of a matrix given by rows *)
Definition col {A} (j : nat) (d : A) (m : list (list A)) : list A := map (fun r => nth j r d) m.
Definition f_asym_arr (mult : list nat) (dwf : list (list (list R))) (atoms : list atom)
    (pr_1 : list (list (list C))) (pr_2 : list (list C)) : list (list C) :=
  map (fun q : list C * (list (list C) * list (list R)) =>
    map (fun j => calc_f_asym_a (INR (nth j mult 0%nat)) (at_occ (nth j atoms (mkA (mkV 0 0 0) 0 (RtoC 0) 0 q_zero)))
           (fst q) (col j (RtoC 0) (fst (snd q))) (col j 0 (snd (snd q)))) (seq 0 (length atoms)))
    (combine pr_2 (combine pr_1 dwf)).
Definition f_nucl_arr (f_asym : list (list C)) (atoms : list atom) (pr_3 : list C) (s : symmetry) (pr_4 : list C) : list C :=
  map (fun q : list C * (C * C) => calc_f_by_f_asym (fst q) (map at_b atoms) (fst (snd q)) (s_centro s) (snd (snd q)))
      (combine f_asym (combine pr_3 pr_4)).

(** l.422-553 calc_f_nucl with dict_in_out=None. *)
Definition calc_f_nucl (hkls : list (V3 Z)) (s : symmetry) (uc : U6 R) (atoms : list atom) : list C :=
  let mult := mult_arr (full_of s) atoms in
  let pr_1 := pr1_arr hkls s atoms in
  let pr_2 := pr2_arr hkls s in
  let pr_3 := pr3_arr hkls s in
  let pr_4 := pr4_arr hkls s in
  let sthovl := sthovl_arr hkls uc in
  let dwf := dwf_arr hkls sthovl s atoms in
  let f_asym := f_asym_arr mult dwf atoms pr_1 pr_2 in
  f_nucl_arr f_asym atoms pr_3 s pr_4.

(** * The dictionary dict_in_out *)
Record cache := mkC { c_hkl : option (list (V3 Z)); c_full : option (list Op); c_mult : option (list nat);
  c_pr1 : option (list (list (list C))); c_pr2 : option (list (list C)); c_pr3 : option (list C); c_pr4 : option (list C);
  c_sthovl : option (list R); c_dwf : option (list (list (list R))); c_f_asym : option (list (list C)); c_f_nucl : option (list C) }.
Definition empty_cache : cache := mkC None None None None None None None None None None None.
Definition with_hkl (h : list (V3 Z)) : cache := mkC (Some h) None None None None None None None None None None.
(** The flags flag_unit_cell_parameters, flag_atom_fract_xyz, flag_atom_occupancy, flag_atom_b_iso, flag_atom_beta. *)
Record fflags := mkFl { f_uc : bool; f_xyz : bool; f_occ : bool; f_biso : bool; f_beta : bool }.
Definition hkl_dec (a b : list (V3 Z)) : {a = b} + {a <> b}.
Proof. apply list_eq_dec. intros [x y z] [x' y' z']. destruct (Z.eq_dec x x'), (Z.eq_dec y y'), (Z.eq_dec z z'); (left; congruence) || (right; congruence). Defined.
(** value taken from the dictionary when allowed, else computed *)
Definition fetch {A} (ok : bool) (c : option A) (v : A) : A := if ok then match c with Some x => x | None => v end else v.
(** l.422-553 calc_f_nucl with a dictionary.  Simplification: numpy.any(a != b) for arrays of different shapes is
    taken as True. *)
Definition calc_f_nucl_dict (use : bool) (fl : fflags) (d : cache) (hkls : list (V3 Z)) (s : symmetry) (uc : U6 R) (atoms : list atom)
  : list C * cache :=
  let d := if use then match c_hkl d with
             | Some h => if hkl_dec h hkls then d else with_hkl hkls
             | None => d end else d in
  let full := fetch true (c_full d) (full_of s) in
  let mult := fetch use (c_mult d) (mult_arr full atoms) in
  let full' := if use then match c_mult d with Some _ => c_full d | None => Some full end else Some full in
  let pr_1 := fetch (use && negb (f_xyz fl)) (c_pr1 d) (pr1_arr hkls s atoms) in
  let pr_2 := fetch use (c_pr2 d) (pr2_arr hkls s) in
  let pr_3 := fetch use (c_pr3 d) (pr3_arr hkls s) in
  let pr_4 := fetch use (c_pr4 d) (pr4_arr hkls s) in
  let flag_sthovl := f_uc fl in
  let sthovl := fetch (use && negb flag_sthovl) (c_sthovl d) (sthovl_arr hkls uc) in
  let flag_dwf := flag_sthovl || f_biso fl || f_beta fl in
  let dwf := fetch (use && negb flag_dwf) (c_dwf d) (dwf_arr hkls sthovl s atoms) in
  let flag_debye_waller := f_biso fl || f_beta fl in
  let flag_f_asym := flag_debye_waller || f_xyz fl in
  let f_asym := fetch (use && negb flag_f_asym) (c_f_asym d) (f_asym_arr mult dwf atoms pr_1 pr_2) in
  let f_nucl := fetch (use && negb flag_f_asym) (c_f_nucl d) (f_nucl_arr f_asym atoms pr_3 s pr_4) in
  (f_nucl, mkC (c_hkl d) full' (Some mult) (Some pr_1) (Some pr_2) (Some pr_3) (Some pr_4)
             (Some sthovl) (Some dwf) (Some f_asym) (Some f_nucl)).
