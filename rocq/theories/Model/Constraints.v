(** Model of cryspy/A_functions_base/symmetry_constraints.py and of the way its results are applied
    (structure_factor.py l.387-400, cl_1_crystal.py l.734-751). *)
From Coq Require Import Reals ZArith List.
From Verif Require Import Spec.Lin3 Spec.Symm Spec.Cell Model.MatrixOps Model.UnitCell Model.Symmetry.
Import ListNotations.
Open Scope R_scope.

(** numpy .sum(axis=...) over the symmetry elements. *)
Definition nsum {A} (f : A -> R) (l : list A) : R := fold_right (fun a s => f a + s) 0 l.
Definition size {A} (l : list A) : R := INR (length l).
(** numpy.mod(x, 1) for reals: x - floor x. *)
Definition mod1 (x : R) : R := x - IZR (Int_part x).
Definition m_real (m : M3 Z) : M3 R :=
  mkM (IZR (m_11 m)) (IZR (m_12 m)) (IZR (m_13 m)) (IZR (m_21 m)) (IZR (m_22 m)) (IZR (m_23 m))
      (IZR (m_31 m)) (IZR (m_32 m)) (IZR (m_33 m)).
Definition v_map2 {A B C} (f : A -> B -> C) (u : V3 A) (v : V3 B) : V3 C :=
  mkV (f (v_1 u) (v_1 v)) (f (v_2 u) (v_2 v)) (f (v_3 u) (v_3 v)).

(** symmetry_constraints.py l.6-20 calc_sc_fract_sc_b. *)
Definition calc_sc_fract_sc_b (symm_elems : list Op) (atom_fract_xyz : V3 R) : M3 R * V3 R :=
  let n := size symm_elems in
  let mean (f : Op -> Z) := nsum (fun e => IZR (f e)) symm_elems / n in
  let sc_fract :=
    mkM (mean (fun e => m_11 (e_r e))) (mean (fun e => m_12 (e_r e))) (mean (fun e => m_13 (e_r e)))
        (mean (fun e => m_21 (e_r e))) (mean (fun e => m_22 (e_r e))) (mean (fun e => m_23 (e_r e)))
        (mean (fun e => m_31 (e_r e))) (mean (fun e => m_32 (e_r e))) (mean (fun e => m_33 (e_r e))) in
  let b_s e := mkV (IZR (v_1 (e_b e)) / (n * IZR (e_d e))) (IZR (v_2 (e_b e)) / (n * IZR (e_d e))) (IZR (v_3 (e_b e)) / (n * IZR (e_d e))) in
  let x := mkV (mod1 (v_1 atom_fract_xyz)) (mod1 (v_2 atom_fract_xyz)) (mod1 (v_3 atom_fract_xyz)) in
  let r_s_x e := calc_m_v (m_real (e_r e)) x in
  let n_s e := v_map2 Rminus (v_map2 Rminus x (r_s_x e)) (b_s e) in
  let sc_b := mkV (nsum (fun e => v_1 (b_s e) + v_1 (n_s e)) symm_elems / n)
                  (nsum (fun e => v_2 (b_s e) + v_2 (n_s e)) symm_elems / n)
                  (nsum (fun e => v_3 (b_s e) + v_3 (n_s e)) symm_elems / n) in
  (sc_fract, sc_b).
(** structure_factor.py l.387-389 (and l.605, 852, 1139, 1354, cl_1_crystal.py l.1036): the position used. *)
Definition apply_sc_fract (sc : M3 R * V3 R) (xyz : V3 R) : V3 R :=
  let x := mkV (mod1 (v_1 xyz)) (mod1 (v_2 xyz)) (mod1 (v_3 xyz)) in
  v_map2 Rplus (calc_m_v (fst sc) x) (snd sc).
(** cl_1_crystal.py l.734-745: the elements whose flag is set for the atom. *)
Definition site_elems (full_symm_elems : list Op) (atom : AtomElem) : list Op :=
  filter (fun e => calc_symm_flags e atom) full_symm_elems.

(** symmetry_constraints.py l.23-40 calc_sc_beta: 6x6 operator (rows: output element). *)
Definition r_r_t (m : M3 R) : Q6 (Q6 R) :=
  let '(mkM r_11 r_12 r_13 r_21 r_22 r_23 r_31 r_32 r_33) := m in
  mkQ (mkQ (r_11^2) (r_12^2) (r_13^2) (2*r_11*r_12) (2*r_11*r_13) (2*r_12*r_13))
      (mkQ (r_21^2) (r_22^2) (r_23^2) (2*r_21*r_22) (2*r_21*r_23) (2*r_22*r_23))
      (mkQ (r_31^2) (r_32^2) (r_33^2) (2*r_31*r_32) (2*r_31*r_33) (2*r_32*r_33))
      (mkQ (r_11*r_21) (r_12*r_22) (r_13*r_23) (r_11*r_22 + r_12*r_21) (r_11*r_23 + r_13*r_21) (r_12*r_23 + r_13*r_22))
      (mkQ (r_11*r_31) (r_12*r_32) (r_13*r_33) (r_11*r_32 + r_12*r_31) (r_11*r_33 + r_13*r_31) (r_12*r_33 + r_13*r_32))
      (mkQ (r_21*r_31) (r_22*r_32) (r_23*r_33) (r_21*r_32 + r_22*r_31) (r_21*r_33 + r_23*r_31) (r_22*r_33 + r_23*r_32)).
(** averaging a row of six numbers over the elements *)
Definition q_mean {A} (f : A -> Q6 R) (l : list A) : Q6 R :=
  let n := size l in
  mkQ (nsum (fun e => q_11 (f e)) l / n) (nsum (fun e => q_22 (f e)) l / n) (nsum (fun e => q_33 (f e)) l / n)
      (nsum (fun e => q_12 (f e)) l / n) (nsum (fun e => q_13 (f e)) l / n) (nsum (fun e => q_23 (f e)) l / n).
Definition calc_sc_beta (symm_elems : list Op) : Q6 (Q6 R) :=
  let row g := q_mean (fun e => g (r_r_t (m_real (e_r e)))) symm_elems in
  mkQ (row (fun r => q_11 r)) (row (fun r => q_22 r)) (row (fun r => q_33 r)) (row (fun r => q_12 r)) (row (fun r => q_13 r)) (row (fun r => q_23 r)).
(** (sc*expand_dims(q, axis=0)).sum(axis=1), e.g. structure_factor.py l.400. *)
Definition apply6 (sc : Q6 (Q6 R)) (q : Q6 R) : Q6 R :=
  mkQ (q_row_dot (q_11 sc) q) (q_row_dot (q_22 sc) q) (q_row_dot (q_33 sc) q)
      (q_row_dot (q_12 sc) q) (q_row_dot (q_13 sc) q) (q_row_dot (q_23 sc) q).

(** symmetry_constraints.py l.42-70 calc_sc_chi: elements with their theta (1 when the array has 13 rows). *)
Definition q_scale (t : R) (r : Q6 R) : Q6 R :=
  mkQ (q_11 r * t) (q_22 r * t) (q_33 r * t) (q_12 r * t) (q_13 r * t) (q_23 r * t).
Definition calc_sc_chi (symm_elems : list (Op * Z)) (uc : U6 R) : Q6 (Q6 R) :=
  let m_m := calc_m_m uc in
  let r_ccs (e : Op * Z) := calc_m1_m2_inv_m1 m_m (m_real (e_r (fst e))) in
  let res e := calc_mm_as_m_q_inv_m (r_ccs e) in
  let mm g := q_mean (fun e => q_scale (IZR (snd e)) (g (res e))) symm_elems in
  mkQ (mm (fun r => m_11 r)) (mm (fun r => m_22 r)) (mm (fun r => m_33 r)) (mm (fun r => m_12 r)) (mm (fun r => m_13 r)) (mm (fun r => m_23 r)).
(** symmetry_constraints.py l.72-93 calc_sc_chi_full: 9x9 operator. *)
Definition m_scale (t : R) (r : M3 R) : M3 R :=
  mkM (m_11 r * t) (m_12 r * t) (m_13 r * t) (m_21 r * t) (m_22 r * t) (m_23 r * t) (m_31 r * t) (m_32 r * t) (m_33 r * t).
Definition m_mean {A} (f : A -> M3 R) (l : list A) : M3 R :=
  let n := size l in
  mkM (nsum (fun e => m_11 (f e)) l / n) (nsum (fun e => m_12 (f e)) l / n) (nsum (fun e => m_13 (f e)) l / n)
      (nsum (fun e => m_21 (f e)) l / n) (nsum (fun e => m_22 (f e)) l / n) (nsum (fun e => m_23 (f e)) l / n)
      (nsum (fun e => m_31 (f e)) l / n) (nsum (fun e => m_32 (f e)) l / n) (nsum (fun e => m_33 (f e)) l / n).
Definition calc_sc_chi_full (symm_elems : list (Op * Z)) (uc : U6 R) : M3 (M3 R) :=
  let m_m := calc_m_m uc in
  let r_ccs (e : Op * Z) := calc_m1_m2_inv_m1 m_m (m_real (e_r (fst e))) in
  let res e := calc_mm_as_m1_m2_inv_m1 (r_ccs e) in
  let mm g := m_mean (fun e => m_scale (IZR (snd e)) (g (res e))) symm_elems in
  mkM (mm (fun r => m_11 r)) (mm (fun r => m_12 r)) (mm (fun r => m_13 r)) (mm (fun r => m_21 r)) (mm (fun r => m_22 r)) (mm (fun r => m_23 r))
      (mm (fun r => m_31 r)) (mm (fun r => m_32 r)) (mm (fun r => m_33 r)).
(** mempy.py: (scm_chi * expand_dims(chi, axis=0)).sum(axis=1) on nine components. *)
Definition apply9 (sc : M3 (M3 R)) (m : M3 R) : M3 R :=
  mkM (m_row_dot (m_11 sc) m) (m_row_dot (m_12 sc) m) (m_row_dot (m_13 sc) m) (m_row_dot (m_21 sc) m) (m_row_dot (m_22 sc) m)
      (m_row_dot (m_23 sc) m) (m_row_dot (m_31 sc) m) (m_row_dot (m_32 sc) m) (m_row_dot (m_33 sc) m).

(** cl_1_crystal.py l.753-754: refinement flags passed through the constraint matrix (calc_m_v on 0/1 values,
    astype(bool) is "different from 0"). *)
Definition constr_flags (sc_fract : M3 R) (flags : V3 bool) : V3 bool :=
  let b2r (b : bool) := if b then 1 else 0 in
  let v := calc_m_v sc_fract (mkV (b2r (v_1 flags)) (b2r (v_2 flags)) (b2r (v_3 flags))) in
  let nz (x : R) := if Req_EM_T x 0 then false else true in
  mkV (nz (v_1 v)) (nz (v_2 v)) (nz (v_3 v)).
