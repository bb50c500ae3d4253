(** Model of the Fourier coefficients of a density:
    /repo/cryspy/A_functions_base/mempy.py l.23-29 calc_symm_elem_points_by_index_points, l.31-75 calc_mem_col, l.77-131 calc_mem_chi,
    /repo/cryspy/procedure_mempy/mempy_by_dictionary.py l.308-317 (sums over the points).
    Floating point numbers are real numbers; the arrays over reflections, points and operations are lists, one entry at a time. *)
From Coq Require Import Reals ZArith List Bool.
From Coquelicot Require Import Complex.
From Verif Require Import Spec.Lin3 Spec.Cell Spec.Symm Spec.Scatter Model.MatrixOps Model.UnitCell Model.Symmetry Model.StructFactor Model.MagStruct Model.Mem.
Import ListNotations.
Open Scope list_scope.
Open Scope R_scope.

(** l.23-29, one point: the numerators and the common denominator *)
Definition calc_symm_elem_points_by_index_points (index_point n_abc : V3 Z) : V3 Z * Z :=
  let common_denominator := Z.lcm (Z.lcm (v_1 n_abc) (v_2 n_abc)) (v_3 n_abc) in
  (mkV (v_1 index_point * (common_denominator / v_1 n_abc)) (v_2 index_point * (common_denominator / v_2 n_abc))
       (v_3 index_point * (common_denominator / v_3 n_abc)), common_denominator)%Z.
(** l.59 fract_points *)
Definition fract_point (p : V3 Z * Z) : V3 R :=
  mkV (IZR (v_1 (fst p)) / IZR (snd p)) (IZR (v_2 (fst p)) / IZR (snd p)) (IZR (v_3 (fst p)) / IZR (snd p)).
(** l.61-70 phase_3d: one reflection, point and operation *)
Definition phase_3d (index_hkl : V3 Z) (p : V3 Z * Z) (e : Op) : C :=
  let rr := calc_m_v (m_real (e_r e)) (fract_point p) in
  let hh := v_add rr (mkV (IZR (v_1 (e_b e)) / IZR (e_d e)) (IZR (v_2 (e_b e)) / IZR (e_d e)) (IZR (v_3 (e_b e)) / IZR (e_d e))) in
  let a := -2 * PI * (v_1 hh * IZR (v_1 index_hkl) + v_2 hh * IZR (v_2 index_hkl) + v_3 hh * IZR (v_3 index_hkl)) in
  (cos a, sin a).
(** l.57, l.71-75, one reflection and point; [eq_ccs] and [mult] as found or computed before *)
Definition mem_col_value (h : V3 Z) (eq_ccs eh_ccs : V3 R) (full : list Op) (p : V3 Z * Z) (volume number mult : R) : V3 C :=
  let eh_perp_ccs := calc_vector_product_v1_v2_v1 eq_ccs eh_ccs in
  let phase_2d := csum (map (phase_3d h p) full) in
  let c i := Cdiv (Cmult (Cdiv (Cmult (RtoC (2695 / 10000)) (Cmult (Cmult phase_2d (RtoC mult)) (RtoC (vget eh_perp_ccs i)))) (RtoC (INR (List.length full)))) (RtoC volume)) (RtoC number) in
  mkV (c X1) (c X2) (c X3).
(** l.104-131, one reflection and point: m_perp for one operation, then the sum *)
Definition mem_chi_m_perp (uc : U6 R) (eq_ccs h_ccs : V3 R) (susceptibility : M3 R) (e : Op) : V3 R :=
  calc_vector_product_v1_v2_v1 eq_ccs (calc_m_v (calc_m1_m2_inv_m1 (calc_m_r_inv_m uc e) susceptibility) h_ccs).
Definition mem_chi_value (h : V3 Z) (uc : U6 R) (eq_ccs h_ccs : V3 R) (full : list Op) (p : V3 Z * Z) (susceptibility : M3 R) (volume number mult : R) : V3 C :=
  let s i := csum (map (fun e => Cmult (phase_3d h p e) (RtoC (vget (mem_chi_m_perp uc eq_ccs h_ccs susceptibility e) i))) full) in
  let c i := Cdiv (Cmult (Cmult (Cdiv (Cmult (RtoC (2695 / 10000)) (s i)) (RtoC (INR (List.length full)))) (RtoC mult)) (RtoC volume)) (RtoC number) in
  mkV (c X1) (c X2) (c X3).

(** ** the dictionary dict_in_out, l.35-55 (l.81-101) *)
Record mem_cache := mkMC { mc_hkl : option (list (V3 Z)); mc_eq : option (list (V3 R)); mc_mult : option (list R) }.
(** numpy.any(a != b); for lists of different lengths numpy raises or broadcasts, here they count as different *)
Definition v3z_eqb (a b : V3 Z) : bool := ((v_1 a =? v_1 b) && (v_2 a =? v_2 b) && (v_3 a =? v_3 b))%Z.
Fixpoint hkl_differ (a b : list (V3 Z)) : bool :=
  match a, b with [], [] => false | x :: a, y :: b => negb (v3z_eqb x y) || hkl_differ a b | _, _ => true end.
(** the multiplicities computed, l.52 *)
Definition computed_mult (full : list Op) (pts : list (V3 Z * Z)) : list R := map (fun p => INR (calc_multiplicity full (AtomPos (fst p) (snd p)))) pts.
Definition mem_prepare (use : bool) (d : mem_cache) (hkls : list (V3 Z)) (uc : U6 R) (full : list Op) (pts : list (V3 Z * Z)) (mult : option (list R))
  : list (V3 R) * list R * mem_cache :=
  (* l.36-41 *)
  let use1 := match mc_hkl d with Some old => if use then negb (hkl_differ old hkls) else false | None => use end in
  let hkl1 := match mc_hkl d with Some old => if use then if hkl_differ old hkls then hkls else old else hkls | None => hkls end in
  (* l.43-47 *)
  let eq := match mc_eq d with Some q => if use1 then q else map (fun h => calc_eq_ccs (hkl_real h) uc) hkls | None => map (fun h => calc_eq_ccs (hkl_real h) uc) hkls end in
  (* l.49-56 *)
  let m := match mult with Some m => m
           | None => match mc_mult d with Some m => if use1 then m else computed_mult full pts | None => computed_mult full pts end end in
  (eq, m, mkMC (Some hkl1) (Some eq) (Some m)).
(** l.31-75: rows are reflections, columns points *)
Definition calc_mem_col (use : bool) (d : mem_cache) (hkls : list (V3 Z)) (uc : U6 R) (eh : V3 R) (full : list Op) (pts : list (V3 Z * Z)) (volume number : R) (mult : option (list R))
  : list (list (V3 C)) * mem_cache :=
  let '(eq, m, d') := mem_prepare use d hkls uc full pts mult in
  (map (fun hq => map (fun pm => mem_col_value (fst hq) (snd hq) eh full (fst pm) volume number (snd pm)) (combine pts m)) (combine hkls eq), d').
(** l.77-131; [chi]: the susceptibility of each point *)
Definition calc_mem_chi (use : bool) (d : mem_cache) (hkls : list (V3 Z)) (uc : U6 R) (h_ccs : V3 R) (full : list Op) (pts : list (V3 Z * Z)) (chi : list (M3 R)) (volume number : R) (mult : option (list R))
  : list (list (V3 C)) * mem_cache :=
  let '(eq, m, d') := mem_prepare use d hkls uc full pts mult in
  (map (fun hq => map (fun pm => mem_chi_value (fst hq) uc (snd hq) h_ccs full (fst (fst pm)) (snd (fst pm)) volume number (snd pm)) (combine (combine pts chi) m)) (combine hkls eq), d').

(** ** mempy_by_dictionary.py l.308-317: f_m_perp of one reflection (component i), from its row of coefficients *)
Definition f_m_perp_col (plus minus : R) (density : list (R * R)) (row : list (V3 C)) (i : ix) : C :=
  csum (map (fun dc => Cmult (RtoC (plus * fst (fst dc) + minus * snd (fst dc))) (vget (snd dc) i)) (combine density row)).
Definition f_m_perp_chi (density : list R) (row : list (V3 C)) (i : ix) : C :=
  csum (map (fun dc => Cmult (RtoC (fst dc)) (vget (snd dc) i)) (combine density row)).
