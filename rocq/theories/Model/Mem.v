(** Model of the density normalisation and of the partition in basins:
    /repo/cryspy/A_functions_base/mempy.py l.134-177, l.226-308.
    Floating point numbers are real numbers; numpy.mod(x, 1.) is x - floor(x).  Vectorised calls over grid points are
    modelled point by point. *)
From Coq Require Import Reals List String Bool Arith ZArith.
From Verif Require Import Spec.Lin3 Spec.Cell Spec.Symm Spec.Density Model.MatrixOps Model.UnitCell Model.Background.
Import ListNotations.
Open Scope list_scope.
Open Scope R_scope.

(** array.sum() *)
Definition asum (l : list R) : R := fold_right Rplus 0 l.

(** l.134-140 renormailize_density_col (one row of density_col). *)
Definition renorm_col_row (density mult : list R) (volume points : R) : list R :=
  let coeff := points / volume in
  let s := asum (map (fun p => fst p * snd p) (combine density mult)) in
  map (fun d => coeff * d / s) density.
(** l.134-140: the array has one row per spin direction. *)
Definition renormailize_density_col (density_col : list (list R)) (mult : list R) (volume points : R) : list (list R) :=
  map (fun row => renorm_col_row row mult volume points) density_col.
(** l.143-147 get_uniform_density_col. *)
Definition get_uniform_density_col (mult : list R) (volume points : R) : list (list R) :=
  let ones := map (fun _ => 1) mult in
  renormailize_density_col [ones; ones] mult volume points.

(** l.150-169 renormailize_density_chi.  The four arrays point_density, point_multiplicity, point_atom_label,
    point_atom_multiplicity have one entry per point: a list of records.  Simplification: numpy.unique sorts the
    labels, here they are in order of (last) appearance; each label is treated once in both. *)
Definition prod_den_mult (p : mpoint) : R := mp_density p * mp_mult p / mp_amult p.
Definition chi_step (pts : list mpoint) (coeff : R) (a : string) (norm : list R) : list R :=
  let flag_1d := map (fun p => String.eqb (mp_label p) a) pts in
  let m_at := asum (map prod_den_mult (filter (fun p => String.eqb (mp_label p) a) pts)) in
  if existsb (fun b => b) flag_1d then
    map (fun q => if fst q : bool then snd q * (coeff / m_at) else snd q) (combine flag_1d norm)
  else norm.
Definition renormailize_density_chi (pts : list mpoint) (volume points : R) : list R :=
  let coeff := points / volume in
  let atom_label := nodup string_dec (map mp_label pts) in
  fold_left (fun norm a => chi_step pts coeff a norm) atom_label (map mp_density pts).
(** l.172-178 get_uniform_density_chi. *)
Definition set_density (l : list R) (pts : list mpoint) : list mpoint :=
  map (fun q => mkMP (fst q) (mp_mult (snd q)) (mp_label (snd q)) (mp_amult (snd q))) (combine l pts).
Definition get_uniform_density_chi (pts : list mpoint) (volume points : R) : list R :=
  renormailize_density_chi (set_density (map (fun _ => 1) pts) pts) volume points.

(** numpy.mod(x, 1.) *)
Definition mod1 (x : R) : R := x - IZR (Int_part x).
Definition v_map (f : R -> R) (v : V3 R) : V3 R := mkV (f (v_1 v)) (f (v_2 v)) (f (v_3 v)).
Definition v_sub (a b : V3 R) : V3 R := mkV (v_1 a - v_1 b) (v_2 a - v_2 b) (v_3 a - v_3 b).
Definition v_add (a b : V3 R) : V3 R := mkV (v_1 a + v_1 b) (v_2 a + v_2 b) (v_3 a + v_3 b).
Definition m_real (m : M3 Z) : M3 R :=
  let '(mkM a b c d e f g h i) := m in mkM (IZR a) (IZR b) (IZR c) (IZR d) (IZR e) (IZR f) (IZR g) (IZR h) (IZR i).

(** l.251-253: flag_g_half, flag_sign, diff_fract_1 (one component). *)
Definition wrap (d : R) : R :=
  if Rlt_dec (1 / 2) (Rabs d) then d + (if Rle_dec 0 d then -1 else 1) else d.
(** l.241-248: fract_atom_s for one atom and one element. *)
Definition fract_atom_s (e : Op) (atom : V3 R) : V3 R :=
  let fract_b := mkV (IZR (v_1 (e_b e)) / IZR (e_d e)) (IZR (v_2 (e_b e)) / IZR (e_d e)) (IZR (v_3 (e_b e)) / IZR (e_d e)) in
  v_map mod1 (v_add (calc_m_v (m_real (e_r e)) atom) fract_b).
(** l.255-258: dist_sq_3d for one point, atom and element. *)
Definition dist_sq_3d (uc : U6 R) (p atom : V3 R) (e : Op) : R :=
  let diff_fract_1 := v_map wrap (v_sub (v_map mod1 p) (fract_atom_s e atom)) in
  let d := calc_m_v (calc_m_m uc) diff_fract_1 in
  Rsqr (v_1 d) + Rsqr (v_2 d) + Rsqr (v_3 d).
(** numpy.argmin: first index of the minimum. *)
Fixpoint argmin_from (best : R) (ibest i : nat) (l : list R) : nat :=
  match l with
  | [] => ibest
  | x :: r => if Rlt_dec x best then argmin_from x i (S i) r else argmin_from best ibest (S i) r
  end.
Definition argmin (l : list R) : nat := match l with [] => 0 | x :: r => argmin_from x 0 1 r end.
(** l.226-269 calc_index_atom_symmetry_closest_to_fract_xyz for one point.
    None: numpy.min of an array without elements raises ValueError. *)
Definition closest (uc : U6 R) (p : V3 R) (atoms : list (V3 R)) (symms : list Op) : option (nat * nat * R) :=
  match atoms, symms with
  | [], _ | _, [] => None
  | _, _ =>
    let over_sym := map (fun a => lmin (map (fun e => dist_sq_3d uc p a e) symms)) atoms in
    let over_at := map (fun e => lmin (map (fun a => dist_sq_3d uc p a e) atoms)) symms in
    let ind_at := argmin over_sym in
    let ind_sym := argmin over_at in
    let dist_sq := lmin over_sym in
    Some (ind_at, ind_sym, sqrt dist_sq)
  end.

(** l.271-308 form_basins.  An atom is (label, fract_xyz, multiplicity).  The result lists flag_chi and, for the points
    whose atom is magnetic, label, multiplicity, distance and element. *)
Definition opt_all {A} (l : list (option A)) : option (list A) :=
  fold_right (fun o acc => match o, acc with Some x, Some r => Some (x :: r) | _, _ => None end) (Some []) l.
Definition id_op : Op := mkE (mkV 0 0 0)%Z 1%Z (mkM 1 0 0 0 1 0 0 0 1)%Z.
Definition basin_point (uc : U6 R) (symms : list Op) (atoms : list (string * V3 R * R)) (mag : list string) (p : V3 R)
  : option (bool * (string * R * R * Op)) :=
  match closest uc p (map (fun a => snd (fst a)) atoms) symms with
  | None => None
  | Some (ind_at, ind_sym, dist) =>
    let '(label, _, mult) := nth ind_at atoms (EmptyString, mkV 0 0 0, 0) in
    Some (existsb (String.eqb label) mag, (label, mult, dist, nth ind_sym symms id_op))
  end.
Definition form_basins (uc : U6 R) (symms : list Op) (atoms : list (string * V3 R * R)) (mag : list string) (points : list (V3 R))
  : option (list bool * list (string * R * R * Op)) :=
  match opt_all (map (basin_point uc symms atoms mag) points) with
  | None => None
  | Some l => Some (map fst l, map snd (filter fst l))
  end.
