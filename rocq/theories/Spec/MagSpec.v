(** Vocabulary for statements about the magnetic structure factors: the magnetic ions of one cell, their induced or
    ordered moments, the projection perpendicular to the scattering vector, and histories of calls. *)
From Coq Require Import Reals ZArith List Bool.
From Coquelicot Require Import Coquelicot.
From Verif Require Import Spec.Lin3 Spec.Cell Spec.Symm Spec.Scatter Model.UnitCell Model.Symmetry Model.AtomFactors Model.StructFactor Model.MagStruct.
Import ListNotations.
Open Scope list_scope.
Open Scope R_scope.

(** Isotropic displacement: beta = 0. *)
Definition p_isotropic (a : para) : Prop := pa_beta a = q_zero.
(** The susceptibility of the atom with the constraints of its site: sc_chi (rows) applied to the six numbers. *)
Definition site_chi (a : para) : Q6 R :=
  mkQ (q_row_dot (q_11 (pa_sc a)) (pa_chi a)) (q_row_dot (q_22 (pa_sc a)) (pa_chi a)) (q_row_dot (q_33 (pa_sc a)) (pa_chi a))
      (q_row_dot (q_12 (pa_sc a)) (pa_chi a)) (q_row_dot (q_13 (pa_sc a)) (pa_chi a)) (q_row_dot (q_23 (pa_sc a)) (pa_chi a)).
(** The ions of one cell generated from the atom [a]: every position once, and the tensor of the ion at the position reached by
    an operation is the tensor of [a] carried by it: t = rho chi rho^-1, where rho is the operation in Cartesian axes. *)
Definition ions_of (l : list Op) (uc : U6 R) (a : para) (ions : list ((ix -> R) * (ix -> ix -> R))) : Prop :=
  is_orbit l (vget (pa_xyz a)) (map fst ions) /\
  forall e rho p t, In e l -> In (p, t) ions -> same_point (act e (vget (pa_xyz a))) p -> in_frame (mget (calc_m_m uc)) e rho ->
    forall i j, sum3 (fun k => t i k * rho k j) = sum3 (fun k => rho i k * qget (site_chi a) k j).
(** 0.2695 f(s) occ exp(-B s^2), s = sin theta / lambda. *)
Definition p_amplitude (only : bool) (h : V3 Z) (uc : U6 R) (a : para) : R :=
  let s := calc_sthovl (hkl_real h) uc in
  2695 / 10000 * calc_form_factor only s (pa_lande a) (pa_kappa a) (pa_j0 a) (pa_j2 a) * pa_occ a * exp (- (pa_biso a * s ^ 2)).
(** Element (i,j) of the contributions of the ions. *)
Definition p_sites (only : bool) (h : V3 Z) (uc : U6 R) (i j : ix) (q : para * list ((ix -> R) * (ix -> ix -> R))) : list (C * (ix -> R)) :=
  map (fun pt => (RtoC (p_amplitude only h uc (fst q) * snd pt i j), fst pt)) (snd q).
(** Product of a real and a complex matrix or vector. *)
Definition csum3 (f : ix -> C) : C := Cplus (Cplus (f X1) (f X2)) (f X3).
(** Product of a real vector with a complex one, and |v|^2. *)
Definition cdot (q : ix -> R) (v : ix -> C) : C := csum3 (fun i => Cmult (RtoC (q i)) (v i)).
Definition cnorm2 (v : ix -> C) : R := sum3 (fun i => (Cmod (v i)) ^ 2).

(** * Histories of calls on one dictionary *)
Record mcall := mkMcall { m_use : bool; m_fl : mflags; m_only : bool; m_hkl : list (V3 Z); m_s : symmetry; m_uc : U6 R; m_atoms : list para }.
(** The tensors a call would give without stored data. *)
Definition mfresh (k : mcall) : list (M3 C) := calc_sft_ccs (m_only k) (m_hkl k) (m_s k) (m_uc k) (m_atoms k).
Definition do_mcall (d : mcache) (k : mcall) : list (M3 C) * mcache :=
  calc_sft_ccs_dict (m_use k) (m_fl k) (m_only k) d (m_hkl k) (m_s k) (m_uc k) (m_atoms k).
Fixpoint mrun (d : mcache) (ks : list mcall) : list (list (M3 C)) :=
  match ks with [] => [] | k :: r => let '(v, d') := do_mcall d k in v :: mrun d' r end.
(** Every change from the call [p] to the call [k] is announced by a flag of [k]; the site constraints and the radial
    integrals, for which there is no flag, are unchanged. *)
Definition m_announced (p k : mcall) : Prop :=
  (g_uc (m_fl k) = false -> m_uc k = m_uc p) /\
  (g_xyz (m_fl k) = false -> map pa_xyz (m_atoms k) = map pa_xyz (m_atoms p)) /\
  (g_occ (m_fl k) = false -> map pa_occ (m_atoms k) = map pa_occ (m_atoms p)) /\
  (g_chi (m_fl k) = false -> map pa_chi (m_atoms k) = map pa_chi (m_atoms p)) /\
  (g_biso (m_fl k) = false -> map pa_biso (m_atoms k) = map pa_biso (m_atoms p)) /\
  (g_beta (m_fl k) = false -> map pa_beta (m_atoms k) = map pa_beta (m_atoms p)) /\
  (g_lande (m_fl k) = false -> map pa_lande (m_atoms k) = map pa_lande (m_atoms p)) /\
  (g_kappa (m_fl k) = false -> map pa_kappa (m_atoms k) = map pa_kappa (m_atoms p)) /\
  map pa_sc (m_atoms k) = map pa_sc (m_atoms p) /\ map pa_j0 (m_atoms k) = map pa_j0 (m_atoms p) /\ map pa_j2 (m_atoms k) = map pa_j2 (m_atoms p).
Definition m_some_flag (fl : mflags) : Prop :=
  g_uc fl = true \/ g_xyz fl = true \/ g_occ fl = true \/ g_chi fl = true \/ g_biso fl = true \/ g_beta fl = true \/ g_lande fl = true \/ g_kappa fl = true.
(** The call [k] may follow the call [p]: for other reflections nothing is asked; for the same reflections the symmetry is the
    same, and when stored data are used the changes are announced, the multiplicities are the same, and a change of
    flag_only_orbital comes with some flag. *)
Definition m_safe (p k : mcall) : Prop :=
  m_hkl k = m_hkl p -> m_s k = m_s p /\
    (m_use k = true ->
     m_announced p k /\
     map (fun a => calc_multiplicity (full_of (m_s k)) (get_atom_symm_elem (pa_xyz a))) (m_atoms k) =
     map (fun a => calc_multiplicity (full_of (m_s k)) (get_atom_symm_elem (pa_xyz a))) (m_atoms p) /\
     (m_only k = m_only p \/ m_some_flag (m_fl k))).
Fixpoint m_safe_history (p : mcall) (ks : list mcall) : Prop :=
  match ks with [] => True | k :: r => m_safe p k /\ m_safe_history k r end.

(** * Derivatives over the susceptibility *)
(** The atom with the element kl of its susceptibility replaced. *)
Definition set_chi (a : para) (k l : ix) (t : R) : para :=
  mkP (pa_xyz a) (pa_occ a) (qset (pa_chi a) k l t) (pa_sc a) (pa_biso a) (pa_beta a) (pa_lande a) (pa_kappa a) (pa_j0 a) (pa_j2 a).
(** [d] is the derivative over the element kl of the susceptibility of the atom [a] (among the others [pre], [post]) of the
    element ij of the tensor of the reflection [h]. *)
Definition is_tensor_derivative (only : bool) (h : V3 Z) (s : symmetry) (uc : U6 R) (pre : list para) (a : para) (post : list para) (k l i j : ix) (d : C) : Prop :=
  exists F : R -> C, (forall t, exists T, calc_sft_ccs only [h] s uc (pre ++ set_chi a k l t :: post) = [T] /\ F t = mget T i j) /\
    is_derive (fun t : R => Re (F t)) (qget (pa_chi a) k l) (Re d) /\ is_derive (fun t : R => Im (F t)) (qget (pa_chi a) k l) (Im d).

(** * Ordered moments *)
Definition mo_isotropic (a : moment) : Prop := mo_beta a = q_zero.
(** The moment, given by its components along the unit vectors of a, b and c, in Cartesian axes. *)
Definition cartesian_moment (uc : U6 R) (m : V3 R) (k : ix) : R := sum3 (fun l => vget m l / axis_len uc l * mget (calc_m_m uc) k l).
(** The ions of one cell generated from the atom [a] by the operations with time reversal [els]: every position once; the moment
    at the position reached by (e, theta) is theta det(R) rho m: axial vector, reversed when theta = -1. *)
Definition moments_of (els : list (Op * Z)) (uc : U6 R) (a : moment) (ions : list ((ix -> R) * (ix -> R))) : Prop :=
  is_orbit (map fst els) (vget (mo_xyz a)) (map fst ions) /\
  forall e th rho p v, In (e, th) els -> In (p, v) ions -> same_point (act e (vget (mo_xyz a))) p -> in_frame (mget (calc_m_m uc)) e rho ->
    forall i, v i = IZR th * det3 (rot_real e) * sum3 (fun k => rho i k * cartesian_moment uc (mo_m a) k).
Definition mo_amplitude (only : bool) (h : V3 Z) (uc : U6 R) (a : moment) : R :=
  let s := calc_sthovl (hkl_real h) uc in
  2695 / 10000 * calc_form_factor only s (mo_lande a) (mo_kappa a) (mo_j0 a) (mo_j2 a) * mo_occ a * exp (- (mo_biso a * s ^ 2)).
Definition mo_sites (only : bool) (h : V3 Z) (uc : U6 R) (i : ix) (q : moment * list ((ix -> R) * (ix -> R))) : list (C * (ix -> R)) :=
  map (fun pv => (RtoC (mo_amplitude only h uc (fst q) * snd pv i), fst pv)) (snd q).
(** The operations mix only axes of equal length. *)
Definition axes_matched (uc : U6 R) (l : list Op) : Prop :=
  forall e i j, In e l -> mget (e_r e) i j <> 0%Z -> axis_len uc i = axis_len uc j.
