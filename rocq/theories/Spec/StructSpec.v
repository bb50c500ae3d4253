(** Vocabulary for statements about the nuclear structure factor: what is assumed of the input, the content of the
    cell, and histories of calls on one dictionary. *)
From Coq Require Import Reals ZArith List Bool.
From Coquelicot Require Import Complex.
From Verif Require Import Spec.Lin3 Spec.Cell Spec.Symm Spec.Scatter Model.UnitCell Model.Symmetry Model.AtomFactors Model.StructFactor.
Import ListNotations.
Open Scope list_scope.
Open Scope R_scope.

(** Isotropic displacement: beta = 0. *)
Definition isotropic (a : atom) : Prop := at_beta a = q_zero.
(** Well-formed symmetry data. *)
Definition sym_ok (s : symmetry) : Prop :=
  (forall e, In e (s_red s) -> (0 < e_d e)%Z) /\ (forall t, In t (s_tr s) -> (0 < snd t)%Z) /\ (0 < snd (s_cp s))%Z /\
  s_red s <> [] /\ s_tr s <> [].

(** An anisotropic displacement tensor that has the symmetry of the operation. *)
Definition admissible (beta : Q6 R) (e : Op) : Prop := forall i j, conj (rot_real e) (qget beta) i j = qget beta i j.
(** The position (in units of 1/(3*10^6)) from which the code derives the site symmetry, and coordinates for which it is the true one. *)
Definition rounded (x : V3 R) : ix -> R := frac (atom_b (get_atom_symm_elem x)) (atom_d (get_atom_symm_elem x)).
Definition exact_coordinate (x : R) : Prop := exists n : Z, x = IZR n / 3000000 /\ n <> 999999%Z /\ n <> 1999998%Z /\ n <> 2000001%Z.
(** All the nuclei of one cell generated from one atom: scattering length times occupancy times exp(-B (sin theta/lambda)^2). *)
Definition sites (h : V3 Z) (uc : U6 R) (q : atom * list (ix -> R)) : list (C * (ix -> R)) :=
  map (fun p => (Cmult (at_b (fst q)) (RtoC (at_occ (fst q) * exp (- (at_biso (fst q) * (calc_sthovl (hkl_real h) uc) ^ 2)))), p)) (snd q).

(** * C36: histories of calls on one dictionary *)
Record call := mkCall { k_use : bool; k_fl : fflags; k_hkl : list (V3 Z); k_s : symmetry; k_uc : U6 R; k_atoms : list atom }.
Definition fresh (k : call) : list C := calc_f_nucl (k_hkl k) (k_s k) (k_uc k) (k_atoms k).
Definition do_call (d : cache) (k : call) : list C * cache := calc_f_nucl_dict (k_use k) (k_fl k) d (k_hkl k) (k_s k) (k_uc k) (k_atoms k).
Fixpoint run (d : cache) (ks : list call) : list (list C) :=
  match ks with [] => [] | k :: r => let '(v, d') := do_call d k in v :: run d' r end.
Definition refreshed (fl : fflags) : bool := f_xyz fl || f_biso fl || f_beta fl.
(** The change from call [p] to call [k] is announced by the flags of [k]. *)
Definition announced (p k : call) : Prop :=
  (f_xyz (k_fl k) = false -> map at_xyz (k_atoms k) = map at_xyz (k_atoms p)) /\
  (f_occ (k_fl k) = false -> map at_occ (k_atoms k) = map at_occ (k_atoms p)) /\
  (f_biso (k_fl k) = false -> map at_biso (k_atoms k) = map at_biso (k_atoms p)) /\
  (f_beta (k_fl k) = false -> map at_beta (k_atoms k) = map at_beta (k_atoms p)) /\
  (f_uc (k_fl k) = false -> k_uc k = k_uc p) /\
  map at_b (k_atoms k) = map at_b (k_atoms p).
Definition safe (p k : call) : Prop :=
  k_s k = k_s p /\
  (k_use k = false -> k_hkl k = k_hkl p) /\
  (k_use k = true -> k_hkl k = k_hkl p ->
     announced p k /\
     map (fun a => calc_multiplicity (full_of (k_s k)) (get_atom_symm_elem (at_xyz a))) (k_atoms k) =
     map (fun a => calc_multiplicity (full_of (k_s k)) (get_atom_symm_elem (at_xyz a))) (k_atoms p) /\
     (f_uc (k_fl k) = true \/ f_occ (k_fl k) = true -> f_xyz (k_fl k) = true \/ f_biso (k_fl k) = true \/ f_beta (k_fl k) = true)).
Fixpoint safe_history (p : call) (ks : list call) : Prop :=
  match ks with [] => True | k :: r => safe p k /\ safe_history k r end.

