(** Independent vocabulary for maximum-entropy densities and for distances to atoms in a crystal. *)
From Coq Require Import Reals List String.
From Verif Require Import Spec.Lin3 Spec.Cell Spec.Symm.
Import ListNotations.
Open Scope list_scope.
Open Scope R_scope.

(** A grid of [n] points divides a cell of volume [v]; a point of the asymmetric unit with multiplicity m stands for m
    points of the grid, each with the volume v / n.  The integral of a density over the cell. *)
Definition integral (v n : R) (density mult : list R) : R :=
  fold_right Rplus 0 (map (fun p => fst p * snd p * (v / n)) (combine density mult)).

(** A point assigned to an atom: density, multiplicity of the point, label and multiplicity of the atom. *)
Record mpoint := mkMP { mp_density : R; mp_mult : R; mp_label : string; mp_amult : R }.
(** The part of the integral which belongs to one atom called [a] (of its [mp_amult] equivalent ones). *)
Definition atom_integral (v n : R) (a : string) (l : list mpoint) : R :=
  fold_right Rplus 0 (map (fun p => mp_density p * mp_mult p * (v / n) / mp_amult p)
                          (filter (fun p => String.eqb (mp_label p) a) l)).

(** Distance in the crystal between two points given by fractional coordinates. *)
Definition distance_sq (uc : U6 R) (x y : ix -> R) : R :=
  sum3 (fun i => sum3 (fun j => metric uc i j * (x i - y i) * (x j - y j))).
(** The axes of the cell are orthogonal. *)
Definition orthogonal (uc : U6 R) : Prop := u_al uc = PI / 2 /\ u_be uc = PI / 2 /\ u_ga uc = PI / 2.
(** [y] is one of the atoms of the crystal generated from the atom at [x] by the operation [e] and lattice translations. *)
Definition image_of (e : Op) (x y : ix -> R) : Prop := same_point y (act e x).
