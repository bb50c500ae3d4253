(** Distances between positions of a periodic structure. *)
From Coq Require Import Reals ZArith.
From Verif Require Import Spec.Lin3 Spec.Cell.
Open Scope R_scope.

(** the distance between the fractional position f2 and the translate of f1 by the lattice vector n *)
Definition image_distance (uc : U6 R) (f1 f2 : V3 R) (n : V3 Z) : R :=
  let d := fun i => vget f1 i - vget f2 i + IZR (vget n i) in sqrt (sum3 (fun i => sum3 (fun j => d i * metric uc i j * d j))).
