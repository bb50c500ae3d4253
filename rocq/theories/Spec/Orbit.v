(** Independent vocabulary for orbits of reflections and of atoms. *)
From Coq Require Import Reals ZArith List.
From Verif Require Import Spec.Lin3 Spec.Cell Spec.Symm Spec.HklSpec.
Open Scope R_scope.

(** The rotations of the list and their negatives form a group, each listed once. *)
Definition laue_list (red : list Op) : Prop := rotation_group red true /\ ForallOrdPairs (fun e f => ~ up_to_sign true (e_r e) (e_r f)) red.
(** Two images of the point are the same modulo the lattice, or more than 1e-5 apart in one coordinate. *)
Definition clear_images (ops : list Op) (x : V3 R) : Prop := forall e f, In e ops -> In f ops ->
  same_point (act e (vget x)) (act f (vget x)) \/ exists i, forall n : Z, 1 / 100000 < Rabs (act e (vget x) i - act f (vget x) i - IZR n).
