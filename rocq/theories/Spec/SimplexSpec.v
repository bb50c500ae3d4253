(** Independent vocabulary for quadratic functions and simplices. *)
From Coq Require Import Reals Arith.
From Verif Require Import Spec.LinN.
Open Scope R_scope.
(** c + g.(p - x) + (p - x) h (p - x) *)
Definition quadratic (n : nat) (x : vec) (c : R) (g : vec) (h : mat) (func : vec -> R) : Prop :=
  forall p, func p = c + sumn n (fun i => g i * (p i - x i)) + sumn n (fun i => sumn n (fun j => h i j * (p i - x i) * (p j - x j))).

(** Vertex number i + 1 lies above vertex 0 on the i-th axis, at distance r i. *)
Definition on_axes (n : nat) (vs : nat -> vec) (r : vec) : Prop :=
  forall i, (i < n)%nat -> 0 < r i /\ forall k, (k < n)%nat -> vs (S i) k = vs 0%nat k + (if Nat.eqb k i then r i else 0).
