(** Zeros of a function on an interval. *)
From Coq Require Import Reals.
Open Scope R_scope.
Definition cont (f : R -> R) (a b : R) : Prop := forall x, a <= x <= b -> continuity_pt f x.
(** strictly increasing or strictly decreasing *)
Definition monotone (f : R -> R) (u v : R) : Prop :=
  (forall x y, u <= x -> x < y -> y <= v -> f x < f y) \/ (forall x y, u <= x -> x < y -> y <= v -> f y < f x).
(** [r] is a zero of f in [a, b] up to [tol] *)
Definition zero_within (f : R -> R) (a b tol r : R) : Prop := exists z, a <= z <= b /\ f z = 0 /\ Rabs (r - z) <= tol.
