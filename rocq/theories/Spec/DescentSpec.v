(** One step of a descent (specification for C105), no reference to the code. *)
From Coq Require Import Reals.
Open Scope R_scope.
(** [follows k old new D]: compared with the old value rescaled by the common factor [k], the new value of a density is smaller where the
    derivative [D] of the cost is positive, larger where it is negative, and the same where it is zero (a density of zero may stay zero). *)
Definition follows (k old new D : R) : Prop :=
  (0 < old -> (0 < D -> new < k * old) /\ (D < 0 -> k * old < new)) /\ (D = 0 -> new = k * old).
