(* Specification of interpolation in a table: written without reference to the
   model of the code. *)
Require Import Reals Lra List.
Import ListNotations.
Local Open Scope R_scope.

(* The straight line through (x0,y0) and (x1,y1), evaluated at t. *)
Definition line (x0 y0 x1 y1 t : R) : R := y0 + (y1 - y0) * ((t - x0) / (x1 - x0)).

(* Strictly increasing list. *)
Definition increasing (xs : list R) : Prop :=
  forall i, (S i < length xs)%nat -> nth i xs 0 < nth (S i) xs 0.

(* The line through table points i and i+1. *)
Definition seg (xs : list R) (f : nat -> R) (i : nat) (t : R) : R :=
  line (nth i xs 0) (f i) (nth (S i) xs 0) (f (S i)) t.

(* v is the value at t of the polygonal line through the points (xs_i, f i),
   continued LINEARLY outside of the table. *)
Definition interp_linear (xs : list R) (f : nat -> R) (t v : R) : Prop :=
  (exists i, (S i < length xs)%nat /\ nth i xs 0 <= t <= nth (S i) xs 0 /\ v = seg xs f i t)
  \/ (t <= nth 0 xs 0 /\ v = seg xs f 0 t)
  \/ (nth (length xs - 1) xs 0 <= t /\ v = seg xs f (length xs - 2) t).

(* The same, continued by a CONSTANT outside of the table. *)
Definition interp_const (xs : list R) (f : nat -> R) (t v : R) : Prop :=
  (exists i, (S i < length xs)%nat /\ nth i xs 0 <= t <= nth (S i) xs 0 /\ v = seg xs f i t)
  \/ (t <= nth 0 xs 0 /\ v = f 0%nat)
  \/ (nth (length xs - 1) xs 0 <= t /\ v = f (length xs - 1)%nat).

(* Bilinear interpolation in a rectangular table F i j given at (xs_i, zs_j),
   continued by constants. *)
Definition interp_bilinear (xs zs : list R) (F : nat -> nat -> R) (t s v : R) : Prop :=
  exists g : nat -> R,
    (forall i, (i < length xs)%nat -> interp_const zs (F i) s (g i)) /\
    interp_const xs g t v.

(* An n x m table. *)
Definition rect (n m : nat) (s : list (list R)) : Prop :=
  length s = n /\ forall r, In r s -> length r = m.
