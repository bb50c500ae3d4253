(** Vectors and matrices of any size over the reals, as index functions (only indices below the size matter). *)
From Coq Require Import Reals List Arith.
Import ListNotations.
Open Scope R_scope.
Definition vec := nat -> R.
Definition mat := nat -> nat -> R.
(** f 0 + f 1 + ... + f (n-1) *)
Fixpoint sumn (n : nat) (f : nat -> R) : R := match n with O => 0 | S m => sumn m f + f m end.
Definition delta (i j : nat) : R := if Nat.eq_dec i j then 1 else 0.
(** products with inner size n *)
Definition mulmm (n : nat) (a b : mat) : mat := fun i j => sumn n (fun k => a i k * b k j).
Definition mulmv (n : nat) (a : mat) (v : vec) : vec := fun i => sumn n (fun k => a i k * v k).
Definition mulvm (n : nat) (v : vec) (a : mat) : vec := fun j => sumn n (fun k => v k * a k j).
Definition transpose (a : mat) : mat := fun i j => a j i.
(** b is the two-sided inverse of the n x n matrix a *)
Definition is_inverse (n : nat) (a b : mat) : Prop :=
  forall i j, (i < n)%nat -> (j < n)%nat -> mulmm n a b i j = delta i j /\ mulmm n b a i j = delta i j.
Fixpoint suml {A} (f : A -> R) (l : list A) : R := match l with [] => 0 | x :: m => f x + suml f m end.
