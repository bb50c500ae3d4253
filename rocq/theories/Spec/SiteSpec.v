(** Vocabulary for the constraints of an atomic site. *)
From Coq Require Import Reals List Bool.
From Verif Require Import Spec.Lin3 Spec.Cell Spec.Symm Spec.LinN.
Open Scope R_scope.

(** Remainder modulo 1. *)
Definition frac_part_of (x : R) : R := x - IZR (Int_part x).
(** Two points of the cell [0,1)^3 that differ by at least 0.0032 in one coordinate. *)
Definition clearly_apart (x y : ix -> R) : Prop := exists i, 32 / 10000 <= Rabs (frac_part_of (x i) - frac_part_of (y i)).
(** The operation leaves the point where it is, up to a lattice translation. *)
Definition fixes (e : Op) (v : V3 R) : Prop := same_point (act e (vget v)) (vget v).

(** A vector of n numbers is allowed by the n x n matrix P if P keeps it. *)
Definition allowed (n : nat) (p : mat) (q : vec) : Prop := forall i, (i < n)%nat -> mulmv n p q i = q i.
(** P is symmetric for the weighted scalar product sum_i w_i x_i y_i, and never lengthens the component of a vector along
    itself: x . P x <= x . x. *)
Definition symmetric_contraction (n : nat) (w : vec) (p : mat) : Prop :=
  (forall i, (i < n)%nat -> 0 < w i) /\
  (forall i j, (i < n)%nat -> (j < n)%nat -> w i * p i j = w j * p j i) /\
  (forall x : vec, sumn n (fun i => w i * x i * mulmv n p x i) <= sumn n (fun i => w i * x i * x i)).
(** f applied k times *)
Fixpoint times {A} (k : nat) (f : A -> A) (x : A) : A := match k with O => x | S k' => f (times k' f x) end.

(** A symmetric tensor (Cartesian axes) that every operation of the site leaves unchanged: A q = q A. *)
Definition site_tensor (uc_m : ix -> ix -> R) (site : Op -> Prop) (q : ix -> ix -> R) : Prop :=
  forall e A, site e -> in_frame uc_m e A -> forall i j,
    sum3 (fun k => A i k * q k j) = sum3 (fun k => q i k * A k j).
(** Sum of the absolute values of the six elements. *)
Definition abs_sum (q : Q6 R) : R := Rabs (q_11 q) + Rabs (q_22 q) + Rabs (q_33 q) + Rabs (q_12 q) + Rabs (q_13 q) + Rabs (q_23 q).
