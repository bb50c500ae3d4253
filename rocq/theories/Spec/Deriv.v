(** Partial derivatives with respect to one stored element, through Coquelicot's [is_derive]. *)
From Coq Require Import Reals.
From Coquelicot Require Import Coquelicot.
From Verif Require Import Spec.Lin3.
Open Scope R_scope.

(** d is the derivative of f with respect to element (k,l) of the matrix, at m. *)
Definition is_partial_m (f : M3 R -> R) (m : M3 R) (k l : ix) (d : R) : Prop :=
  is_derive (fun t : R => f (mset m k l t)) (mget m k l) d.
(** ... with respect to the stored element representing (k,l) and (l,k) of the symmetric tensor. *)
Definition is_partial_q (f : Q6 R -> R) (q : Q6 R) (k l : ix) (d : R) : Prop :=
  is_derive (fun t : R => f (qset q k l t)) (qget q k l) d.
Definition is_partial_v (f : V3 R -> R) (v : V3 R) (k : ix) (d : R) : Prop :=
  is_derive (fun t : R => f (vset v k t)) (vget v k) d.
