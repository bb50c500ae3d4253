(** Vocabulary for the inverse Hessian theorems. *)
From Coq Require Import Reals List Arith String.
From Verif Require Import Spec.LinN.
Import ListNotations.
Open Scope R_scope.
Definition symmetric (n : nat) (h : mat) : Prop := forall i j, (i < n)%nat -> (j < n)%nat -> h i j = h j i.
Definition psd_n (n : nat) (h : mat) : Prop := forall v : vec, 0 <= sumn n (fun i => sumn n (fun j => v i * h i j * v j)).
(** a quadratic function of n parameters with second derivatives [a] *)
Definition quadratic (n : nat) (c : R) (g : vec) (a : mat) (p : vec) : R :=
  c + sumn n (fun i => g i * p i) + / 2 * sumn n (fun i => sumn n (fun j => p i * a i j * p j)).
(** v is the number which the table m has for the parameters called x and y; s is the number for the parameter x *)
Definition entry_of (labels : list string) (m : mat) (x y : string) (v : R) : Prop :=
  exists i j, (i < List.length labels)%nat /\ (j < List.length labels)%nat /\
    nth i labels EmptyString = x /\ nth j labels EmptyString = y /\ m i j = v.
Definition value_of (labels : list string) (s : vec) (x : string) (v : R) : Prop :=
  exists i, (i < List.length labels)%nat /\ nth i labels EmptyString = x /\ s i = v.
