(** Vocabulary for the refinement theorems. *)
From Coq Require Import Reals List Arith Ascii String.
From Verif Require Import Spec.LinN Model.Refine.
Import ListNotations.
Open Scope R_scope.
(** the linear algebra routine, whenever it returns, returns the inverse *)
Definition inv_ok (inv : nat -> mat -> option mat) : Prop := forall n a b, inv n a = Some b -> is_inverse n a b.
(** left-hand side of a linear constraint at a store *)
Definition cval (s : store) (c : constr) : R := suml (fun t => fst t * s (snd t)) c.
(** 1 when the i-th name of the list is a, else 0 *)
Definition named (l : list way) (i : nat) (a : way) : R :=
  match nth_error l i with Some w => if way_eq_dec w a then 1 else 0 | None => 0 end.
(** the sign a mark gives to its parameter: "x-" negates *)
Definition msign (m : string) : R := if endswith_minus m then -1 else 1.
(** quadratic model of chi-square around the evaluated point *)
Definition qmodel (e : chi_out) (p : vec) : R :=
  let n := List.length (e_names e) in
  sumn n (fun i => e_der e i * p i) + / 2 * sumn n (fun i => sumn n (fun j => p i * e_dder e i j * p j)).
