(** Independent vocabulary for the object model: values of attributes, attribute dictionaries, names of variables. *)
From Coq Require Import QArith List String Bool.
Import ListNotations.
Open Scope string_scope.

(** Values an attribute may hold.  VNum is a finite number (int or float), VNan the float nan, VOther any other object, by identity. *)
Inductive value := VNone | VBool (b : bool) | VNum (x : Q) | VNan | VStr (s : string) | VOther (id : nat).
(** The __dict__ of an object: no name twice. *)
Definition dict := list (string * value).
Fixpoint dget (d : dict) (k : string) : option value :=
  match d with [] => None | (k', v) :: r => if String.eqb k k' then Some v else dget r k end.
Fixpoint dput (d : dict) (k : string) (v : value) : dict :=
  match d with [] => [(k, v)] | (k', v') :: r => if String.eqb k k' then (k, v) :: r else (k', v') :: dput r k v end.
(** Number stored in a value. *)
Definition number (v : value) : option Q := match v with VNum x => Some x | VBool true => Some 1 | VBool false => Some 0 | _ => None end%Q.
(** A limit table has an entry for the name. *)
Fixpoint limit (t : list (string * Q)) (k : string) : option Q :=
  match t with [] => None | (k', x) :: r => if String.eqb k k' then Some x else limit r k end.
Fixpoint allowed (t : list (string * list value)) (k : string) : option (list value) :=
  match t with [] => None | (k', l) :: r => if String.eqb k k' then Some l else allowed r k end.
Definition above (o : option Q) (x : Q) : Prop := match o with Some m => (m <= x)%Q | None => True end.
Definition below (o : option Q) (x : Q) : Prop := match o with Some m => (x <= m)%Q | None => True end.

(** Second component of a name: nothing, the name of a block or loop, or the index in a loop. *)
Inductive sub := SNone | SStr (s : string) | SInt (i : nat).
(** The name of a variable: a path. *)
Definition path := list (string * sub).
