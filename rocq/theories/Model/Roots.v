(** Model of cryspy/A_functions_base/function_1_roots.py.  Floats are reals; the function given by the caller is a total function
    without side effects.  The while loops take a number of steps [fuel]; the outer [None] says that it does not suffice. *)
From Coq Require Import Reals List ZArith.
Import ListNotations.
Open Scope R_scope.

(** l.13-23 rootsearch, the loop and its result: Some None is (None, None) *)
Fixpoint rootsearch_loop (f : R -> R) (b dx : R) (fuel : nat) (x1 f1 x2 f2 : R) : option (option (R * R)) :=
  match fuel with
  | O => None
  | S fuel =>
    if Rlt_dec 0 (f1 * f2) then
      if Rle_dec b x1 then Some None
      else
        let x1 := x2 in let f1 := f2 in
        let x2 := x1 + dx in let f2 := f x2 in
        if Rlt_dec b x2 then rootsearch_loop f b dx fuel x1 f1 b (f b) else rootsearch_loop f b dx fuel x1 f1 x2 f2
    else Some (Some (x1, x2))
  end.
(** l.4-12 rootsearch *)
Definition rootsearch (f : R -> R) (a b dx : R) (fuel : nat) : option (option (R * R)) :=
  let x1 := a in let f1 := f a in
  let x2 := a + dx in let f2 := f x2 in
  if Rlt_dec b x2 then rootsearch_loop f b dx fuel x1 f1 b (f b) else rootsearch_loop f b dx fuel x1 f1 x2 f2.
(** math.ceil; int of it, and range of a negative number is empty *)
Definition ceil (x : R) : Z := (1 - up (- x))%Z.
(** l.38-51 bisect, the for loop with [n] steps left *)
Fixpoint bisect_loop (f : R -> R) (switch : bool) (n : nat) (x1 f1 x2 f2 : R) : option R :=
  match n with
  | O => Some ((x1 + x2) / 2)
  | S n =>
    let x3 := 5/10 * (x1 + x2) in let f3 := f x3 in
    if (if switch then if Rlt_dec (Rabs f1) (Rabs f3) then if Rlt_dec (Rabs f2) (Rabs f3) then true else false else false else false) then None
    else if Req_EM_T f3 0 then Some x3
    else if Rlt_dec (f2 * f3) 0 then bisect_loop f switch n x3 f3 x2 f2
    else bisect_loop f switch n x1 f1 x3 f3
  end.
(** l.26-37 bisect (switch == 1 as a boolean) *)
Definition bisect (f : R -> R) (x1 x2 : R) (switch : bool) (epsilon : R) : option R :=
  let f1 := f x1 in if Req_EM_T f1 0 then Some x1 else
  let f2 := f x2 in if Req_EM_T f2 0 then Some x2 else
  if Rlt_dec 0 (f1 * f2) then None else
  let n := ceil (ln (Rabs (x2 - x1) / epsilon) / ln 2) in
  bisect_loop f switch (Z.to_nat n) x1 f1 x2 f2.
Definition epsilon_default : R := / 10 ^ 12.
(** l.66-74 calc_roots, the loop: every turn searches from [a2] *)
Fixpoint calc_roots_loop (f : R -> R) (b eps : R) (fuel : nat) (a2 : R) (l_res : list R) : option (list R) :=
  match fuel with
  | O => None
  | S fuel' =>
    match rootsearch f a2 b eps fuel with
    | None => None
    | Some None => Some l_res
    | Some (Some (x1, x2)) =>
      match bisect f x1 x2 true epsilon_default with
      | Some root => calc_roots_loop f b eps fuel' x2 (l_res ++ [root])
      | None => calc_roots_loop f b eps fuel' x2 l_res
      end
    end
  end.
(** l.54-66 calc_roots *)
Definition calc_roots (f : R -> R) (a b eps : R) (fuel : nat) : option (list R) :=
  let eps := if Req_EM_T eps 0 then Rabs (b - a) * 1 / 100 else eps in
  calc_roots_loop f b eps fuel a [].
