(** Bilinear interpolation on a uniform grid. *)
From Coq Require Import Reals List.
Import ListNotations.
Open Scope R_scope.
(** x0, x0 + h, ..., x0 + (n-1) h *)
Definition uniform (x0 h : R) (n : nat) : list R := map (fun i => x0 + INR i * h) (seq 0 n).
(** the matrix of measured values: row j (second coordinate), column i (first coordinate) holds g i j *)
Definition table (g : nat -> nat -> R) (nx ny : nat) : list (list (option R)) :=
  map (fun j => map (fun i => Some (g i j)) (seq 0 nx)) (seq 0 ny).
(** the value at a point: inside the grid the bilinear mean of the four nodes around it, outside (and on the upper edges) none *)
Inductive interpolated (x0 hx y0 hy : R) (nx ny : nat) (g : nat -> nat -> R) : R * R -> option R -> Prop :=
| Inside : forall i j s t, (i + 1 < nx)%nat -> (j + 1 < ny)%nat -> 0 <= s < 1 -> 0 <= t < 1 ->
    interpolated x0 hx y0 hy nx ny g (x0 + (INR i + s) * hx, y0 + (INR j + t) * hy)
      (Some ((1 - s) * (1 - t) * g i j + s * (1 - t) * g (i + 1)%nat j + (1 - s) * t * g i (j + 1)%nat + s * t * g (i + 1)%nat (j + 1)%nat))
| Outside : forall x y, x < x0 \/ x0 + (INR nx - 1) * hx <= x \/ y < y0 \/ y0 + (INR ny - 1) * hy <= y ->
    interpolated x0 hx y0 hy nx ny g (x, y) None.
(** [M] has a row for every b of lb with a cell for every a of la, which holds the value at the point F a b. *)
Definition regridded (F : R -> R -> R * R) x0 hx y0 hy nx ny g (la lb : list R) (M : list (list (option R))) : Prop :=
  length M = length lb /\ Forall (fun row => length row = length la) M /\
  forall i j a b, nth_error la i = Some a -> nth_error lb j = Some b -> exists row v, nth_error M j = Some row /\ nth_error row i = Some v /\ interpolated x0 hx y0 hy nx ny g (F a b) v.
(** sum of two results, none if one is none *)
Definition opt_add (x y : option R) : option R := match x, y with Some x, Some y => Some (x + y) | _, _ => None end.
