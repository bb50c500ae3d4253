(** Independent vocabulary for maps of a density over the grid of a cell. *)
From Coq Require Import Reals ZArith List Sorted.
From Verif Require Import Spec.Lin3 Spec.Cell Spec.Symm.
Import ListNotations.
Open Scope list_scope.
Open Scope R_scope.

(** The index q is obtained from the index p by an operation, then a shift of the cell, then possibly the inversion at the origin. *)
Definition related (n : V3 Z) (ops : list Op) (shifts : list (V3 Z * Z)) (inversion : bool) (p q : V3 Z) : Prop :=
  exists e s sign, In e ops /\ In s shifts /\ (sign = 1 \/ (inversion = true /\ sign = -1)) /\
    same_point (fun i => sign * (act e (grid_fract n p) i + frac (fst s) (snd s) i)) (grid_fract n q).
(** The shift moves grid points to grid points. *)
Definition shift_compatible (n : V3 Z) (s : V3 Z * Z) : Prop := (0 < snd s)%Z /\ forall i, (snd s | vget n i)%Z.
(** The list [l] consists of the operations combined in this way. *)
Definition generated (l ops : list Op) (shifts : list (V3 Z * Z)) (inversion : bool) : Prop :=
  (forall g, In g l -> exists e s sign, In e ops /\ In s shifts /\ (sign = 1 \/ (inversion = true /\ sign = -1)) /\
     forall x, same_point (act g x) (fun i => sign * (act e x i + frac (fst s) (snd s) i))) /\
  (forall e s sign, In e ops -> In s shifts -> sign = 1 \/ (inversion = true /\ sign = -1) -> exists g, In g l /\
     forall x, same_point (act g x) (fun i => sign * (act e x i + frac (fst s) (snd s) i))).

(** Lexicographic order of indices. *)
Definition lex_lt (p q : V3 Z) : Prop :=
  (v_1 p < v_1 q \/ (v_1 p = v_1 q /\ (v_2 p < v_2 q \/ (v_2 p = v_2 q /\ v_3 p < v_3 q))))%Z.

(** A function of the grid indices, summed over the whole grid. *)
Definition is_grid (n : V3 Z) (l : list (V3 Z)) : Prop := NoDup l /\ forall q, In q l <-> in_grid n q.
Definition total (l : list (V3 Z)) (f : V3 Z -> R) : R := fold_right Rplus 0 (map f l).

(** A point with its three densities, written with seven decimals. *)
Definition row_close (r s : V3 Z * (R * R * R)) : Prop :=
  fst s = fst r /\ Rabs (fst (fst (snd s)) - fst (fst (snd r))) <= 5 / 100000000 /\ Rabs (snd (fst (snd s)) - snd (fst (snd r))) <= 5 / 100000000 /\
  Rabs (snd (snd s) - snd (snd r)) <= 5 / 100000000.
(** Unit-cell parameters [u] with angles in degrees and [v] with angles in radians, to five decimals. *)
Definition cell_close (u v : U6 R) : Prop :=
  Rabs (u_a v - u_a u) <= 5 / 1000000 /\ Rabs (u_b v - u_b u) <= 5 / 1000000 /\ Rabs (u_c v - u_c u) <= 5 / 1000000 /\
  Rabs (u_al v * (180 / PI) - u_al u) <= 5 / 1000000 /\ Rabs (u_be v * (180 / PI) - u_be u) <= 5 / 1000000 /\ Rabs (u_ga v * (180 / PI) - u_ga u) <= 5 / 1000000.
