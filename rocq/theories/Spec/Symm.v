(** Independent vocabulary for space-group operations.
    An operation x |-> R x + b/d has an integer rotation matrix and a translation stored as integer
    numerators over a common denominator (convention of symmetry_elements.py l.1-20). *)
From Coq Require Import Reals ZArith List.
From Verif Require Import Spec.Lin3 Spec.Cell.
Import ListNotations.
Open Scope R_scope.

Record Op := mkE { e_b : V3 Z; e_d : Z; e_r : M3 Z }.

(** Action on fractional coordinates. *)
Definition act (e : Op) (x : ix -> R) : ix -> R := fun i =>
  sum3 (fun j => IZR (mget (e_r e) i j) * x j) + IZR (vget (e_b e) i) / IZR (e_d e).

(** Equal modulo lattice translations. *)
Definition same_point (x y : ix -> R) : Prop := forall i, exists n : Z, x i = y i + IZR n.

(** Two operations equal modulo lattice translations. *)
Definition same_op (e f : Op) : Prop := forall x, same_point (act e x) (act f x).
(** g is e after f, modulo lattice translations. *)
Definition is_composition (g e f : Op) : Prop := forall x, same_point (act g x) (act e (act f x)).

(** A list of operations that is a group modulo lattice translations, each operation listed once. *)
Definition symmetry_group (l : list Op) : Prop :=
  (forall e, In e l -> (0 < e_d e)%Z) /\
  (exists e, In e l /\ forall x, same_point (act e x) x) /\
  (forall e f, In e l -> In f l -> exists g, In g l /\ is_composition g e f) /\
  (forall e, In e l -> exists f, In f l /\ forall x, same_point (act f (act e x)) x) /\
  ForallOrdPairs (fun e f => ~ same_op e f) l.

(** The value of a translation vector stored as numerators over a denominator. *)
Definition frac (b : V3 Z) (d : Z) : ix -> R := fun i => IZR (vget b i) / IZR d.

(** Grid of n_1 x n_2 x n_3 points over the cell: the point with index p sits at p_i / n_i. *)
Definition in_grid (n p : V3 Z) : Prop := forall i, (0 <= vget p i < vget n i)%Z.
Definition grid_fract (n p : V3 Z) : ix -> R := fun i => IZR (vget p i) / IZR (vget n i).
(** The operation maps grid points to grid points: its translation is on the grid, and it only mixes axes
    that are divided in the same number of steps. *)
Definition grid_compatible (n : V3 Z) (e : Op) : Prop :=
  (0 < e_d e)%Z /\ (forall i, (e_d e | vget n i)%Z) /\ (forall i j, mget (e_r e) i j <> 0%Z -> vget n i = vget n j).
(** Two grid points related by an operation of the list. *)
Definition grid_equivalent (n : V3 Z) (l : list Op) (p q : V3 Z) : Prop :=
  exists e, In e l /\ same_point (act e (grid_fract n p)) (grid_fract n q).

(** A finite group of pairs (integer rotation, sign): each pair listed once, closed under the product
    (matrix product, product of signs), with inverses. *)
Definition rot_mul (c a b : M3 Z * Z) : Prop :=
  (forall i j, mget (fst c) i j = (mget (fst a) i X1 * mget (fst b) X1 j + mget (fst a) i X2 * mget (fst b) X2 j
                                   + mget (fst a) i X3 * mget (fst b) X3 j)%Z) /\ snd c = (snd a * snd b)%Z.
Definition rot_one : M3 Z * Z := (mkM 1 0 0 0 1 0 0 0 1, 1)%Z.
Definition point_group (l : list (M3 Z * Z)) : Prop :=
  NoDup l /\ In rot_one l /\
  (forall a b, In a l -> In b l -> exists c, In c l /\ rot_mul c a b) /\
  (forall a, In a l -> exists b, In b l /\ rot_mul rot_one b a).
(** Rotations of a list of operations, without time reversal. *)
Definition rotations (l : list Op) : list (M3 Z * Z) := map (fun e => (e_r e, 1%Z)) l.
(** Rotations with their sign (time reversal). *)
Definition signed_rotations (l : list (Op * Z)) : list (M3 Z * Z) := map (fun e => (e_r (fst e), snd e)) l.

(** The operation preserves the metric of the cell: R^T G R = G. *)
Definition metric_invariant (uc : U6 R) (e : Op) : Prop := forall i j,
  sum3 (fun k => sum3 (fun l => IZR (mget (e_r e) k i) * metric uc k l * IZR (mget (e_r e) l j))) = metric uc i j.
(** A is the matrix of the rotation in the Cartesian frame whose axes matrix is M (columns: a, b, c): A M = M R. *)
Definition in_frame (M : ix -> ix -> R) (e : Op) (A : ix -> ix -> R) : Prop := forall i j,
  sum3 (fun k => A i k * M k j) = sum3 (fun k => M i k * IZR (mget (e_r e) k j)).
(** r b r^T *)
Definition conj (r : ix -> ix -> R) (b : ix -> ix -> R) : ix -> ix -> R := fun i j =>
  sum3 (fun k => sum3 (fun l => r i k * b k l * r j l)).
Definition rot_real (e : Op) : ix -> ix -> R := fun i j => IZR (mget (e_r e) i j).
