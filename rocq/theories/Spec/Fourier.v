(** Independent vocabulary for Fourier sums over the grid of a cell. *)
From Coq Require Import Reals ZArith List.
From Coquelicot Require Import Complex.
From Verif Require Import Spec.Lin3 Spec.Symm Spec.Scatter.
Import ListNotations.
Open Scope list_scope.
Open Scope R_scope.

(** sum over the points of f(q) exp(-2 pi i h.x_q), x_q = q/n *)
Definition fourier_sum (n : V3 Z) (pts : list (V3 Z)) (f : V3 Z -> R) (h : V3 Z) : C :=
  csum (map (fun q => Cmult (RtoC (f q)) (phase (hdot h (grid_fract n q)))) pts).
(** The part of v perpendicular to q. *)
Definition perpendicular (q v : ix -> R) : ix -> R := fun i => v i - dot q v / dot q q * q i.
(** The vector of the reciprocal lattice with indices h, in the axes of the cell M (a column per axis): its product with axis j is h_j. *)
Definition reciprocal_vector (M : ix -> ix -> R) (h : V3 Z) (q : ix -> R) : Prop := forall j, sum3 (fun i => q i * M i j) = IZR (vget h j).
(** m v *)
Definition applied (m : ix -> ix -> R) (v : ix -> R) : ix -> R := fun i => sum3 (fun k => m i k * v k).
(** The density is the same at equivalent points of the grid. *)
Definition symmetric_density (n : V3 Z) (l : list Op) (rho : V3 Z -> R) : Prop :=
  forall p q, in_grid n p -> in_grid n q -> grid_equivalent n l p q -> rho p = rho q.
(** The tensor at the image of a point is the tensor at the point, carried by the operation (A: the operation in Cartesian axes, M:
    axes of the cell): t(q) A = A t(p). *)
Definition covariant_tensor (n : V3 Z) (l : list Op) (M : ix -> ix -> R) (t : V3 Z -> ix -> ix -> R) : Prop :=
  forall p q e A, in_grid n p -> in_grid n q -> In e l -> same_point (act e (grid_fract n p)) (grid_fract n q) -> in_frame M e A ->
    forall i j, sum3 (fun k => t q i k * A k j) = sum3 (fun k => A i k * t p k j).
