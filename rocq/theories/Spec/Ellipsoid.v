(** Vocabulary for magnetization ellipsoids and principal axes. *)
From Coq Require Import Reals.
From Verif Require Import Spec.Lin3.
Open Scope R_scope.

(** the moment induced by a field, component i of chi f *)
Definition moment_of (chi : ix -> ix -> R) (f : ix -> R) (i : ix) : R := sum3 (fun k => chi i k * f k).
Definition form_of (t : ix -> ix -> R) (v : ix -> R) : R := sum3 (fun i => sum3 (fun j => v i * t i j * v j)).
(** column n of a matrix *)
Definition column (m : M3 R) (n : ix) : ix -> R := fun i => mget m i n.
Definition orthonormal_columns (m : M3 R) : Prop := forall n k, dot (column m n) (column m k) = delta n k.
(** what numpy documents for numpy.linalg.eigh: ascending eigenvalues, orthonormal eigenvectors in the columns *)
Definition is_eigh (a : ix -> ix -> R) (val : V3 R) (vec : M3 R) : Prop :=
  v_1 val <= v_2 val <= v_3 val /\ orthonormal_columns vec /\
  forall n i, moment_of a (column vec n) i = vget val n * mget vec i n.
(** an eigenvalue of a matrix *)
Definition is_eigenvalue (a : ix -> ix -> R) (l : R) : Prop :=
  exists v : ix -> R, dot v v <> 0 /\ forall i, moment_of a v i = l * v i.
(** a non-zero number and its opposite are never both principal susceptibilities *)
Definition no_opposite_pair (a : ix -> ix -> R) : Prop :=
  forall l, l <> 0 -> ~ (is_eigenvalue a l /\ is_eigenvalue a (- l)).
Definition nonneg_form (a : ix -> ix -> R) : Prop := forall v, 0 <= form_of a v.
