(** Rotations of space. *)
From Coq Require Import Reals.
From Verif Require Import Spec.Lin3.
Open Scope R_scope.

(** the image of a vector *)
Definition apply_to (m : ix -> ix -> R) (v : ix -> R) (i : ix) : R := sum3 (fun k => m i k * v k).
(** a proper rotation: it keeps scalar products and the handedness *)
Definition is_rotation (m : ix -> ix -> R) : Prop :=
  (forall v w, dot (apply_to m v) (apply_to m w) = dot v w) /\ det3 m = 1.
(** right-handed rotation by the angle t about the axis n: x -> y -> z -> x is the positive sense *)
Definition turn (n : ix) (t : R) (v : ix -> R) (i : ix) : R :=
  match n, i with
  | X1, X1 => v X1 | X1, X2 => cos t * v X2 - sin t * v X3 | X1, X3 => sin t * v X2 + cos t * v X3
  | X2, X2 => v X2 | X2, X3 => cos t * v X3 - sin t * v X1 | X2, X1 => sin t * v X3 + cos t * v X1
  | X3, X3 => v X3 | X3, X1 => cos t * v X1 - sin t * v X2 | X3, X2 => sin t * v X1 + cos t * v X2
  end.
Definition is_turn (n : ix) (t : R) (m : ix -> ix -> R) : Prop := forall v i, apply_to m v i = turn n t v i.
Definition axis (n : ix) : ix -> R := fun i => delta n i.
Definition norm (v : ix -> R) : R := sqrt (dot v v).
(** scalar products of the columns of a matrix *)
Definition gram (m : ix -> ix -> R) (i j : ix) : R := sum3 (fun k => m k i * m k j).
(** degrees *)
Definition deg (t : R) : R := t * PI / 180.
(** wave vectors of length 1/lam: the incident beam along x, the scattered beam at azimuth gamma and elevation nu *)
Definition k_in (lam : R) (i : ix) : R := match i with X1 => 1 / lam | _ => 0 end.
Definition k_out (lam gamma nu : R) (i : ix) : R :=
  match i with X1 => cos nu * cos gamma / lam | X2 => cos nu * sin gamma / lam | X3 => sin nu / lam end.
