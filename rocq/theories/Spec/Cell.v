(** Independent vocabulary for unit cells: six parameters a, b, c (lengths), alpha, beta, gamma (radians). *)
From Coq Require Import Reals.
From Coquelicot Require Import Coquelicot.
From Verif Require Import Spec.Lin3.
Open Scope R_scope.

Record U6 (A : Type) := mkU { u_a : A; u_b : A; u_c : A; u_al : A; u_be : A; u_ga : A }.
Arguments mkU {A}. Arguments u_a {A}. Arguments u_b {A}. Arguments u_c {A}.
Arguments u_al {A}. Arguments u_be {A}. Arguments u_ga {A}.

(** A unit cell is non-degenerate when the lengths are positive, the angles lie strictly between 0 and pi
    and the three axes span a volume, i.e. the Gram determinant of the unit vectors along the axes is
    positive. *)
Definition nondegenerate (uc : U6 R) : Prop :=
  0 < u_a uc /\ 0 < u_b uc /\ 0 < u_c uc /\
  0 < u_al uc < PI /\ 0 < u_be uc < PI /\ 0 < u_ga uc < PI /\
  0 < 1 - (cos (u_al uc))^2 - (cos (u_be uc))^2 - (cos (u_ga uc))^2
      + 2 * cos (u_al uc) * cos (u_be uc) * cos (u_ga uc).

(** The metric tensor: G_ij = a_i . a_j = |a_i| |a_j| cos(angle between a_i and a_j). *)
Definition axis_len (uc : U6 R) (i : ix) : R := match i with X1 => u_a uc | X2 => u_b uc | X3 => u_c uc end.
Definition axis_cos (uc : U6 R) (i j : ix) : R :=
  match i, j with
  | X1, X1 => 1 | X2, X2 => 1 | X3, X3 => 1
  | X2, X3 => cos (u_al uc) | X3, X2 => cos (u_al uc)
  | X1, X3 => cos (u_be uc) | X3, X1 => cos (u_be uc)
  | X1, X2 => cos (u_ga uc) | X2, X1 => cos (u_ga uc)
  end.
Definition metric (uc : U6 R) (i j : ix) : R := axis_len uc i * axis_len uc j * axis_cos uc i j.

(** Partial derivatives with respect to the six parameters. *)
Inductive ux := Ua | Ub | Uc | Ual | Ube | Uga.
Definition uget {A} (u : U6 A) (p : ux) : A :=
  match p with Ua => u_a u | Ub => u_b u | Uc => u_c u | Ual => u_al u | Ube => u_be u | Uga => u_ga u end.
Definition uset {A} (u : U6 A) (p : ux) (x : A) : U6 A :=
  let '(mkU a b c al be ga) := u in
  match p with
  | Ua => mkU x b c al be ga | Ub => mkU a x c al be ga | Uc => mkU a b x al be ga
  | Ual => mkU a b c x be ga | Ube => mkU a b c al x ga | Uga => mkU a b c al be x
  end.
Definition is_partial_u (f : U6 R -> R) (u : U6 R) (p : ux) (d : R) : Prop :=
  is_derive (fun t : R => f (uset u p t)) (uget u p) d.
