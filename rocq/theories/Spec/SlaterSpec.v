(** Independent vocabulary for Slater orbitals and their form factors. *)
From Coq Require Import Reals List.
From Coquelicot Require Import Coquelicot.
Import ListNotations.
Open Scope R_scope.

(** sin x / x *)
Definition sinc (x : R) : R := if Req_EM_T x 0 then 1 else sin x / x.
(** the integral of g from 0 to infinity *)
Definition integral (g : R -> R) (v : R) : Prop := (forall b, ex_RInt g 0 b) /\ is_lim (fun b => RInt g 0 b) p_infty v.
(** A radial function: the sum over the terms (c, n, zeta) of c (2 zeta)^(n + 1/2) / sqrt((2n)!) r^(n-1) exp(-zeta r). *)
Fixpoint radial (terms : list (R * nat * R)) (r : R) : R :=
  match terms with
  | [] => 0
  | (c, n, z) :: rest => c * (Rpower (2 * z) (INR n + / 2) / sqrt (INR (fact (2 * n)))) * r ^ (n - 1) * exp (- z * r) + radial rest r
  end.
(** zeta multiplied by a factor *)
Definition stretched (f : R) (terms : list (R * nat * R)) : list (R * nat * R) := map (fun o => let '(c, n, z) := o in (c, n, f * z)) terms.
Definition proper (o : R * nat * R) : Prop := let '(c, n, z) := o in (1 <= n)%nat /\ 0 < z.
