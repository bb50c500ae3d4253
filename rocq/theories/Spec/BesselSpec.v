(** Spherical Bessel functions. *)
From Coq Require Import Reals.
Open Scope R_scope.

(** x <> 0: j_0 = sin x / x, j_1 = sin x / x^2 - cos x / x, j_{k+1} = (2k + 1) / x j_k - j_{k-1} *)
Fixpoint sph (l : nat) (x : R) : R :=
  match l with
  | O => sin x / x
  | S k => match k with O => sin x / x ^ 2 - cos x / x | S j => (2 * INR k + 1) / x * sph k x - sph j x end
  end.
Definition spherical_bessel (l : nat) (x : R) : R := if Req_EM_T x 0 then match l with O => 1 | S _ => 0 end else sph l x.
