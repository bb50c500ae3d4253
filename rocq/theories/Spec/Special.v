(** Special functions and improper integrals. *)
From Coq Require Import Reals.
From Coquelicot Require Import Coquelicot.
Open Scope R_scope.
(** erf x = 2/sqrt(pi) int_0^x exp(-t^2) dt, erfc = 1 - erf. *)
Definition erf (x : R) : R := 2 / sqrt PI * RInt (fun t => exp (- (t * t))) 0 x.
Definition erfc (x : R) : R := 1 - erf x.
(** The integral of f over the line, over the negative and over the positive half-line is v. *)
Definition area (f : R -> R) (v : R) : Prop := is_RInt_gen f (Rbar_locally m_infty) (Rbar_locally p_infty) v.
Definition area_neg (f : R -> R) (v : R) : Prop := is_RInt_gen f (Rbar_locally m_infty) (at_point 0) v.
Definition area_pos (f : R -> R) (v : R) : Prop := is_RInt_gen f (at_point 0) (Rbar_locally p_infty) v.
(** Normal distribution. *)
Definition normal (sigma x : R) : R := exp (- (x * x / (2 * (sigma * sigma)))) / (sigma * sqrt (2 * PI)).
(** [v] is the value at [x] of the convolution of the back-to-back exponential alpha beta / (alpha + beta) exp(alpha t) (t < 0),
    exp(-beta t) (t > 0), with g. *)
Definition back_to_back (alpha beta : R) (g : R -> R) (x v : R) : Prop :=
  exists n p, area_neg (fun t => alpha * beta / (alpha + beta) * exp (alpha * t) * g (x - t)) n /\
              area_pos (fun t => alpha * beta / (alpha + beta) * exp (- beta * t) * g (x - t)) p /\ v = n + p.
