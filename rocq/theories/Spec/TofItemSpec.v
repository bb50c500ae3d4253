(** The background and the incident spectrum of a time-of-flight experiment (specification for C114), no reference to the code. *)
From Coq Require Import Reals List.
Open Scope R_scope.
(** A series of cosines with half period [T]: sum over i < n of c_i cos (i pi t / T). *)
Definition cosine_series (c : nat -> R) (n : nat) (T t : R) : R := fold_right Rplus 0 (map (fun i => c i * cos (INR i * PI * (t / T))) (seq 0 n)).
(** The two documented spectra. *)
Definition maxwell_spectrum (a : nat -> R) (t : R) : R :=
  a 0%nat + a 1%nat * (exp (- (a 2%nat * t ^ 2)) / t ^ 5) + a 3%nat * exp (- (a 4%nat * t ^ 2)) + a 5%nat * exp (- (a 6%nat * t ^ 3)) + a 7%nat * exp (- (a 8%nat * t ^ 4)).
Definition empirical_spectrum (a : nat -> R) (t : R) : R :=
  a 0%nat + a 1%nat * exp (- (a 2%nat * t)) + a 3%nat * exp (- (a 4%nat * t ^ 2)) + a 5%nat * exp (- (a 6%nat * t ^ 3)) + a 7%nat * exp (- (a 8%nat * t ^ 4)).
