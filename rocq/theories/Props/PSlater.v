(** C109: radial Slater functions and their form factors. *)
From Coq Require Import Reals List.
From Coquelicot Require Import Coquelicot.
From Verif Require Import Spec.SlaterSpec Spec.BesselSpec Model.Slater Proofs.SlaterP Proofs.SlaterL Proofs.SlaterN.
Import ListNotations.
Open Scope R_scope.

(** The first number of calc_jl is the integral of r^2 R(r)^2 sin(Qr)/(Qr), Q = 4 pi sin(theta)/lambda, over all r, for every orbital and
    every largest order; the lengths are in units of 0.529177 angstrem.  Here for the order 0; the other orders are below. *)
Theorem C109_j0 : forall (orb : list (R * nat * R)) kappa s l_max, List.Forall proper orb -> 0 < kappa ->
  exists j0 rest, calc_jl s orb kappa l_max = Some (j0 :: rest) /\ List.length rest = l_max /\
    integral (fun r => r ^ 2 * Rsqr (radial (stretched (kappa / (529177 / 1000000)) orb) r) * sinc (4 * PI * s * r)) j0.
Proof. exact j0_integral. Qed.
Print Assumptions C109_j0.
Example C109_j0_met : List.Forall proper [(1 / 4, 3%nat, 41 / 10); (3 / 10, 3%nat, 6)] /\ 0 < 1.
Proof. exact proper_met. Qed.
(** calc_rho_normalized is that radial function with another atomic unit of length, 0.52918 angstrem. *)
Theorem C109_density : forall r (orb : list (R * nat * R)) kappa, calc_rho_normalized r orb kappa = radial (stretched (kappa / (52918 / 100000)) orb) r.
Proof. exact density_is. Qed.
Print Assumptions C109_density.
(** A single term with coefficient 1 is normalised: <j0> is 1 at sin(theta)/lambda = 0. *)
Theorem C109_normalised : forall kappa n z l_max, (1 <= n)%nat -> 0 < z -> 0 < kappa -> exists rest, calc_jl 0 [(1, n, z)] kappa l_max = Some (1 :: rest).
Proof. exact normalised. Qed.
Print Assumptions C109_normalised.
(** <j0> is largest in the forward direction. *)
Theorem C109_bounded : forall (orb : list (R * nat * R)) kappa s l_max js rs jz rz, List.Forall proper orb -> 0 < kappa ->
  calc_jl s orb kappa l_max = Some (js :: rs) -> calc_jl 0 orb kappa l_max = Some (jz :: rz) -> Rabs js <= jz.
Proof. exact j0_bounded. Qed.
Print Assumptions C109_bounded.
(** Every order l below the sum of the quantum numbers of every pair of terms: the integral of r^2 R(r)^2 j_l(Qr), with the spherical Bessel
    function j_l.  Missing: the orders not below these sums, for which the claim is false (C109_jl_refuted). *)
Theorem C109_jl_partial : forall (orb : list (R * nat * R)) kappa s l_max l, List.Forall proper orb -> 0 < kappa -> (l <= l_max)%nat ->
  (forall c n z c' n' z', In (c, n, z) orb -> In (c', n', z') orb -> (l < n + n')%nat) ->
  exists r, calc_jl s orb kappa l_max = Some r /\
    integral (fun r => r ^ 2 * Rsqr (radial (stretched (kappa / (529177 / 1000000)) orb) r) * spherical_bessel l (4 * PI * s * r)) (nth l r 0).
Proof. exact orders. Qed.
Print Assumptions C109_jl_partial.
Example C109_jl_partial_met : List.Forall proper [(1 / 4, 3%nat, 41 / 10); (3 / 10, 3%nat, 6)] /\ 0 < 1 /\ (2 <= 3)%nat /\
  (forall c n z c' n' z', In (c, n, z) [(1 / 4, 3%nat, 41 / 10); (3 / 10, 3%nat, 6)] -> In (c', n', z') [(1 / 4, 3%nat, 41 / 10); (3 / 10, 3%nat, 6)] -> (2 < n + n')%nat).
Proof. exact orders_met. Qed.
(** With the default largest order 3 not every number is that integral: <j2> of a 1s orbital. *)
Theorem C109_jl_refuted : exists (orb : list (R * nat * R)) s l, List.Forall proper orb /\ 0 < s /\ (l <= 3)%nat /\ exists r, calc_jl s orb 1 3 = Some r /\
  ~ integral (fun r => r ^ 2 * Rsqr (radial (stretched (1 / (529177 / 1000000)) orb) r) * spherical_bessel l (4 * PI * s * r)) (nth l r 0).
Proof. exact missing_order. Qed.
Print Assumptions C109_jl_refuted.
(** Orders not less than the sum of the quantum numbers of every pair of terms are given as 0 at every angle: <j2> of a 1s orbital. *)
Theorem C109_high_order : forall (orb : list (R * nat * R)) kappa s l_max l, List.Forall proper orb -> (l <= l_max)%nat ->
  (forall c n z c' n' z', In (c, n, z) orb -> In (c', n', z') orb -> (n + n' <= l)%nat) ->
  exists r, calc_jl s orb kappa l_max = Some r /\ nth l r 0 = 0.
Proof. exact high_order. Qed.
Print Assumptions C109_high_order.
Example C109_high_order_met : List.Forall proper [(1, 1%nat, 1)] /\ (2 <= 5)%nat /\
  (forall c n z c' n' z', In (c, n, z) [(1, 1%nat, 1)] -> In (c', n', z') [(1, 1%nat, 1)] -> (n + n' <= 2)%nat).
Proof. exact high_met. Qed.
