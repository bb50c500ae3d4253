(** Model of cryspy/A_functions_base/orbital_functions.py l.6-85: radial Slater functions, and the integrals <j_l> of their squares with
    spherical Bessel functions.  One value of the radius and of sin(theta)/lambda at a time (numpy does them elementwise).
    The list of 17 numbers is a function of the index; reading beyond 16 (quantum numbers above 8) is not modelled. *)
From Coq Require Import Reals List Arith.
Import ListNotations.
Open Scope R_scope.

(** one term of an orbital: coefficient, n, zeta *)
Definition slater : Type := R * nat * R.
Definition sum (l : list R) : R := fold_right Rplus 0 l.
(** l.15-17 and l.64-66: zeta in inverse angstrem, and the factor of normalisation; the length of an atomic unit is written 0.52918 in
    l.15 and 0.529177 in l.64. *)
Definition zeta_ang (bohr kappa : R) (o : slater) : R := let '(_, _, z) := o in kappa * z / bohr.
Definition coeff_norm (bohr kappa : R) (o : slater) : R :=
  let '(_, n, _) := o in Rpower (2 * zeta_ang bohr kappa o) (INR n + 5 / 10) / sqrt (INR (fact (2 * n))).
(** l.6-22: calc_rho_normalized. *)
Definition calc_rho_normalized (radius : R) (orb : list slater) (kappa : R) : R :=
  sum (map (fun o => let '(c, n, z) := o in c * coeff_norm (52918 / 100000) kappa o * radius ^ (n - 1) * exp (- zeta_ang (52918 / 100000) kappa o * radius)) orb).
(** l.25-30: calc_density_spherical. *)
Definition calc_density_spherical (radius : R) (shells : list (R * list slater)) (kappa : R) : R :=
  sum (map (fun s => 4 * PI * fst s * Rsqr (calc_rho_normalized radius (snd s) kappa)) shells).

(** l.33-59: calc_transs. *)
Definition set_at (a : nat -> R) (k : nat) (v : R) : nat -> R := fun j => if Nat.eqb j k then v else a j.
(** l.52-56: the loop over nx from its value, [count] times. *)
Fixpoint inner (l : nat) (tz d : R) (nx count : nat) (a : nat -> R) : nat -> R :=
  match count with
  | O => a
  | S c => inner l tz d (S nx) c (set_at a (nx + 1) ((tz * INR nx * a nx - (INR nx + INR l) * (INR nx - (INR l + 1)) * a (nx - 1)%nat) * 1 / d))
  end.
(** l.47-58: one turn of the loop over l; the state is the list a and the last value of i3 - 1 (None: not assigned yet). *)
Definition outer (nn : nat) (tz ts d : R) (l : nat) (st : (nat -> R) * option nat) : (nat -> R) * option nat :=
  let '(a, i3) := st in
  let ll := (l + 1)%nat in
  let a1 := if Nat.eqb ll 1 then a else set_at (set_at a ll (a (ll - 1)%nat * ts * INR l * 1 / d)) (ll - 1) 0 in
  let count := (nn - ll)%nat in
  (inner l tz d ll count a1, match count with O => i3 | S _ => Some nn end).
(** the values ff[l], ff[l + 1], ... for [turns] turns; None: UnboundLocalError (nn < 2). *)
Fixpoint turns_from (nn : nat) (tz ts d : R) (l turns : nat) (st : (nat -> R) * option nat) : option (list R) :=
  match turns with
  | O => Some []
  | S t =>
    let st1 := outer nn tz ts d l st in
    match snd st1, turns_from nn tz ts d (S l) t st1 with
    | Some k, Some r => Some (fst st1 k :: r)
    | _, _ => None
    end
  end.
Definition calc_transs (l_max nn : nat) (zeta sthovl : R) : option (list R) :=
  let Q := 4 * PI * sthovl in
  let d := Q ^ 2 + zeta ^ 2 in
  turns_from nn (2 * zeta) (4 * PI) d 0 (l_max + 1) (set_at (fun _ => 0) 1 (1 / d), None).
(** l.62-78: the sum over the pairs of terms; None when an exception is raised for one of them. *)
Fixpoint add_up (l : list (R * option (list R))) (zero : list R) : option (list R) :=
  match l with
  | [] => Some zero
  | (c, Some ff) :: r => match add_up r zero with Some s => Some (map (fun p => c * fst p + snd p) (combine ff s)) | None => None end
  | (_, None) :: _ => None
  end.
Definition pair_coeff (kappa : R) (p : slater * slater) : R :=
  fst (fst (fst p)) * fst (fst (snd p)) * (coeff_norm (529177 / 1000000) kappa (fst p) * coeff_norm (529177 / 1000000) kappa (snd p)).
Definition pair_transs (l_max : nat) (kappa sthovl : R) (p : slater * slater) : option (list R) :=
  calc_transs l_max (snd (fst (fst p)) + snd (fst (snd p))) (zeta_ang (529177 / 1000000) kappa (fst p) + zeta_ang (529177 / 1000000) kappa (snd p)) sthovl.
Definition calc_jl_per_2sthovll (sthovl : R) (orb : list slater) (kappa : R) (l_max : nat) : option (list R) :=
  add_up (map (fun p => (pair_coeff kappa p, pair_transs l_max kappa sthovl p)) (list_prod orb orb)) (repeat 0 (l_max + 1)).
(** l.81-85: calc_jl. *)
Definition calc_jl (sthovl : R) (orb : list slater) (kappa : R) (l_max : nat) : option (list R) :=
  match calc_jl_per_2sthovll sthovl orb kappa l_max with
  | Some r => Some (map (fun p => fst p * (2 * sthovl) ^ snd p) (combine r (seq 0 (l_max + 1))))
  | None => None
  end.
