(* Model of the last part of the chi-square functions:
   /repo/cryspy/procedure_rhochi/rhochi_pd.py     l.422-442 (constant wavelength, 1D)
   /repo/cryspy/procedure_rhochi/rhochi_tof.py    l.474-496 (time of flight; same text)
   /repo/cryspy/procedure_rhochi/rhochi_pd2d.py   l.482-515 (2D)
   /repo/cryspy/procedure_rhochi/rhochi_diffrn.py l.258-263, l.268-269, l.371-376 (single crystal)
   Numbers are reals extended by +infinity and NaN, the results of x/0 and 0/0. *)
Require Import Reals List Bool Arith.
From Verif.Spec Require Import ChiSquare.
Import ListNotations.
Local Open Scope R_scope.

(* numpy.square(d / s) *)
Definition sq_ratio (d s : R) : num :=
  if Req_EM_T s 0 then (if Req_EM_T d 0 then NaN else Inf) else Fin ((d / s) * (d / s)).

(* multiplication by a boolean array: x * True = x, x * False = 0, inf * False = nan *)
Definition mul_bool (x : num) (b : bool) : num :=
  match x, b with
  | Fin v, true => Fin v
  | Fin v, false => Fin 0
  | Inf, true => Inf
  | Inf, false => NaN
  | NaN, _ => NaN
  end.

Definition add_num (x y : num) : num :=
  match x, y with
  | NaN, _ | _, NaN => NaN
  | Inf, _ | _, Inf => Inf
  | Fin a, Fin b => Fin (a + b)
  end.
Definition sum_num (l : list num) : num := fold_right add_num (Fin 0) l.

(* if numpy.isnan(chi_sq): chi_sq = 1e30 *)
Definition nan_to_big (x : num) : num := match x with NaN => Fin (10 ^ 30) | _ => x end.

(* measured number; a missing one is NaN, every arithmetics with it is NaN *)
Definition sum_term (p : point) : num :=
  match exp_up p, exp_dn p with
  | Some u, Some d =>
      sq_ratio ((u + d) - (cal_up p + cal_dn p + bkg p)) (sqrt (Rsqr (sig_up p) + Rsqr (sig_dn p)))
  | _, _ => NaN
  end.
Definition diff_term (p : point) : num :=
  match exp_up p, exp_dn p with
  | Some u, Some d =>
      sq_ratio ((u - d) - (cal_up p - cal_dn p)) (sqrt (Rsqr (sig_up p) + Rsqr (sig_dn p)))
  | _, _ => NaN
  end.

Definition count_true (l : list bool) : nat := length (filter (fun b => b) l).

(* rhochi_pd.py l.422-442, rhochi_tof.py l.474-496: (chi_sq, n_point).
   The sum term is multiplied by in_points; the difference term is not masked. *)
Definition chi_sq_pd (flag_sum flag_diff : bool) (l : list point) : num * nat :=
  let chi_sum := sum_num (map (fun p => mul_bool (sum_term p) (negb (excl p))) l) in
  let chi_diff := sum_num (map diff_term l) in
  let chi := add_num (if flag_sum then chi_sum else Fin 0) (if flag_diff then chi_diff else Fin 0) in
  let n := ((if flag_sum then count_true (map (fun p => negb (excl p)) l) else 0)
            + (if flag_diff then length l else 0))%nat in
  (nan_to_big chi, n).

(* rhochi_pd2d.py l.482-515.  diff[in_points]**2 * (1/sigma)**2[in_points]: the arrays
   are indexed, so excluded and missing points are not there; the difference
   term drops the missing points only. *)
Definition present (p : point) : bool :=
  match exp_up p, exp_dn p with Some _, Some _ => true | _, _ => false end.
Definition chi_sq_pd2d (flag_sum flag_diff : bool) (l : list point) : num * nat :=
  let pts_sum := filter (fun p => negb (excl p) && present p) l in
  let pts_diff := filter present l in
  let chi := add_num (if flag_sum then sum_num (map sum_term pts_sum) else Fin 0)
                     (if flag_diff then sum_num (map diff_term pts_diff) else Fin 0) in
  let n := ((if flag_sum then length pts_sum else 0) + (if flag_diff then length pts_diff else 0))%nat in
  (nan_to_big chi, n).

(* rhochi_diffrn.py l.258-263 *)
Definition chi_sq_diffrn (l : list refl) : num * nat :=
  let inc := filter (fun r => negb (r_excl r)) l in
  (sum_num (map (fun r => sq_ratio (r_exp r - r_mod r) (r_sig r)) inc), length inc).

(* l.268-269 and l.375: der_chi_sq = -2 (diff * inv_sigma_sq * der_model_p).sum(axis=0).
   diff and inv_sigma_sq hold the included reflections only (l.268-269), der_model_p
   has a row for EVERY reflection: numpy broadcasts arrays of equal length or
   of length one and raises ValueError otherwise (None).  Sigmas are not zero
   here (simplification: real division). *)
Definition bcast (n m : nat) : bool := ((n =? m) || (n =? 1) || (m =? 1))%nat.
Definition pick {A : Type} (l : list A) (n i : nat) (d : A) : A :=
  nth (if (n =? 1)%nat then 0 else i)%nat l d.
Definition der_chi_sq_diffrn (l : list refl) (j : nat) : option R :=
  let inc := filter (fun r => negb (r_excl r)) l in
  let w := map (fun r => (r_exp r - r_mod r) * (1 / Rsqr (r_sig r))) inc in
  let d := map (fun r => nth j (r_der r) 0) l in
  if bcast (length w) (length d) then
    let n := if (length w =? 1)%nat then length d else length w in
    Some (-2 * fold_right Rplus 0
            (map (fun i => pick w (length w) i 0 * pick d (length d) i 0) (seq 0 n)))
  else None.
(* l.376: dder_chi_sq = 2 (inv_sigma_sq * (der_model_p * der_model_p)).sum(axis=0) *)
Definition dder_chi_sq_diffrn (l : list refl) (j k : nat) : option R :=
  let inc := filter (fun r => negb (r_excl r)) l in
  let w := map (fun r => 1 / Rsqr (r_sig r)) inc in
  let d := map (fun r => nth j (r_der r) 0 * nth k (r_der r) 0) l in
  if bcast (length w) (length d) then
    let n := if (length w =? 1)%nat then length d else length w in
    Some (2 * fold_right Rplus 0
            (map (fun i => pick w (length w) i 0 * pick d (length d) i 0) (seq 0 n)))
  else None.
