(* Specification of chi-square of a profile, written without the model. *)
Require Import Reals List Bool.
Import ListNotations.
Local Open Scope R_scope.

(* Results of floating point arithmetic: a finite number, +infinity, not-a-number. *)
Inductive num := Fin (x : R) | Inf | NaN.

(* One point of a polarised profile: measured intensities and their sigmas
   (up, down), calculated intensities, background, exclusion flag.  Measured
   intensities may be missing (None). *)
Record point := mkPt {
  exp_up : option R; sig_up : R; exp_dn : option R; sig_dn : R;
  cal_up : R; cal_dn : R; bkg : R; excl : bool }.

(* Two profiles which differ in measured data of excluded points only. *)
Definition same_point (p q : point) : Prop :=
  excl p = excl q /\ cal_up p = cal_up q /\ cal_dn p = cal_dn q /\ bkg p = bkg q /\
  (excl p = false -> p = q).
Definition same_profile (l m : list point) : Prop := Forall2 same_point l m.

(* Textbook chi-square: the sum over the points which are kept. *)
Definition sum_of (l : list R) : R := fold_right Rplus 0 l.
Definition kept (l : list point) : list point := filter (fun p => negb (excl p)) l.

(* contribution of a point to chi-square of the sum and of the difference *)
Definition measured (o : option R) : R := match o with Some v => v | None => 0 end.
Definition sum_sq (p : point) : R :=
  ((measured (exp_up p) + measured (exp_dn p) - (cal_up p + cal_dn p + bkg p)) ^ 2)
  / (sig_up p ^ 2 + sig_dn p ^ 2).
Definition diff_sq (p : point) : R :=
  ((measured (exp_up p) - measured (exp_dn p) - (cal_up p - cal_dn p)) ^ 2)
  / (sig_up p ^ 2 + sig_dn p ^ 2).

(* a point with measured intensities and error bars *)
Definition good (p : point) : Prop := (exists u d, exp_up p = Some u /\ exp_dn p = Some d) /\ 0 < sig_up p /\ 0 <= sig_dn p.


(* One reflection of a single-crystal experiment: measured value and sigma, model
   value, excluded or not, derivatives of the model value with respect to the
   refined parameters. *)
Record refl := mkRefl { r_exp : R; r_sig : R; r_mod : R; r_excl : bool; r_der : list R }.
(* Equal unless excluded. *)
Definition same_refl (p q : refl) : Prop :=
  r_excl p = r_excl q /\ (r_excl p = false -> p = q).

Definition keptr (l : list refl) : list refl := filter (fun p => negb (r_excl p)) l.
