(** Property theorems C21 (strings of symmetry operations) and C31 (numbers with errors). *)
From Coq Require Import ZArith QArith Qabs List Ascii Lqa.
From Verif Require Import Spec.Text Model.Strings Model.Numbers Proofs.StringsP Proofs.NumbersP.
Import ListNotations.

(** One row: what is printed is read back exactly. *)
Theorem C21_row_round_trip : forall labels coefficients offset, NoDup labels -> Forall (fun l => is_letter l = true) labels ->
  length coefficients = length labels -> Forall small_fraction coefficients -> small_fraction offset ->
  transform_string_to_digits (transform_digits_to_string labels coefficients offset) labels = Some (coefficients, offset).
Proof. exact row_round_trip. Qed.
Print Assumptions C21_row_round_trip.
(** A whole operation (any number of rows). *)
Theorem C21_operation_round_trip : forall labels r b, NoDup labels -> Forall (fun l => is_letter l = true) labels ->
  r <> [] -> length r = length b -> Forall (fun row => length row = length labels /\ Forall small_fraction row) r -> Forall small_fraction b ->
  transform_string_to_r_b (transform_r_b_to_string r b labels) labels = Some (r, b).
Proof. exact operation_round_trip. Qed.
Print Assumptions C21_operation_round_trip.
(** Expressions with the terms in any order, with repeated labels and constants: every coefficient read is the sum
    of the coefficients written, and so is the constant. *)
Theorem C21_any_order : forall labels t ts, Forall (fun l => is_letter l = true) labels ->
  Forall (fun u => small_fraction (fst u) /\ match snd u with Some l => ~ (fst u == 0)%Q /\ In l labels | None => True end) (t :: ts) ->
  let written u := match snd u with Some l => transform_fraction_with_label_to_string (fst u) l | None => print_Q (fst u) end in
  exists c o,
    transform_string_to_digits (written t ++ concat (map (fun u => if starts_with "-"%char (written u) then written u else "+"%char :: written u) ts)) labels = Some (c, o) /\
    Forall2 (fun l q => (q == total (Some l) (t :: ts))%Q) labels c /\ (o == total None (t :: ts))%Q.
Proof. exact any_order. Qed.
Print Assumptions C21_any_order.
Example C21_case :
  let xyz := ["x"; "y"; "z"]%char in
  let r := [[1; -1; 0]; [0; -1 # 2; 2 # 3]; [0; 0; 0]] in let b := [1 # 4; 0; -(2 # 3)] in
  (NoDup xyz /\ Forall (fun l => is_letter l = true) xyz) /\
  (r <> [] /\ length r = length b /\ Forall (fun row => length row = length xyz /\ Forall small_fraction row) r /\ Forall small_fraction b) /\
  transform_r_b_to_string r b xyz = ["x"; "-"; "y"; "+"; "1"; "/"; "4"; ","; "-"; "1"; "y"; "/"; "2"; "+"; "2"; "z"; "/"; "3"; ","; "-"; "2"; "/"; "3"]%char.
Proof.
  repeat split; repeat constructor; try reflexivity; try discriminate; cbn; intuition discriminate.
Qed.

(** Error below 0.995: value, error (both to a twentieth of the error, i.e. two digits) and mark survive. *)
Theorem C31_small_error : forall repr v e mark, (0 < e)%Q -> (e < 199 # 200)%Q ->
  exists v' e', string_to_value_error_mark (value_error_mark_to_string repr v (Some e) mark) = Some (Some v', Some e', strip mark) /\
    (Qabs (v' - v) <= e / 20)%Q /\ (Qabs (e' - e) <= e / 20)%Q.
Proof. exact small_error_round_trip. Qed.
Print Assumptions C31_small_error.
(** Error above one: both are rounded to integers; the mark survives. *)
Theorem C31_large_error_partial : forall repr v e mark, (1 < e)%Q ->
  exists v' e', string_to_value_error_mark (value_error_mark_to_string repr v (Some e) mark) = Some (Some (inject_Z v'), Some (inject_Z e'), strip mark) /\
    (Qabs (inject_Z v' - v) <= 1 # 2)%Q /\ (Qabs (inject_Z e' - e) <= 1 # 2)%Q.
Proof. exact large_error_round_trip. Qed.
Print Assumptions C31_large_error_partial.
(** ... so that the two significant digits of the error are lost. *)
Theorem C31_two_digits_refuted : exists v e mark, (1 < e)%Q /\ forall repr, exists v' e',
  string_to_value_error_mark (value_error_mark_to_string repr v (Some e) mark) = Some (Some v', Some e', mark) /\ (e / 20 < Qabs (e' - e))%Q.
Proof. exact two_digits_refuted. Qed.
Print Assumptions C31_two_digits_refuted.
(** Error 1: 5 with error 1 is printed as 5.00(100) and read back with error 100. *)
Theorem C31_unit_error_refuted : exists v e mark, (0 < e)%Q /\ (e <= 1)%Q /\ forall repr,
  exists v', string_to_value_error_mark (value_error_mark_to_string repr v (Some e) mark) = Some (Some v', Some (100 # 1), mark).
Proof. exact unit_error_refuted. Qed.
Print Assumptions C31_unit_error_refuted.
(** Zero error (a parameter to be refined): value and mark survive when Python's own formatting does. *)
Theorem C31_zero_error : forall (repr : Q -> str) v mark, (forall c, In c (repr v) -> c <> "("%char /\ c <> ")"%char) -> parse_float (repr v) = Some v ->
  string_to_value_error_mark (value_error_mark_to_string repr v (Some 0) mark) = Some (Some v, Some 0, strip mark).
Proof. exact zero_error_round_trip. Qed.
Print Assumptions C31_zero_error.
(** No error: the value survives, a mark does not. *)
Theorem C31_no_error_partial : forall (repr : Q -> str) v mark, (forall c, In c (repr v) -> c <> "("%char /\ c <> ")"%char) -> parse_float (repr v) = Some v ->
  string_to_value_error_mark (value_error_mark_to_string repr v None mark) = Some (Some v, None, []).
Proof. exact no_error_round_trip. Qed.
Print Assumptions C31_no_error_partial.
Theorem C31_mark_refuted : exists v mark (repr : Q -> str), parse_float (repr v) = Some v /\ mark = strip mark /\ mark <> [] /\
  string_to_value_error_mark (value_error_mark_to_string repr v None mark) = Some (Some v, None, []).
Proof. exact mark_refuted. Qed.
Print Assumptions C31_mark_refuted.
(** In binary64 arithmetic the printed value can be wrong by more than that: 0.29 with error 0.11 is printed as 0.28(11). *)
Theorem C31_float_refuted : exists v e : f64, (0 < f_to_Q e)%Q /\ (f_to_Q e < 199 # 200)%Q /\ exists v' e' mark,
  string_to_value_error_mark (float_text v e mark) = Some (Some v', Some e', mark) /\ (f_to_Q e / 20 < Qabs (v' - f_to_Q v))%Q.
Proof. exact float_refuted. Qed.
Print Assumptions C31_float_refuted.
Example C31_case : (0 < 53 # 1000)%Q /\ (53 # 1000 < 199 # 200)%Q /\
  value_error_mark_to_string (fun _ => []) (-12345 # 100) (Some (53 # 1000)) [" "; "a"]%char = ["-"; "1"; "2"; "3"; "."; "4"; "5"; "0"; "("; "5"; "3"; ")"; "a"]%char /\
  string_to_value_error_mark ["-"; "1"; "2"; "3"; "."; "4"; "5"; "0"; "("; "5"; "3"; ")"; "a"]%char = Some (Some (-2469 # 20), Some (53 # 1000), ["a"%char]).
Proof. repeat split; vm_compute; reflexivity. Qed.
