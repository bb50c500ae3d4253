(** Model of string_to_value_error_mark and value_error_mark_to_string
    (cryspy/A_functions_base/function_1_strings.py l.78-160).
    First layer: numbers are exact rationals, numpy.round(x, decimals=d) is represented by the integer
    round-half-even(x*10^d).  Second layer: the integer read off a binary64 number, as the code computes it. *)
From Coq Require Import ZArith NArith QArith Qabs List Ascii Bool Floats.SpecFloat.
From Verif Require Import Model.Strings.
Import ListNotations.

Definition c_zero := "0"%char.
(** Python's float(text) for plain decimal notation: the exponent form, inf and nan are not modelled. *)
Definition parse_float (s : str) : option Q := if contains c_slash s then None else parse_fraction s.
(** numpy.round to an integer: ties to even *)
Definition round_half_even (q : Q) : Z :=
  let n := Qnum q in let d := Zpos (Qden q) in
  let f := (n / d)%Z in let r := (2 * (n mod d))%Z in
  if (r <? d)%Z then f else if (d <? r)%Z then (f + 1)%Z else if Z.even f then f else (f + 1)%Z.
Definition pow10 (n : nat) : Z := (10 ^ Z.of_nat n)%Z.
(** l.136-137: n_power = int(log10(error)), which truncates towards zero; for 0 < error <= 1 it is minus the
    largest m with error <= 10^-m. *)
Fixpoint neg_power (fuel : nat) (e : Q) : nat :=
  match fuel with
  | O => O
  | S f => if Qle_bool (10 * e) 1 then S (neg_power f (10 * e)) else O end.
Definition power_of (e : Q) : nat := neg_power (Pos.size_nat (Qden e)) e.
(** str.rjust(width, "0") *)
Definition rjust0 (w : nat) (s : str) : str := repeat c_zero (w - length s) ++ s.
(** l.138-150: the texts in front of the bracket and in it. *)
Definition decimal_text (neg : bool) (N : Z) (d : nat) : str :=
  (if neg then [c_minus] else []) ++ print_N (Z.to_N (Z.abs N / pow10 d)) ++ c_dot :: rjust0 d (print_N (Z.to_N (Z.abs N mod pow10 d))).
(** l.122-158 value_error_mark_to_string; [repr] is Python's formatting of a float (used without a rounding step);
    value None and nan are not modelled (the "." assigned for them at l.133 is overwritten below). *)
Definition value_error_mark_to_string (repr : Q -> str) (value : Q) (error : option Q) (mark : str) : str :=
  match error with
  | None => repr value
  | Some e =>
      if Qeq_bool e 0 then repr value ++ [c_lpar; c_rpar] ++ strip mark
      else if Qle_bool e 1 then
        let d := (power_of e + 2)%nat in
        let val_1 := round_half_even (value * inject_Z (pow10 d)) in
        let val_2 := round_half_even (e * inject_Z (pow10 d)) in
        decimal_text (val_1 <? 0)%Z val_1 d ++ [c_lpar] ++ print_Z val_2 ++ [c_rpar] ++ strip mark
      else
        print_Z (round_half_even value) ++ [c_lpar] ++ print_Z (round_half_even e) ++ [c_rpar] ++ strip mark
  end.
(** str.find of one character *)
Fixpoint find_char (c : ascii) (s : str) : option nat :=
  match s with [] => None | x :: r => if Ascii.eqb x c then Some O else option_map S (find_char c r) end.
Definition slice (i j : nat) (s : str) : str := firstn (j - i) (skipn i s).
(** str_1[:-n] *)
Definition drop_last (n : nat) (s : str) : str := match n with O => [] | _ => firstn (length s - n) s end.
Definition zero_digits (s : str) : str := map (fun c => if is_digit c then c_zero else c) s.
(** l.78-120 string_to_value_error_mark; the outer option is an exception, the inner ones Python's None. *)
Definition string_to_value_error_mark (string : str) : option (option Q * option Q * str) :=
  if (match string with [c] => Ascii.eqb c c_dot | _ => false end) then Some (None, None, [])
  else match find_char c_lpar string with
  | Some ind_1 =>
      let ind_2 := find_char c_rpar string in
      let s_sigma := match ind_2 with
                     | Some i2 => if Nat.ltb ind_1 i2 then
                                    let s := slice (S ind_1) i2 string in if (forallb is_digit s && negb (match s with [] => true | _ => false end))%bool then s else []
                                  else []
                     | None => [] end in
      let str_1 := firstn ind_1 string in
      let mark := strip (match ind_2 with Some i2 => skipn (S i2) string | None => string end) in
      match parse_float str_1 with
      | None => None
      | Some value =>
          match s_sigma with
          | [] => Some (Some value, Some 0, mark)
          | _ => match parse_float (zero_digits (drop_last (length s_sigma) str_1) ++ s_sigma) with
                 | Some e => Some (Some value, Some (Qabs e), mark)
                 | None => None end
          end
      end
  | None => Some (parse_float string, None, [])
  end.

(** * binary64 layer *)
Definition f64 := spec_float.
Definition f_of_Z (n : Z) : f64 := binary_normalize 53 1024 n 0 false.
(** the binary64 number nearest to a decimal literal n / 10^k with n and 10^k exactly representable (correctly rounded division) *)
Definition f_lit (n : Z) (k : nat) : f64 := SFdiv 53 1024 (f_of_Z n) (f_of_Z (pow10 k)).
Definition f_mul : f64 -> f64 -> f64 := SFmul 53 1024.
Definition f_div : f64 -> f64 -> f64 := SFdiv 53 1024.
Definition f_abs (x : f64) : f64 := SFabs x.
(** int(x): truncation towards zero *)
Definition f_trunc (x : f64) : Z :=
  match x with
  | S754_finite s m e => let a := (if (0 <=? e)%Z then Zpos m * 2 ^ e else Zpos m / 2 ^ (- e))%Z in if s then (- a)%Z else a
  | _ => 0%Z end.
(** rint: to the nearest integer, ties to even *)
Definition f_rint (x : f64) : f64 :=
  match x with
  | S754_finite s m e =>
      let a := (if (0 <=? e)%Z then Zpos m * 2 ^ e else round_half_even (Qmake (Zpos m) (Z.to_pos (2 ^ (- e)))))%Z in
      binary_normalize 53 1024 (if s then (- a)%Z else a) 0 s
  | _ => x end.
(** numpy.round(x, decimals=d) for d > 0: rint(x * 10^d) / 10^d *)
Definition f_round (d : nat) (x : f64) : f64 := f_div (f_rint (f_mul x (f_of_Z (pow10 d)))) (f_of_Z (pow10 d)).
(** x % 1. for x >= 0 (exact) *)
Definition f_mod1 (x : f64) : f64 := SFsub 53 1024 x (f_of_Z (f_trunc x)).
(** the value is below zero (0 itself, also -0, is not) *)
Definition f_neg (x : f64) : bool := match x with S754_finite s _ _ => s | _ => false end.
Definition f_to_Q (x : f64) : Q :=
  match x with
  | S754_finite s m e => let n := if s then Zneg m else Zpos m in if (0 <=? e)%Z then inject_Z (n * 2 ^ e) else Qmake n (Z.to_pos (2 ^ (- e)))
  | _ => 0 end.
(** l.136-150 in binary64 for 0 < error <= 1 *)
Definition float_text (value error : f64) (mark : str) : str :=
  let d := (power_of (f_to_Q error) + 2)%nat in
  let val_1 := f_round d value in
  let val_2 := f_round d error in
  let s_val_12 := rjust0 d (print_Z (f_trunc (f_mul (f_mod1 (f_abs val_1)) (f_of_Z (pow10 d))))) in
  let i_val_2 := f_trunc (f_mul val_2 (f_of_Z (pow10 d))) in
  (if f_neg val_1 then [c_minus] else []) ++ print_N (Z.to_N (Z.abs (f_trunc val_1))) ++ c_dot :: s_val_12 ++ [c_lpar] ++ print_Z i_val_2 ++ [c_rpar] ++ strip mark.
