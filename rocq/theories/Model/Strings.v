(** Model of the symmetry-operation string functions of cryspy/A_functions_base/function_1_strings.py (l.254-368).
    Strings are lists of characters; Python's Fraction is a reduced rational (Q with Qred). Labels are single
    characters (the library uses x,y,z / a,b,c / mx,my,mz is not covered).  An exception (ValueError,
    ZeroDivisionError) is None. *)
From Coq Require Import ZArith NArith QArith Qabs List Ascii Bool.
Import ListNotations.

Definition str := list ascii.
Definition ch (n : nat) : ascii := ascii_of_nat n.
Definition code (c : ascii) : nat := nat_of_ascii c.
Definition is_ws (c : ascii) : bool := let n := code c in (Nat.eqb n 32 || (Nat.leb 9 n && Nat.leb n 13))%bool.
Definition is_digit (c : ascii) : bool := let n := code c in (Nat.leb 48 n && Nat.leb n 57)%bool.
Definition c_plus := "+"%char. Definition c_minus := "-"%char. Definition c_slash := "/"%char.
Definition c_dot := "."%char. Definition c_space := " "%char. Definition c_comma := ","%char.
Definition c_one := "1"%char. Definition c_lpar := "("%char. Definition c_rpar := ")"%char.

(** str.strip / lstrip / rstrip *)
Fixpoint lstrip_by (p : ascii -> bool) (s : str) : str := match s with c :: r => if p c then lstrip_by p r else s | [] => [] end.
Definition rstrip_by (p : ascii -> bool) (s : str) : str := rev (lstrip_by p (rev s)).
Definition strip (s : str) : str := rstrip_by is_ws (lstrip_by is_ws s).
(** str.replace with a one-character pattern, and with a two-character pattern *)
Definition replace1 (c : ascii) (rep s : str) : str := flat_map (fun x => if Ascii.eqb x c then rep else [x]) s.
Fixpoint replace2 (a b : ascii) (rep s : str) {struct s} : str :=
  match s with
  | [] => []
  | x :: r => match r with
              | y :: r' => if (Ascii.eqb x a && Ascii.eqb y b)%bool then rep ++ replace2 a b rep r' else x :: replace2 a b rep r
              | [] => [x] end
  end.
(** str.split() *)
Fixpoint split_ws (cur : str) (s : str) : list str :=
  match s with
  | [] => match cur with [] => [] | _ => [rev cur] end
  | c :: r => if is_ws c then (match cur with [] => split_ws [] r | _ => rev cur :: split_ws [] r end) else split_ws (c :: cur) r
  end.
(** str.split(",") *)
Fixpoint split_on (d : ascii) (cur : str) (s : str) : list str :=
  match s with
  | [] => [rev cur]
  | c :: r => if Ascii.eqb c d then rev cur :: split_on d [] r else split_on d (c :: cur) r
  end.
Definition contains (c : ascii) (s : str) : bool := existsb (Ascii.eqb c) s.
Definition ends_with (c : ascii) (s : str) : bool := match rev s with x :: _ => Ascii.eqb x c | [] => false end.
Definition starts_with (c : ascii) (s : str) : bool := match s with x :: _ => Ascii.eqb x c | [] => false end.

(** digits <-> numbers *)
Definition digit_value (c : ascii) : N := N.of_nat (code c - 48).
Definition digit_char (n : N) : ascii := ch (48 + N.to_nat n).
Definition num_value (s : str) : N := fold_left (fun acc c => (10 * acc + digit_value c)%N) s 0%N.
Fixpoint dec_digits (fuel : nat) (n : N) : str :=
  match fuel with
  | O => []
  | S f => if (n <? 10)%N then [digit_char n] else dec_digits f (n / 10)%N ++ [digit_char (n mod 10)%N]
  end.
(** format of a non-negative / any integer *)
Definition print_N (n : N) : str := dec_digits (S (N.size_nat n)) n.
Definition print_Z (z : Z) : str := if (z <? 0)%Z then c_minus :: print_N (Z.to_N (- z)) else print_N (Z.to_N z).

(** Python's Fraction(string): [sign] digits [/ digits] or [sign] digits . digits; exponents and underscores are not modelled. *)
Fixpoint span (p : ascii -> bool) (s : str) : str * str :=
  match s with
  | c :: r => if p c then let '(a, b) := span p r in (c :: a, b) else ([], s)
  | [] => ([], []) end.
Definition parse_fraction (s0 : str) : option Q :=
  let s := strip s0 in
  let '(sg, s1) := match s with
                   | c :: r => if Ascii.eqb c c_plus then (1%Z, r) else if Ascii.eqb c c_minus then ((-1)%Z, r) else (1%Z, s)
                   | [] => (1%Z, s) end in
  let '(num, s2) := span is_digit s1 in
  match s2 with
  | [] => match num with [] => None | _ => Some (inject_Z (sg * Z.of_N (num_value num))) end
  | c :: r =>
      if Ascii.eqb c c_slash then
        match num, r with
        | [], _ => None | _, [] => None
        | _, _ => if forallb is_digit r then
                    match num_value r with N0 => None | Npos p => Some (Qred (Qmake (sg * Z.of_N (num_value num)) p)) end
                  else None end
      else if Ascii.eqb c c_dot then
        if (forallb is_digit r && negb (match num, r with [], [] => true | _, _ => false end))%bool
        then Some (Qred (Qmake (sg * Z.of_N (num_value (num ++ r))) (Pos.of_nat (Nat.pow 10 (length r)))))
        else None
      else None
  end.
(** Fraction.limit_denominator (Python standard library, continued fractions); fuel 20 is enough for the bound 10. *)
Fixpoint limit_loop (fuel : nat) (mx : Z) (p0 q0 p1 q1 n d : Z) : Z * Z * Z * Z :=
  match fuel with
  | O => (p0, q0, p1, q1)
  | S f => let a := (n / d)%Z in let q2 := (q0 + a * q1)%Z in
           if (mx <? q2)%Z then (p0, q0, p1, q1) else limit_loop f mx p1 q1 (p0 + a * p1)%Z q2 d (n - a * d)%Z
  end.
Definition zfrac (n d : Z) : Q := Qred (Qmake (n * Z.sgn d) (Z.to_pos (Z.abs d))).
Definition limit_denominator (mx : Z) (q : Q) : Q :=
  let q := Qred q in
  if (Zpos (Qden q) <=? mx)%Z then q
  else
    let '(p0, q0, p1, q1) := limit_loop 40 mx 0 1 1 0 (Qnum q) (Zpos (Qden q)) in
    let k := ((mx - q0) / q1)%Z in
    let bound1 := zfrac (p0 + k * p1) (q0 + k * q1) in
    let bound2 := zfrac p1 q1 in
    if Qle_bool (Qabs (bound2 - q)) (Qabs (bound1 - q)) then bound2 else bound1.
Definition frac_add (a b : Q) : Q := Qred (a + b).

(** function_1_strings.py l.280: the terms of the expression. *)
Definition terms (name : str) : list str :=
  split_ws [] (replace1 c_minus [c_space; c_minus] (replace1 c_plus [c_space; c_plus] (replace1 c_space [] (strip name)))).
(** l.283-291: the text of the coefficient in a term. *)
Definition coefficient_text (label : ascii) (name : str) : str :=
  let s_1 := replace2 c_minus c_slash [c_minus; c_one; c_slash] (replace2 c_plus c_slash [c_plus; c_one; c_slash] (replace1 label [] name)) in
  let s_1 := match s_1 with [] => [c_one] | _ => s_1 end in
  let s_1 := if starts_with c_slash s_1 then c_one :: s_1 else s_1 in
  let s_1 := if ends_with c_plus s_1 then s_1 ++ [c_one] else s_1 in
  let s_1 := if ends_with c_minus s_1 then s_1 ++ [c_one] else s_1 in
  s_1.
Definition add_text (res : option Q) (text : str) : option Q :=
  match res, parse_fraction text with
  | Some r, Some q => Some (frac_add r (limit_denominator 10 q))
  | _, _ => None end.
(** l.281-292 *)
Definition coefficient (l_name : list str) (label : ascii) : option Q :=
  fold_left (fun res n => if contains label n then add_text res (coefficient_text label n) else res) l_name (Some 0).
(** l.293-298 *)
Definition offset_of (labels : list ascii) (l_name : list str) : option Q :=
  fold_left (fun res n => if forallb (fun l => negb (contains l n)) labels then add_text res n else res) l_name (Some 0).
Fixpoint opt_list {A} (l : list (option A)) : option (list A) :=
  match l with
  | [] => Some []
  | Some a :: r => match opt_list r with Some r' => Some (a :: r') | None => None end
  | None :: _ => None end.
(** l.271-300 transform_string_to_digits *)
Definition transform_string_to_digits (name : str) (labels : list ascii) : option (list Q * Q) :=
  let l_name := terms name in
  match opt_list (map (coefficient l_name) labels), offset_of labels l_name with
  | Some c, Some o => Some (c, o)
  | _, _ => None end.
(** l.303-320 transform_fraction_with_label_to_string (the argument is a Fraction) *)
Definition transform_fraction_with_label_to_string (val : Q) (label : ascii) : str :=
  let n := Qnum val in let d := Zpos (Qden val) in
  if (n =? 0)%Z then []
  else if ((n =? 1) && (d =? 1))%Z then [label]
  else if ((n =? -1) && (d =? 1))%Z then [c_minus; label]
  else if (d =? 1)%Z then print_Z n ++ [label]
  else if (n =? 1)%Z then label :: c_slash :: print_Z d
  else print_Z n ++ label :: c_slash :: print_Z d.
(** str(Fraction) *)
Definition print_Q (q : Q) : str := if (Zpos (Qden q) =? 1)%Z then print_Z (Qnum q) else print_Z (Qnum q) ++ c_slash :: print_Z (Zpos (Qden q)).
(** l.323-358 transform_digits_to_string *)
Definition push_term (l_res : list str) (name : str) : list str :=
  match name with
  | [] => l_res
  | _ => if starts_with c_minus name then l_res ++ [name]
         else match l_res with [] => l_res ++ [name] | _ => l_res ++ [c_plus :: name] end end.
Definition transform_digits_to_string (labels : list ascii) (coefficients : list Q) (offset : Q) : str :=
  let l_res := fold_left (fun l cl => push_term l (transform_fraction_with_label_to_string (fst cl) (snd cl))) (combine coefficients labels) [] in
  let name := print_Q (limit_denominator 10 offset) in
  let l_res := if (Qnum (limit_denominator 10 offset) =? 0)%Z
               then (match l_res with [] => [name] | _ => l_res end)
               else if (match l_res with [] => true | _ => false end || starts_with c_minus name)%bool then l_res ++ [name]
               else l_res ++ [c_plus :: name] in
  concat l_res.
(** l.254-268 transform_string_to_r_b *)
Definition transform_string_to_r_b (name : str) (labels : list ascii) : option (list (list Q) * list Q) :=
  let l_name := split_on c_comma [] (rstrip_by (Ascii.eqb c_rpar) (lstrip_by (Ascii.eqb c_lpar) (filter (fun c => negb (is_ws c)) name))) in
  match opt_list (map (fun n => transform_string_to_digits n labels) l_name) with
  | Some l => Some (map fst l, map snd l)
  | None => None end.
(** l.361-363 transform_r_b_to_string *)
Fixpoint join (sep : ascii) (l : list str) : str :=
  match l with [] => [] | [s] => s | s :: r => s ++ sep :: join sep r end.
Definition transform_r_b_to_string (r : list (list Q)) (b : list Q) (labels : list ascii) : str :=
  join c_comma (map (fun rb => transform_digits_to_string labels (fst rb) (snd rb)) (combine r b)).
