(** Vocabulary for C21 and C31: characters, printed fractions. *)
From Coq Require Import ZArith QArith List Ascii Bool.

(** an ASCII letter A-Z or a-z *)
Definition is_letter (c : ascii) : bool :=
  let n := nat_of_ascii c in ((Nat.leb 97 n && Nat.leb n 122) || (Nat.leb 65 n && Nat.leb n 90))%bool.
(** a fraction in lowest terms with denominator at most 10 (Python's Fraction is always in lowest terms) *)
Definition small_fraction (q : Q) : Prop := Qred q = q /\ (Zpos (Qden q) <= 10)%Z.
(** sum of the numbers v attached to label l in a list of (number, label); None is the constant term *)
Definition total (l : option ascii) (ts : list (Q * option ascii)) : Q :=
  fold_right (fun t s => match snd t, l with
                         | Some a, Some b => if Ascii.eqb a b then fst t + s else s
                         | None, None => fst t + s
                         | _, _ => s end) 0 ts.
