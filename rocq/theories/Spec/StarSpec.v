(** The STAR/CIF text format, as its grammar gives it (CIF 1.1, with named loops "loop_name" as in STAR files of this project):
    lexical analysis of a text and its contents.  Nothing here comes from the library. *)
From Coq Require Import List Ascii Bool Arith.
Import ListNotations.

Definition text := list ascii.
Definition newline : ascii := ascii_of_nat 10.
Definition blank (c : ascii) : bool := let n := nat_of_ascii c in Nat.eqb n 32 || Nat.eqb n 9 || Nat.eqb n 10 || Nat.eqb n 13.
Definition is_newline (c : ascii) : bool := Nat.eqb (nat_of_ascii c) 10.
Definition is_quote (c : ascii) : bool := Ascii.eqb c "'"%char || Ascii.eqb c """"%char.
(** Names and keywords do not depend on the case of letters. *)
Definition lower_char (c : ascii) : ascii := let n := nat_of_ascii c in if Nat.leb 65 n && Nat.leb n 90 then ascii_of_nat (n + 32) else c.
Definition lower (s : text) : text := map lower_char s.
Fixpoint begins (p s : text) : bool := match p, s with [], _ => true | a :: p', b :: s' => Ascii.eqb a b && begins p' s' | _ :: _, [] => false end.

Inductive token := TGlobal (name : text) | TData (name : text) | TLoop (name : text) | TReserved (s : text) | TName (s : text) | TValue (s : text).
Definition kw_loop : text := ["l"; "o"; "o"; "p"; "_"]%char.
Definition kw_data : text := ["d"; "a"; "t"; "a"; "_"]%char.
Definition kw_save : text := ["s"; "a"; "v"; "e"; "_"]%char.
Definition kw_stop : text := ["s"; "t"; "o"; "p"; "_"]%char.
Definition kw_global : text := ["g"; "l"; "o"; "b"; "a"; "l"; "_"]%char.
(** A word that is not quoted. *)
Definition classify (w : text) : token :=
  match w with
  | "_"%char :: _ => TName (lower w)
  | _ =>
    if begins kw_loop (lower w) then TLoop (skipn 5 w)
    else if begins kw_data (lower w) then TData (skipn 5 w)
    else if begins kw_global (lower w) then TGlobal (skipn 7 w)
    else if begins kw_save (lower w) || begins kw_stop (lower w) then TReserved w
    else TValue w
  end.

(** The scanner: between words (at the beginning of a line or not), in a comment, in a word, in a quoted value, in a text block.
    A quoted value ends at its quote when that is followed by white space or the end; a text block starts and ends with ";" at the beginning of a line. *)
Inductive state := Between (bol : bool) | Comment | Bare (acc : text) | Quoted (q : ascii) (acc : text) | Block (bol : bool) (acc : text).
Definition cons_token (t : token) (o : option (list token)) : option (list token) := option_map (cons t) o.
Fixpoint scan (st : state) (s : text) {struct s} : option (list token) :=
  match s with
  | [] => match st with Between _ | Comment => Some [] | Bare acc => Some [classify (rev acc)] | Quoted _ _ | Block _ _ => None end
  | c :: r =>
    match st with
    | Between bol =>
      if blank c then scan (Between (is_newline c)) r
      else if Ascii.eqb c "#"%char then scan Comment r
      else if Ascii.eqb c ";"%char && bol then scan (Block false []) r
      else if is_quote c then scan (Quoted c []) r
      else scan (Bare [c]) r
    | Comment => if is_newline c then scan (Between true) r else scan Comment r
    | Bare acc => if blank c then cons_token (classify (rev acc)) (scan (Between (is_newline c)) r) else scan (Bare (c :: acc)) r
    | Quoted q acc =>
      if is_newline c then None
      else if Ascii.eqb c q && (match r with [] => true | c' :: _ => blank c' end) then cons_token (TValue (rev acc)) (scan (Between false) r)
      else scan (Quoted q (c :: acc)) r
    | Block bol acc =>
      if Ascii.eqb c ";"%char && bol then cons_token (TValue (rev (tl acc))) (scan (Between false) r)
      else scan (Block (is_newline c) (c :: acc)) r
    end
  end.
Definition tokens (s : text) : option (list token) := scan (Between true) s.

(** Contents: items (name, value), loops (name of the loop, names, rows), headings of data blocks and of the global block.  None: not a CIF text. *)
Inductive entry := EGlobal (name : text) | EData (name : text) | EItem (name value : text) | ELoop (name : text) (names : list text) (rows : list (list text)).
Fixpoint take_names (l : list token) : list text * list token :=
  match l with TName n :: r => let (a, b) := take_names r in (n :: a, b) | _ => ([], l) end.
Fixpoint take_values (l : list token) : list text * list token :=
  match l with TValue n :: r => let (a, b) := take_values r in (n :: a, b) | _ => ([], l) end.
(** Cut into rows of n values. *)
Fixpoint rows_of (fuel n : nat) (l : list text) : option (list (list text)) :=
  match l with
  | [] => Some []
  | _ => match fuel with
         | O => None
         | S f => if Nat.leb n (length l) then option_map (cons (firstn n l)) (rows_of f n (skipn n l)) else None
         end
  end.
Fixpoint contents_fuel (fuel : nat) (l : list token) : option (list entry) :=
  match fuel with
  | O => match l with [] => Some [] | _ => None end
  | S f =>
    match l with
    | [] => Some []
    | TGlobal n :: r => option_map (cons (EGlobal n)) (contents_fuel f r)
    | TData n :: r => option_map (cons (EData n)) (contents_fuel f r)
    | TName n :: TValue v :: r => option_map (cons (EItem n v)) (contents_fuel f r)
    | TLoop n :: r =>
      let (names, r1) := take_names r in let (vals, r2) := take_values r1 in
      match names, vals, rows_of (length vals) (length names) vals with
      | _ :: _, _ :: _, Some rows => option_map (cons (ELoop n names rows)) (contents_fuel f r2)
      | _, _, _ => None
      end
    | _ => None
    end
  end.
Definition contents (s : text) : option (list entry) := match tokens s with Some l => contents_fuel (length l) l | None => None end.
(** Texts a value may have, written without quotes (not at the beginning of a line) or between double quotes. *)
Definition reserved (w : text) : bool :=
  begins kw_loop (lower w) || begins kw_data (lower w) || begins kw_save (lower w) || begins kw_stop (lower w) || begins kw_global (lower w).
Definition bare_value (w : text) : Prop :=
  (forall c, In c w -> blank c = false) /\ reserved w = false /\
  match w with c :: _ => c <> "_"%char /\ c <> "#"%char /\ c <> "'"%char /\ c <> """"%char | [] => False end.
Fixpoint quote_inside (w : text) : bool :=
  match w with c :: ((c' :: _) as r) => (Ascii.eqb c """"%char && blank c') || quote_inside r | _ => false end.
Definition quotable_value (w : text) : Prop := (forall c, In c w -> is_newline c = false) /\ quote_inside w = false.
(** A word of a name. *)
Definition word (w : text) : Prop := forall c, In c w -> blank c = false.
(** A text that can stand in a text block: no line of it begins with ";". *)
Fixpoint block_value (bol : bool) (s : text) : bool :=
  match s with [] => true | c :: r => negb (Ascii.eqb c ";"%char && bol) && block_value (is_newline c) r end.
