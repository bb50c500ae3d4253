(** Independent vocabulary for space groups and their settings: groups generated by operations, the reading of a
    Hall symbol, change of axes and origin, orbits of Wyckoff positions. *)
From Coq Require Import Reals ZArith QArith Qreals List String Ascii.
From Verif Require Import Spec.Lin3 Spec.Symm.
Import ListNotations.
Open Scope string_scope.
Open Scope list_scope.
Open Scope Z_scope.

(** ** Groups generated by operations *)
(** The operations of a word applied one after the other, the last first. *)
Definition act_word (w : list Op) (x : ix -> R) : ix -> R := fold_right act x w.
(** The list is, up to lattice translations, everything the generators produce: each word of generators is an operation of the
    list and each operation of the list is such a word. *)
Definition generated_by (gens ops : list Op) : Prop :=
  (forall w, incl w gens -> exists e, In e ops /\ forall x, same_point (act e x) (act_word w x)) /\
  (forall e, In e ops -> exists w, incl w gens /\ forall x, same_point (act e x) (act_word w x)).

(** ** Hall symbols (S. R. Hall, Acta Cryst. A37 (1981) 517; International Tables B, 1.4): lattice letter, an optional inversion,
    rotations with their axes and translations, an optional shift of origin (0 0 n) in twelfths. *)
Definition v3 (f : ix -> Z) : V3 Z := mkV (f X1) (f X2) (f X3).
Definition m3 (f : ix -> ix -> Z) : M3 Z :=
  mkM (f X1 X1) (f X1 X2) (f X1 X3) (f X2 X1) (f X2 X2) (f X2 X3) (f X3 X1) (f X3 X2) (f X3 X3).
Definition id3 : M3 Z := mkM 1 0 0 0 1 0 0 0 1.
Definition neg3 (r : M3 Z) : M3 Z := m3 (fun i j => - mget r i j).
Definition v3z (a b c : Z) : V3 Z := mkV a b c.
(** Translations in twelfths. *)
Definition op12 (r : M3 Z) (t : V3 Z) : Op := mkE t 12 r.
Definition lattice_translations (c : ascii) : option (list (V3 Z)) :=
  match c with
  | "P" => Some [] | "A" => Some [v3z 0 6 6] | "B" => Some [v3z 6 0 6] | "C" => Some [v3z 6 6 0] | "I" => Some [v3z 6 6 6]
  | "F" => Some [v3z 0 6 6; v3z 6 0 6; v3z 6 6 0] | "R" => Some [v3z 8 4 4; v3z 4 8 8]
  | _ => None end%char.
(** Axes: x, y, z are a, b, c; p is the face diagonal a-b, q is a+b, s the body diagonal a+b+c. *)
Inductive axis := ax_x | ax_y | ax_z | ax_p | ax_q | ax_s.
Definition rotation (n : ascii) (a : axis) : option (M3 Z) :=
  match n, a with
  | "1", _ => Some id3
  | "2", ax_x => Some (mkM 1 0 0 0 (-1) 0 0 0 (-1))
  | "2", ax_y => Some (mkM (-1) 0 0 0 1 0 0 0 (-1))
  | "2", ax_z => Some (mkM (-1) 0 0 0 (-1) 0 0 0 1)
  | "2", ax_p => Some (mkM 0 (-1) 0 (-1) 0 0 0 0 (-1))
  | "2", ax_q => Some (mkM 0 1 0 1 0 0 0 0 (-1))
  | "3", ax_z => Some (mkM 0 (-1) 0 1 (-1) 0 0 0 1)
  | "3", ax_s => Some (mkM 0 0 1 1 0 0 0 1 0)
  | "4", ax_z => Some (mkM 0 (-1) 0 1 0 0 0 0 1)
  | "6", ax_z => Some (mkM 1 (-1) 0 1 0 0 0 0 1)
  | _, _ => None end%char.
Definition add3 (u v : V3 Z) : V3 Z := v3 (fun i => vget u i + vget v i).
(** A letter is a translation, a digit k after an n-fold axis along c the screw translation k/n. *)
Definition digit (c : ascii) : Z := Z.of_nat (nat_of_ascii c) - 48.
Definition screw (n k : Z) : option (V3 Z) := if (0 <? k) && (k <? n) then Some (v3z 0 0 (12 * k / n)) else None.
Definition symbol_translation (n c : ascii) : option (V3 Z) :=
  match c with
  | "a" => Some (v3z 6 0 0) | "b" => Some (v3z 0 6 0) | "c" => Some (v3z 0 0 6) | "n" => Some (v3z 6 6 6)
  | "u" => Some (v3z 3 0 0) | "v" => Some (v3z 0 3 0) | "w" => Some (v3z 0 0 3) | "d" => Some (v3z 3 3 3)
  | _ => screw (digit n) (digit c) end%char.
Fixpoint translations (n : ascii) (l : list ascii) : option (V3 Z) :=
  match l with
  | [] => Some (v3z 0 0 0)
  | c :: r => match symbol_translation n c, translations n r with Some u, Some v => Some (add3 u v) | _, _ => None end end.
Definition explicit_axis (l : list ascii) : option axis * list ascii :=
  match l with
  | "x" :: r => (Some ax_x, r) | "y" :: r => (Some ax_y, r) | "z" :: r => (Some ax_z, r)
  | "'" :: r => (Some ax_p, r) | """" :: r => (Some ax_q, r) | "*" :: r => (Some ax_s, r)
  | _ => (None, l) end%char.
(** The axis that is meant when none is written: c for the first rotation; a for a 2 after a 2 or a 4, a-b for a 2 after a 3 or a 6;
    the body diagonal for the third rotation. *)
Definition default_axis (i : nat) (prev : ascii) : axis :=
  match i with
  | O => ax_z
  | S O => match prev with "2" | "4" => ax_x | _ => ax_p end%char
  | _ => ax_s end.
Definition rotation_symbol (i : nat) (prev : ascii) (w : list ascii) : option (Op * ascii) :=
  let '(improper, w) := match w with "-"%char :: r => (true, r) | _ => (false, w) end in
  match w with
  | n :: r =>
      let '(a, r) := explicit_axis r in
      match rotation n (match a with Some a => a | None => default_axis i prev end), translations n r with
      | Some m, Some t => Some (op12 (if improper then neg3 m else m) t, n)
      | _, _ => None end
  | [] => None end.
Fixpoint rotation_symbols (i : nat) (prev : ascii) (ws : list (list ascii)) : option (list Op) :=
  match ws with
  | [] => Some []
  | w :: r => match rotation_symbol i prev w with
              | Some (e, n) => option_map (cons e) (rotation_symbols (S i) n r)
              | None => None end end.
(** Words between blanks. *)
Fixpoint words (cur : list ascii) (l : list ascii) : list (list ascii) :=
  match l with
  | [] => match cur with [] => [] | _ => [cur] end
  | c :: r => if Ascii.eqb c " " then match cur with [] => words [] r | _ => cur :: words [] r end else words (cur ++ [c]) r end%char.
(** The shift of origin: the last three words when they are "(p", "q", "r)". *)
Fixpoint split_shift (ws : list (list ascii)) : list (list ascii) * V3 Z :=
  match ws with
  | [["("; p]; [q]; [r; ")"]]%char => ([], v3z (digit p) (digit q) (digit r))
  | w :: r => let '(a, v) := split_shift r in (w :: a, v)
  | [] => ([], v3z 0 0 0) end.
(** An operation referred to the shifted origin: translation t + v - R v. *)
Definition shifted (v : V3 Z) (e : Op) : Op :=
  mkE (v3 (fun i => vget (e_b e) i + vget v i - (mget (e_r e) i X1 * vget v X1 + mget (e_r e) i X2 * vget v X2 + mget (e_r e) i X3 * vget v X3))) (e_d e) (e_r e).
Definition hall_generators (symbol : string) : option (list Op) :=
  match words [] (list_ascii_of_string symbol) with
  | lat :: ws =>
      let '(inv, l) := match lat with "-"%char :: r => ([op12 (neg3 id3) (v3z 0 0 0)], r) | _ => ([], lat) end in
      let '(rs, v) := split_shift ws in
      match l with
      | [c] => match lattice_translations c, rotation_symbols 0 "1"%char rs with
               | Some ts, Some es => Some (map (shifted v) (inv ++ map (op12 id3) ts ++ es))
               | _, _ => None end
      | _ => None end
  | [] => None end.

(** ** Change of axes and origin *)
Definition det3 (r : M3 Z) : Z :=
  mget r X1 X1 * (mget r X2 X2 * mget r X3 X3 - mget r X2 X3 * mget r X3 X2)
  - mget r X1 X2 * (mget r X2 X1 * mget r X3 X3 - mget r X2 X3 * mget r X3 X1)
  + mget r X1 X3 * (mget r X2 X1 * mget r X3 X2 - mget r X2 X2 * mget r X3 X1).
(** f takes the coordinates of a point in the first setting to its coordinates in the second one.  It carries the operations of
    the first setting to those of the second (up to lattice translations of the second), all of them; the cell of the first setting
    holds |det f| times as many lattice points as that of the second. *)
Definition carries (f : Op) (l l' : list Op) : Prop :=
  det3 (e_r f) <> 0 /\ Z.abs (det3 (e_r f)) * Z.of_nat (List.length l') = Z.of_nat (List.length l) /\
  (forall e, In e l -> exists e', In e' l' /\ forall x, same_point (act e' (act f x)) (act f (act e x))) /\
  (forall e', In e' l' -> exists e, In e l /\ forall x, same_point (act e' (act f x)) (act f (act e x))).

(** ** Wyckoff positions *)
Definition nat_of_ix (i : ix) : nat := match i with X1 => 0 | X2 => 1 | X3 => 2 end%nat.
(** The point of a position "r t + b" for the parameters t = (x, y, z). *)
Definition pos_at (rb : list (list Q) * list Q) (t : ix -> R) : ix -> R := fun i =>
  (sum3 (fun j => Q2R (nth (nat_of_ix j) (nth (nat_of_ix i) (fst rb) []) 0%Q) * t j) + Q2R (nth (nat_of_ix i) (snd rb) 0%Q))%R.
(** The points of l are the points equivalent to p. *)
Definition orbit_of (ops : list Op) (p : ix -> R) (l : list (ix -> R)) : Prop :=
  (forall q, In q l -> exists e, In e ops /\ same_point q (act e p)) /\
  (forall e, In e ops -> exists q, In q l /\ same_point (act e p) q).
(** A Wyckoff position: for all parameters its points are one orbit; the listed expressions are different and as many as the
    multiplicity says. *)
Definition wyckoff_position (ops : list Op) (mult : Z) (l : list (list (list Q) * list Q)) : Prop :=
  (exists p0 r, l = p0 :: r /\ forall t, orbit_of ops (pos_at p0 t) (map (fun p => pos_at p t) l)) /\
  Z.of_nat (List.length l) = mult /\
  ForallOrdPairs (fun a b => ~ forall t, same_point (pos_at a t) (pos_at b t)) l.

(** ** Settings offered for a number *)
(** The codes offered for a number; the triclinic groups have one setting, without a code. *)
Definition offered (codes : list string) (code : option string) : Prop :=
  match codes with [] => code = None | _ => exists c, code = Some c /\ In c codes end.
(** Settings offered by the package for which the tables have no (readable) entry: cell choices 2 and 3 of the monoclinic groups other than
    12 and 14, cell choice 2 of 12, the setting 1a-cb of the orthorhombic groups with two origins, and origin 2 of 228. *)
Definition is_one_of (s : string) (l : list string) : bool := existsb (String.eqb s) l.
Definition cell_choice_2 := ["b2"; "c2"; "a2"; "-b2"; "-c2"; "-a2"].
Definition cell_choice_3 := ["b3"; "c3"; "a3"; "-b3"; "-c3"; "-a3"].
Definition one_of (n : Z) (l : list Z) : bool := existsb (Z.eqb n) l.
Definition missing_setting (it : Z) (code : option string) : bool :=
  match code with
  | None => false
  | Some c =>
      (one_of it [3; 4; 5; 6; 7; 8; 9; 10; 11; 13; 15] && is_one_of c (cell_choice_2 ++ cell_choice_3))
      || (one_of it [12] && is_one_of c cell_choice_2)
      || (one_of it [48; 50; 59; 68; 70] && is_one_of c ["1a-cb"])
      || (one_of it [228] && is_one_of c ["2"]) end.
(** ** Reading a setting code: the rotation part of the change of coordinates from the standard axes *)
(** Signed letters: "ba-c" says a' = b, b' = a, c' = -c, that is x' = y, y' = x, z' = -z. *)
Definition letter_row (neg : bool) (c : ascii) : option (V3 Z) :=
  let s := if neg then -1 else 1 in
  if Ascii.eqb c "a" then Some (v3z s 0 0) else if Ascii.eqb c "b" then Some (v3z 0 s 0) else if Ascii.eqb c "c" then Some (v3z 0 0 s) else None.
Fixpoint letter_rows (neg : bool) (l : list ascii) : option (list (V3 Z)) :=
  match l with
  | [] => Some []
  | c :: r => if Ascii.eqb c "-" then letter_rows true r
              else match letter_row neg c, letter_rows false r with Some v, Some l => Some (v :: l) | _, _ => None end end.
Definition axes_of_letters (s : string) : option (M3 Z) :=
  match letter_rows false (list_ascii_of_string s) with
  | Some [u; v; w] => Some (mkM (v_1 u) (v_2 u) (v_3 u) (v_1 v) (v_2 v) (v_3 v) (v_1 w) (v_2 w) (v_3 w))
  | _ => None end.
Definition mul3 (a b : M3 Z) : M3 Z := m3 (fun i j => mget a i X1 * mget b X1 j + mget a i X2 * mget b X2 j + mget a i X3 * mget b X3 j).
(** Monoclinic cell choices (unique axis b): 2 is a' = -a-c, c' = a; 3 is a' = c, c' = -a-c. *)
Definition cell_choice (n : ascii) : option (M3 Z) :=
  if Ascii.eqb n "1" then Some id3
  else if Ascii.eqb n "2" then Some (mkM 0 0 (-1) 0 1 0 1 0 (-1))
  else if Ascii.eqb n "3" then Some (mkM (-1) 0 1 0 1 0 (-1) 0 0) else None.
(** Monoclinic unique axis. *)
Definition unique_axis (u : string) : option (M3 Z) :=
  if String.eqb u "b" then axes_of_letters "abc" else if String.eqb u "-b" then axes_of_letters "-cba"
  else if String.eqb u "c" then axes_of_letters "cab" else if String.eqb u "-c" then axes_of_letters "a-cb"
  else if String.eqb u "a" then axes_of_letters "bca" else if String.eqb u "-a" then axes_of_letters "ba-c" else None.
(** Obverse hexagonal to rhombohedral axes: x_h = (2x-y-z, x+y-2z, x+y+z)/3 has the inverse below. *)
Definition rhombohedral : M3 Z := mkM 1 0 1 (-1) 1 1 0 (-1) 1.
Definition axes_of_code (code : option string) : option (M3 Z) :=
  match code with
  | None => Some id3
  | Some s =>
      if is_one_of s ["1"; "2"; "h"] then Some id3
      else if String.eqb s "r" then Some rhombohedral
      else match s with
           | String "1" r | String "2" r => axes_of_letters r
           | String u (String n EmptyString) => match unique_axis (String u ""), cell_choice n with Some a, Some c => Some (mul3 a c) | _, _ => None end
           | String m (String u (String n EmptyString)) =>
               match unique_axis (String m (String u "")), cell_choice n with
               | Some a, Some c => Some (mul3 a c) | _, _ => axes_of_letters s end
           | _ => axes_of_letters s end%char end.
(** Settings with origin 1 in which the centre of symmetry is not where the axes are. *)
Definition misplaced_centre (it : Z) (code : option string) : bool :=
  match code with
  | None => false
  | Some c => (one_of it [48] && is_one_of c ["1abc"; "1ba-c"; "1cab"; "1-cba"; "1bca"])
              || (one_of it [50; 59] && is_one_of c ["1cab"; "1-cba"; "1bca"])
              || (one_of it [68] && is_one_of c ["1cab"; "1-cba"]) end.
(** The same, with the two settings of 70 in which it is on an axis, but not where the table of Wyckoff positions has it. *)
Definition misplaced_origin (it : Z) (code : option string) : bool :=
  misplaced_centre it code || match code with Some c => one_of it [70] && is_one_of c ["1ba-c"; "1-cba"] | None => false end.
(** Two lists of the same operations, up to lattice translations. *)
Definition same_operations (l l' : list Op) : Prop :=
  List.length l = List.length l' /\
  (forall e, In e l -> exists e', In e' l' /\ same_op e e') /\ (forall e', In e' l' -> exists e, In e l /\ same_op e e').
(** Positions that are not orbits: those of the settings above, those of 144 (its operations are those of 145), and b of 178 and 179. *)
Definition odd_position (it : Z) (code : option string) (letter : list ascii) : bool :=
  misplaced_origin it code || one_of it [144] || (one_of it [178; 179] && is_one_of (string_of_list_ascii letter) ["b"]).
(** ** Atoms on Wyckoff positions *)
Definition point (x y z : Q) : ix -> R := fun i => match i with X1 => Q2R x | X2 => Q2R y | X3 => Q2R z end.
Definition lies_on (full : list (list (list Q) * list Q)) (p : ix -> R) : Prop := exists rb t, In rb full /\ same_point p (pos_at rb t).
(** At most n points are equivalent to p modulo the lattice. *)
Definition orbit_at_most (ops : list Op) (p : ix -> R) (n : Z) : Prop := exists l, Z.of_nat (List.length l) = n /\ orbit_of ops p l.
(** Positions of the groups with hexagonal axes some of whose expressions start with 2x. *)
Definition doubled_positions : list (Z * list string) :=
  [(149, ["k"; "j"]); (151, ["b"; "a"]); (153, ["b"; "a"]); (156, ["d"]); (160, ["b"]); (162, ["j"; "i"]); (163, ["h"]); (164, ["i"]);
   (166, ["h"]); (177, ["m"; "l"]); (178, ["b"]); (179, ["b"]); (180, ["j"; "i"]); (181, ["j"; "i"]); (182, ["h"]); (183, ["e"]);
   (186, ["c"]); (187, ["n"; "k"; "j"]); (188, ["j"]); (191, ["o"; "m"; "l"]); (192, ["k"]); (193, ["i"]); (194, ["k"; "h"])].
Definition doubled_position (it : Z) (code : option string) (letter : list ascii) : bool :=
  match code with
  | Some c => if is_one_of c ["h"] then existsb (fun r => Z.eqb it (fst r) && is_one_of (string_of_list_ascii letter) (snd r)) doubled_positions else false
  | None => false end.
(** Close modulo the lattice. *)
Definition close_points (eps : R) (p q : ix -> R) : Prop := forall i, exists n : Z, (Rabs (p i - q i - IZR n) <= eps)%R.
Definition coords (v : list Q) : ix -> R := fun i => Q2R (nth (nat_of_ix i) v 0%Q).
(** Some operation takes q within eps of p, modulo the lattice. *)
Definition equivalent_within (eps : R) (ops : list Op) (p q : ix -> R) : Prop := exists e, In e ops /\ close_points eps (act e q) p.
(** h is p with its coordinates in some order and with some signs. *)
Definition signed_order (p h : ix -> R) : Prop :=
  exists (s : ix -> ix) (u : ix -> bool), (forall i j, s i = s j -> i = j) /\ forall i, h i = (if u i then - p (s i) else p (s i))%R.
(** The coordinates without a flag can be chosen freely and determine those with a flag. *)
Definition parametrized (p : (ix -> R) -> ix -> R) (flag : ix -> bool) : Prop :=
  (forall v, exists t, forall i, flag i = false -> p t i = v i) /\
  (forall t t', (forall i, flag i = false -> p t i = p t' i) -> forall i, p t i = p t' i).
Definition flag_of (f : bool * bool * bool) (i : ix) : bool := let '(a, b, c) := f in match i with X1 => a | X2 => b | X3 => c end.
(** Positions whose coordinates printed by full_coord_xyz are not those meant: a denominator of 12 in a and e of 167 (hexagonal axes) and in b of 178 and 179. *)
Definition misprinted_position (it : Z) (code : option string) (letter : list ascii) : bool :=
  match code with
  | Some c => is_one_of c ["h"] && ((one_of it [167] && is_one_of (string_of_list_ascii letter) ["a"; "e"]) || (one_of it [178; 179] && is_one_of (string_of_list_ascii letter) ["b"]))
  | None => false end.
(** ** Point groups: how many rotations of each kind *)
Inductive kind := k1 | k2 | k3 | k4 | k6 | k1b | km | k3b | k4b | k6b | kother.
Definition trace3 (r : M3 Z) : Z := mget r X1 X1 + mget r X2 X2 + mget r X3 X3.
Definition kind_of (r : M3 Z) : kind :=
  if det3 r =? 1 then (if trace3 r =? 3 then k1 else if trace3 r =? -1 then k2 else if trace3 r =? 0 then k3 else if trace3 r =? 1 then k4 else if trace3 r =? 2 then k6 else kother)
  else if det3 r =? -1 then (if trace3 r =? -3 then k1b else if trace3 r =? 1 then km else if trace3 r =? 0 then k3b else if trace3 r =? -1 then k4b else if trace3 r =? -2 then k6b else kother)
  else kother.
Definition kind_eqb (a b : kind) : bool :=
  match a, b with k1, k1 | k2, k2 | k3, k3 | k4, k4 | k6, k6 | k1b, k1b | km, km | k3b, k3b | k4b, k4b | k6b, k6b | kother, kother => true | _, _ => false end.
Definition kinds := [k1; k2; k3; k4; k6; k1b; km; k3b; k4b; k6b; kother].
(** Numbers of 1, 2, 3, 4, 6, -1, m, -3, -4, -6 in a point group. *)
Definition point_group_table : list (string * list nat) :=
  [("1", [1;0;0;0;0;0;0;0;0;0]); ("-1", [1;0;0;0;0;1;0;0;0;0]); ("2", [1;1;0;0;0;0;0;0;0;0]); ("m", [1;0;0;0;0;0;1;0;0;0]); ("2/m", [1;1;0;0;0;1;1;0;0;0]);
   ("222", [1;3;0;0;0;0;0;0;0;0]); ("mm2", [1;1;0;0;0;0;2;0;0;0]); ("mmm", [1;3;0;0;0;1;3;0;0;0]);
   ("4", [1;1;0;2;0;0;0;0;0;0]); ("-4", [1;1;0;0;0;0;0;0;2;0]); ("4/m", [1;1;0;2;0;1;1;0;2;0]); ("422", [1;5;0;2;0;0;0;0;0;0]);
   ("4mm", [1;1;0;2;0;0;4;0;0;0]); ("-42m", [1;3;0;0;0;0;2;0;2;0]); ("4/mmm", [1;5;0;2;0;1;5;0;2;0]);
   ("3", [1;0;2;0;0;0;0;0;0;0]); ("-3", [1;0;2;0;0;1;0;2;0;0]); ("32", [1;3;2;0;0;0;0;0;0;0]); ("3m", [1;0;2;0;0;0;3;0;0;0]); ("-3m", [1;3;2;0;0;1;3;2;0;0]);
   ("6", [1;1;2;0;2;0;0;0;0;0]); ("-6", [1;0;2;0;0;0;1;0;0;2]); ("6/m", [1;1;2;0;2;1;1;2;0;2]); ("622", [1;7;2;0;2;0;0;0;0;0]); ("6mm", [1;1;2;0;2;0;6;0;0;0]);
   ("-62m", [1;3;2;0;0;0;4;0;0;2]); ("6/mmm", [1;7;2;0;2;1;7;2;0;2]);
   ("23", [1;3;8;0;0;0;0;0;0;0]); ("m-3", [1;3;8;0;0;1;3;8;0;0]); ("432", [1;9;8;6;0;0;0;0;0;0]); ("-43m", [1;3;8;0;0;0;6;0;6;0]); ("m-3m", [1;9;8;6;0;1;9;8;6;0])]%nat.
(** The rotations l, each listed once, are those of the point group with this name. *)
Definition point_group_named (name : string) (l : list (M3 Z)) : Prop :=
  NoDup l /\ exists row, In (name, row) point_group_table /\
  map (fun k => List.length (filter (fun r => kind_eqb (kind_of r) k) l)) kinds = row ++ [0%nat].
(** The rotations of a list of operations. *)
Definition rotations_of (ops : list Op) (l : list (M3 Z)) : Prop := NoDup l /\ forall r, In r l <-> exists e, In e ops /\ e_r e = r.
