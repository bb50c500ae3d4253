(** Model of the space-group tables and of the construction of a SpaceGroup:
    cryspy/A_functions_base/function_2_space_group.py, function_2_sym_elems.py, C_item_loop_classes/cl_2_space_group.py,
    cl_1_space_group_symop.py, cl_1_space_group_wyckoff.py.  The data files are modelled as their lines (SgTables.v,
    WyckoffData.v) and read here as the code reads them.  Python ints are Z; an exception is None. *)
From Coq Require Import ZArith QArith Qround List String Ascii Bool.
From Verif Require Import Spec.Lin3 Spec.Symm Model.Strings Model.Numbers Model.SgTables Model.WyckoffData.
Import ListNotations.
Open Scope string_scope.
Open Scope list_scope.
Open Scope Z_scope.

Definition obind {A B} (x : option A) (f : A -> option B) : option B := match x with Some a => f a | None => None end.
Notation "'do' x <- e ; f" := (obind e (fun x => f)) (at level 200, x pattern, e at level 100, f at level 200).
(** The characters of a name. *)
Definition chars (s : string) : str := list_ascii_of_string s.
Definition str_eqb (a b : str) : bool := String.eqb (string_of_list_ascii a) (string_of_list_ascii b).
Definition isin_str (k : string) (l : list string) : bool := existsb (String.eqb k) l.
Definition opt_eqb (a b : option string) : bool := match a, b with Some x, Some y => String.eqb x y | None, None => true | _, _ => false end.
(** Python's int(s) of a digit string *)
Definition int_of (s : str) : Z := Z.of_N (num_value s).
Definition all_digits (s : str) : bool := (forallb is_digit s && negb (match s with [] => true | _ => false end))%bool.

(** ** Reading the data files *)
(** A card: it_number, and the keyed lists of values.  function_2_space_group.py l.46-84 read_el_cards
    (the keys "name" and "singony" of the heading line are not kept: nothing reads them). *)
Record Card := mkCard { ca_it : Z; ca_fields : list (str * list str) }.
Fixpoint add_field (k v : str) (l : list (str * list str)) : list (str * list str) :=
  match l with
  | [] => [(k, [v])]
  | (k', vs) :: r => if str_eqb k' k then (k', vs ++ [v]) :: r else (k', vs) :: add_field k v r end.
Fixpoint field (k : string) (l : list (str * list str)) : option (list str) :=
  match l with [] => None | (k', vs) :: r => if str_eqb k' (chars k) then Some vs else field k r end.
(** l.66-84: the loop over the non-empty lines; [cur] is dcard, [acc] ldcard. *)
Fixpoint read_cards_loop (ls : list str) (cur : option Card) (acc : list Card) : option (list Card) :=
  match ls with
  | [] => match cur with Some d => Some (acc ++ [d]) | None => None end
  | hh :: r =>
      match split_ws [] hh with
      | w0 :: w1 :: w2 :: _ =>
          if all_digits w0 then read_cards_loop r (Some (mkCard (int_of w0) [])) (match cur with Some d => acc ++ [d] | None => acc end)
          else match cur, split_on ":"%char [] hh with
               | Some d, k :: v :: _ => read_cards_loop r (Some (mkCard (ca_it d) (add_field (strip k) (strip v) (ca_fields d)))) acc
               | _, _ => None end
      | w0 :: _ =>
          if all_digits w0 then None
          else match cur, split_on ":"%char [] hh with
               | Some d, k :: v :: _ => read_cards_loop r (Some (mkCard (ca_it d) (add_field (strip k) (strip v) (ca_fields d)))) acc
               | _, _ => None end
      | [] => None
      end
  end.
Definition read_el_cards : option (list Card) :=
  read_cards_loop (filter (fun s => match s with [] => false | _ => true end) (map (fun l => strip (chars l)) itables_lines)) None [].

(** One Wyckoff position: multiplicity, letter, site symmetry, coordinate strings; one card of wyckoff.dat.
    function_2_space_group.py l.87-130 read_wyckoff ("centr_000" and "hm_full" are not kept: nothing reads them). *)
Record WPos := mkWPos { w_mult : Z; w_letter : str; w_sym : str; w_coords : list str }.
Record WCard := mkWCard { wc_it : Z; wc_choice : Z; wc_pos : list WPos }.
(** l.92-95: the index of the first token that is not a number, of the last token when all are; for an empty line the
    variable keeps its value [prev]. *)
Fixpoint first_non_digit (i : nat) (l : list str) (prev : nat) : nat :=
  match l with [] => prev | w :: r => if all_digits w then first_non_digit (S i) r i else i end.
(** l.90-99: the line numbers that start and end a card. *)
Fixpoint scan_lines (i : nat) (prev : nat) (ls : list (list str)) : list nat * list nat :=
  match ls with
  | [] => ([], [])
  | l_h :: r =>
      let k := first_non_digit 0 l_h prev in
      let '(b, e) := scan_lines (S i) k r in
      ((if Nat.leb 4 k then [i] else []) ++ b, (match l_h with [] => [i] | _ => [] end) ++ e)
  end.
(** l.115-128 *)
Fixpoint read_positions (ls : list (list str)) (cur : option WPos) (acc : list WPos) : option (list WPos) :=
  match ls with
  | [] => match cur with Some d => Some (acc ++ [d]) | None => None end
  | l_h :: r =>
      match l_h with
      | [] => None
      | w0 :: rest =>
          if all_digits w0 then
            match rest with
            | w1 :: w2 :: _ => read_positions r (Some (mkWPos (int_of w0) w1 w2 [])) (match cur with Some d => acc ++ [d] | None => acc end)
            | _ => None end
          else match cur with
               | Some d => read_positions r (Some (mkWPos (w_mult d) (w_letter d) (w_sym d) (w_coords d ++ l_h))) acc
               | None => None end
      end
  end.
(** l.100-130: the cards from the pairs (first line, last line); the two index lists are increasing, so the file is consumed from the left:
    [i] is the number of the first line of [ls]. *)
Definition read_one (lines : list (list str)) : option WCard :=
  match lines with
  | (w0 :: w1 :: _) :: r => do p <- read_positions r None []; Some (mkWCard (int_of w0) (int_of w1) p)
  | _ => None end.
Fixpoint read_wcards (i : nat) (ls : list (list str)) (be : list (nat * nat)) : option (list WCard) :=
  match be with
  | [] => Some []
  | (b, e) :: r =>
      let from_b := skipn (b - i)%nat ls in
      do c <- read_one (firstn (e - b)%nat from_b);
      do cs <- read_wcards b from_b r;
      Some (c :: cs)
  end.
Definition read_wyckoff : option (list WCard) :=
  let ls := map (fun l => split_ws [] (chars l)) wyckoff_lines in
  let '(b, e) := scan_lines 0 0 ls in read_wcards 0 ls (combine b e).

(** ** Numbers, names and settings *)
(** l.133-152 get_crystal_system_by_it_number *)
Definition get_crystal_system_by_it_number (it : Z) : option string :=
  if (1 <=? it) && (it <=? 2) then Some "triclinic"
  else if (3 <=? it) && (it <=? 15) then Some "monoclinic"
  else if (16 <=? it) && (it <=? 74) then Some "orthorhombic"
  else if (75 <=? it) && (it <=? 142) then Some "tetragonal"
  else if (143 <=? it) && (it <=? 167) then Some "trigonal"
  else if (168 <=? it) && (it <=? 194) then Some "hexagonal"
  else if (195 <=? it) && (it <=? 230) then Some "cubic"
  else None.
(** range(a, b) *)
Definition range (a b : Z) : list Z := map (fun k => a + Z.of_nat k) (seq 0 (Z.to_nat (b - a))).
(** l.155-175 (the tetragonal range starts at 7 in the source) *)
Definition ACCESIBLE_IT_NUMBER : list Z :=
  range 1 3 ++ range 3 16 ++ range 16 75 ++ range 7 143 ++ range 143 168 ++ range 168 195 ++ range 195 231.
(** l.164-167 *)
Definition ortho_double := [48; 50; 59; 68; 70].
Definition tetra_double := [85; 86; 88; 125; 126; 129; 130; 133; 134; 137; 138; 141; 142].
Definition trig_double := [146; 148; 155; 160; 161; 166; 167].
Definition cubic_double := [201; 203; 222; 224; 227; 228].
Definition zin (z : Z) (l : list Z) : bool := existsb (Z.eqb z) l.
(** l.178-208 *)
Definition get_default_it_coordinate_system_code_by_it_number (it : Z) : option string :=
  match get_crystal_system_by_it_number it with
  | Some s =>
      if String.eqb s "triclinic" then None
      else if String.eqb s "monoclinic" then Some "b1"
      else if String.eqb s "orthorhombic" then (if zin it ortho_double then Some "2abc" else Some "abc")
      else if String.eqb s "tetragonal" then (if zin it tetra_double then Some "2" else Some "1")
      else if String.eqb s "trigonal" then (if zin it trig_double then Some "h" else Some "r")
      else if String.eqb s "hexagonal" then Some "h"
      else if String.eqb s "cubic" then (if zin it cubic_double then Some "2" else Some "1")
      else None
  | None => None end.
(** l.211-244 *)
Definition get_it_coordinate_system_codes_by_it_number (it : Z) : list string :=
  match get_crystal_system_by_it_number it with
  | Some s =>
      if String.eqb s "triclinic" then []
      else if String.eqb s "monoclinic" then
        ["b1"; "c1"; "a1"; "b2"; "c2"; "a2"; "b3"; "c3"; "a3"; "-b1"; "-c1"; "-a1"; "-b2"; "-c2"; "-a2"; "-b3"; "-c3"; "-a3"]
      else if String.eqb s "orthorhombic" then
        (if zin it ortho_double then ["1abc"; "1ba-c"; "1cab"; "1-cba"; "1bca"; "1a-cb"; "2abc"; "2ba-c"; "2cab"; "2-cba"; "2bca"; "2a-cb"]
         else ["abc"; "ba-c"; "cab"; "-cba"; "bca"; "a-cb"])
      else if String.eqb s "tetragonal" then (if zin it tetra_double then ["2"; "1"] else ["1"])
      else if String.eqb s "trigonal" then (if zin it trig_double then ["h"; "r"] else ["h"])
      else if String.eqb s "hexagonal" then ["h"]
      else if String.eqb s "cubic" then (if zin it cubic_double then ["2"; "1"] else ["1"])
      else []
  | None => [] end.
Fixpoint position (k : string) (l : list string) : option Z :=
  match l with [] => None | x :: r => if String.eqb x k then Some 0 else option_map (Z.add 1) (position k r) end.
(** l.436-457 get_it_number_by_name_hm_short / _schoenflies / _hall: name in TUPLE, TUPLE.index(name) + 1 *)
Definition number_by_name (table : list string) (name : string) : option Z := option_map (fun i => i + 1) (position name table).
Definition get_it_number_by_name_hm_short := number_by_name name_hm_short.
Definition get_it_number_by_name_schoenflies := number_by_name name_schoenflies.
Definition get_it_number_by_name_hall := number_by_name name_hall.
(** l.460-481 get_name_..._by_it_number: TUPLE[it_number - 1] when the number is accessible *)
Definition name_by_number (table : list string) (it : Z) : option string :=
  if zin it ACCESIBLE_IT_NUMBER then nth_error table (Z.to_nat (it - 1)) else None.
Definition get_name_hm_short_by_it_number := name_by_number name_hm_short.
Definition get_name_schoenflies_by_it_number := name_by_number name_schoenflies.
Definition get_name_hall_by_it_number := name_by_number name_hall.
(** l.758-770: the number of the last matching row, the codes of all of them *)
Definition get_it_number_it_coordinate_system_codes_by_name_hm_extended (name : string) : option Z * list (option string) :=
  let rows := filter (fun r => String.eqb name (snd r)) table_hm_extended in
  (fold_left (fun _ r => Some (fst (fst r))) rows None, map (fun r => snd (fst r)) rows).
(** l.773-779 *)
Definition get_name_hm_extended_by_it_number_it_coordinate_system_code (it : Z) (code : option string) : option string :=
  option_map snd (find (fun r => Z.eqb it (fst (fst r)) && opt_eqb code (snd (fst r))) table_hm_extended).
(** l.875-890 *)
Definition get_it_number_by_name_hm_full (name : string) : option Z := option_map fst (find (fun r => String.eqb name (snd r)) table_hm_full).
Definition get_name_hm_full_by_it_number (it : Z) : option string := option_map snd (find (fun r => Z.eqb it (fst r)) table_hm_full).
(** l.1060-1068 get_type_hm *)
Definition is_hm_short (name : string) : bool := isin_str name name_hm_short.
Definition is_hm_full (name : string) : bool := isin_str name (map snd table_hm_full).
Definition is_hm_extended (name : string) : bool := isin_str name (map snd table_hm_extended).
(** l.893-926 get_shift_by_centring_type (0/2 and 0/3 are 0) *)
Definition get_shift_by_centring_type (c : string) : list (list Q) :=
  let h := (1 # 2)%Q in let t := (1 # 3)%Q in let u := (2 # 3)%Q in let o := 0%Q in
  if String.eqb c "P" then [[o; o; o]]
  else if String.eqb c "A" then [[o; o; o]; [o; h; h]]
  else if String.eqb c "B" then [[o; o; o]; [h; o; h]]
  else if String.eqb c "C" then [[o; o; o]; [h; h; o]]
  else if String.eqb c "F" then [[o; o; o]; [o; h; h]; [h; o; h]; [h; h; o]]
  else if String.eqb c "I" then [[o; o; o]; [h; h; h]]
  else if String.eqb c "R" then [[o; o; o]; [u; t; t]; [t; u; u]]
  else if String.eqb c "Rrev" then [[o; o; o]; [t; u; t]; [u; t; u]]
  else if String.eqb c "H" then [[o; o; o]; [u; t; o]; [t; u; o]]
  else [].
(** l.930-934: the first character when it is a known centring; the empty string raises *)
Definition first_letter_in (l : list string) (name : string) : option (option string) :=
  match name with
  | EmptyString => None
  | String a _ => let s := String a EmptyString in Some (if isin_str s l then Some s else None) end.
Definition get_centring_type_by_name_hm_extended := first_letter_in ["P"; "A"; "B"; "C"; "F"; "I"; "R"; "Rrev"; "H"].
(** l.940-944 *)
Definition get_lattice_type_by_name_hm_short := first_letter_in ["P"; "C"; "I"; "F"; "R"].
(** l.961-967 *)
Definition get_patterson_name_hm_by_lattice_type_laue_class (lattice laue : string) : option string :=
  option_map (fun r => fst (fst r)) (find (fun r => String.eqb (snd (fst r)) lattice && String.eqb (snd r) laue) table_patterson).
(** l.999-1004: no break, the last matching row wins *)
Definition get_bravais_type_by_centring_type_crystal_system (centring system : string) : option string :=
  fold_left (fun res r => if String.eqb (snd (fst r)) centring && String.eqb (snd r) system then Some (fst (fst r)) else res) table_bravais None.
(** name.split(".")[0] *)
Fixpoint before_dot (s : string) : string :=
  match s with EmptyString => EmptyString | String a r => if Ascii.eqb a "."%char then EmptyString else String a (before_dot r) end.
(** l.1172-1199 *)
Definition laue_row (name : string) := find (fun r => String.eqb (snd r) (before_dot name)) table_laue.
Definition get_laue_class_by_name_schoenflies (name : string) : option string := option_map (fun '(a, _, _, _, _) => a) (laue_row name).
Definition get_point_group_hm_full_by_name_schoenflies (name : string) : option string := option_map (fun '(_, _, _, d, _) => d) (laue_row name).
Definition get_point_group_hm_short_by_name_schoenflies (name : string) : option string := option_map (fun '(_, _, c, _, _) => c) (laue_row name).
(** l.1226-1230 *)
Definition get_centrosymmetry_by_name_hall (name : string) : option bool :=
  if isin_str name name_hall then Some (match name with String a _ => Ascii.eqb a "-"%char | EmptyString => false end) else None.
(** l.1352-1372 auto_choose_it_coordinate_system_code (printing omitted); codes are strings or None, as they come from the extended table *)
Definition auto_choose_it_coordinate_system_code (it : Z) (codes : list (option string)) : option string :=
  match codes with
  | [] => None
  | [c] => c
  | c0 :: _ =>
      let d := get_default_it_coordinate_system_code_by_it_number it in
      if existsb (opt_eqb d) codes then d
      else match filter (fun c => negb (match c with Some s => contains "-"%char (chars s) | None => false end)) codes with
           | c :: _ => c | [] => c0 end
  end.

(** ** Operations of a space group *)
(** l.1254-1270: the choice read from the code *)
Definition choice_of_code (code : option string) : string :=
  match code with
  | None => "1"
  | Some s => let c := chars s in
              if contains "3"%char c then "3" else if contains "2"%char c then "2" else if contains "1"%char c then "1"
              else if contains "h"%char c then "1" else if contains "r"%char c then "2" else "1" end.
(** l.1375-1390: the transformation string; None: UnboundLocalError *)
Definition transform_pp_abc (code : option string) : option string :=
  match code with
  | None => Some "a,b,c"
  | Some s =>
      if isin_str s ["b1"; "b2"; "b3"; "abc"; "1abc"; "2abc"; "1"; "2"; "h"; "r"] then Some "a,b,c"
      else if isin_str s ["-a1"; "-a2"; "-a3"; "ba-c"; "1ba-c"; "2ba-c"] then Some "b,a,-c"
      else if isin_str s ["c1"; "c2"; "c3"; "cab"; "1cab"; "2cab"] then Some "c,a,b"
      else if isin_str s ["-b1"; "-b2"; "-b3"; "-cba"; "1-cba"; "2-cba"] then Some "-c,b,a"
      else if isin_str s ["a1"; "a2"; "a3"; "bca"; "1bca"; "2bca"] then Some "b,c,a"
      else if isin_str s ["-c1"; "-c2"; "-c3"; "a-cb"; "1bca"; "2a-cb"] then Some "a,-c,b"
      else None end.
Definition mat := list (list Q).
Definition vec := list Q.
Definition qadd (a b : Q) : Q := Qred (a + b).
Definition qmul (a b : Q) : Q := Qred (a * b).
Definition xyz : list ascii := ["x"; "y"; "z"]%char.
Definition abc : list ascii := ["a"; "b"; "c"]%char.
(** a[i, j]; None: IndexError *)
Definition entry (a : mat) (i j : nat) : option Q := obind (nth_error a i) (fun r => nth_error r j).
Definition opt_sum (l : list (option Q)) : option Q :=
  fold_left (fun s x => do a <- s; do b <- x; Some (qadd a b)) l (Some 0%Q).
(** l.1327-1340 mult_matrix_vector on Fractions *)
Definition mult_matrix_vector (a : mat) (v : vec) : option vec :=
  opt_list (map (fun i => opt_sum (map (fun j => do x <- entry a i j; do y <- nth_error v j; Some (qmul x y)) [0; 1; 2]%nat)) [0; 1; 2]%nat).
(** l.1343-1349 mult_matrixes: a[i, :] * b[:, j] needs as many columns in a as rows in b (numpy broadcasting of length 1 is not modelled) *)
Definition mult_matrixes (a b : mat) : option mat :=
  opt_list (map (fun i => do row <- nth_error a i;
    if Nat.eqb (List.length row) (List.length b) then
      opt_list (map (fun j => opt_sum (map (fun k => do x <- entry a i k; do y <- entry b k j; Some (qmul x y)) (seq 0 (List.length b)))) [0; 1; 2]%nat)
    else None) [0; 1; 2]%nat).
(** numpy.transpose of a 3 x 3 matrix *)
Definition transpose (a : mat) : option mat :=
  opt_list (map (fun j => opt_list (map (fun i => entry a i j) [0; 1; 2]%nat)) [0; 1; 2]%nat).
Definition opp_vec (v : vec) : vec := map (fun x => qmul (-1) x) v.
(** elementwise sum; None when the lengths differ (broadcasting of length 1 not modelled) *)
Definition add_vec (a b : vec) : option vec :=
  if Nat.eqb (List.length a) (List.length b) then Some (map (fun p => qadd (fst p) (snd p)) (combine a b)) else None.
(** l.1303-1317 transform_symop_operation_xyz_by_pp_abc *)
Definition transform_symop_operation_xyz_by_pp_abc (P : mat) (p : vec) (symop : str) : option str :=
  do Q <- transpose P;
  do Qp <- mult_matrix_vector Q p;
  let q := opp_vec Qp in
  do (r_xyz, b_xyz) <- transform_string_to_r_b symop xyz;
  do QW <- mult_matrixes Q r_xyz;
  do QWP <- mult_matrixes QW P;
  do QWp <- mult_matrix_vector QW p;
  do Qw <- mult_matrix_vector Q b_xyz;
  do s <- add_vec QWp Qw;
  do b_new <- add_vec s q;
  Some (transform_r_b_to_string QWP b_new xyz).
(** The card of a number and a choice: l.1271-1279 and l.1291-1294 *)
Definition find_card (cards : list Card) (it : Z) (choice : string) : option Card :=
  find (fun c => Z.eqb (ca_it c) it && match field "choice" (ca_fields c) with Some (v :: _) => str_eqb v (chars choice) | _ => false end) cards.
Definition find_wcard (cards : list WCard) (it : Z) (choice : string) : option WCard :=
  find (fun c => Z.eqb (wc_it c) it && Z.eqb (wc_choice c) (int_of (chars choice))) cards.
(** l.1247-1300 get_symop_pcentr_multiplicity_letter_site_symmetry_coords_xyz_2: the operations, the position of the
    centre of symmetry and the Wyckoff positions in the setting asked for. *)
Definition get_symop_pcentr_wyckoff (cards : list Card) (wcards : list WCard) (it : Z) (code : option string)
    : option (list str * vec * list WPos) :=
  let choice := choice_of_code code in
  do card <- find_card cards it choice;
  do symop <- field "symmetry" (ca_fields card);
  do pc <- field "pcentr" (ca_fields card);
  do pc0 <- match pc with s :: _ => Some s | [] => None end;
  do pcs <- opt_list (map parse_fraction (split_on c_comma [] pc0));
  let p_centr := map (fun x => qmul (-1) (limit_denominator 10 x)) pcs in
  do s_name <- transform_pp_abc code;
  do (Q, p) <- transform_string_to_r_b (chars s_name) abc;
  do P <- transpose Q;
  do Qp <- mult_matrix_vector Q p;
  do p_centr_new <- add_vec p_centr (opp_vec Qp);
  do symop_2 <- opt_list (map (transform_symop_operation_xyz_by_pp_abc P p) symop);
  do wc <- find_wcard wcards it choice;
  do wp <- opt_list (map (fun w => do c2 <- opt_list (map (transform_symop_operation_xyz_by_pp_abc P p) (w_coords w));
                                   Some (mkWPos (w_mult w) (w_letter w) (w_sym w) c2)) (wc_pos wc));
  Some (symop_2, p_centr_new, wp).
(** cl_1_space_group_symop.py l.97-104 form_object: r and b of an operation string *)
Definition symop_r_b (s : str) : option (mat * vec) := transform_string_to_r_b s xyz.
(** cl_1_space_group_symop.py l.137-143 get_symop_inversed *)
Definition get_symop_inversed (pcentr : vec) (s : str) : option str :=
  do (r, b) <- symop_r_b s;
  do b_new <- add_vec (opp_vec b) (map (fun x => qmul 2 x) pcentr);
  Some (transform_r_b_to_string (map (map (fun x => qmul (-1) x)) r) b_new xyz).
(** cl_1_space_group_symop.py l.145-155 get_symops_by_centring_type *)
Definition get_symops_by_centring_type (centring : string) (s : str) : option (list str) :=
  do (r, b) <- symop_r_b s;
  opt_list (map (fun sh => do b_new <- add_vec b sh; Some (transform_r_b_to_string r b_new xyz)) (get_shift_by_centring_type centring)).
(** cl_2_space_group.py l.341-385: the full list of operations *)
Definition form_full (symop : list str) (pcentr : vec) (centrosymmetry : bool) (centring : string) : option (list str) :=
  do item_full <- (if centrosymmetry then do add <- opt_list (map (get_symop_inversed pcentr) symop); Some (symop ++ add) else Some symop);
  do l <- opt_list (map (get_symops_by_centring_type centring) item_full);
  Some (List.concat l).

(** ** The SpaceGroup object *)
(** What the user gives (attributes set before form_object); None: not set. *)
Record SgInput := mkInput { in_it : option Z; in_code : option string; in_hm_alt : option string; in_hm_ref : option string;
                            in_hall : option string; in_schoenflies : option string }.
(** cl_2_space_group.py l.166-235 define_it_number_and_it_coordinate_system_code.
    Outer None: an exception (a name_hm_alt that is in none of the tables leaves it_number unbound; the other names are checked
    against their tables when they are set, so a name outside them cannot be met and is None here);
    Some None: nothing to start from (flag False).  name_hm_full is never looked at. *)
Definition define_it_number_and_code (i : SgInput) : option (option (Z * option string)) :=
  let code := in_code i in
  let of_extended name :=
    let '(n, codes) := get_it_number_it_coordinate_system_codes_by_name_hm_extended name in
    do it <- n; Some (it, if existsb (opt_eqb code) codes then code else auto_choose_it_coordinate_system_code it codes) in
  let start : option (option (Z * option string)) :=
    match in_it i, in_code i with
    | Some it, Some c => Some (Some (it, Some c))
    | _, _ =>
        match in_hm_alt i with
        | Some name =>
            match code with
            | Some _ =>
                if is_hm_full name then do it <- get_it_number_by_name_hm_full name; Some (Some (it, code))
                else if is_hm_short name then do it <- get_it_number_by_name_hm_short name; Some (Some (it, code))
                else if is_hm_extended name then do r <- of_extended name; Some (Some r)
                else None
            | None =>
                if is_hm_extended name then do r <- of_extended name; Some (Some r)
                else if is_hm_full name then do it <- get_it_number_by_name_hm_full name; Some (Some (it, code))
                else if is_hm_short name then do it <- get_it_number_by_name_hm_short name; Some (Some (it, code))
                else None
            end
        | None =>
            match in_hm_ref i with
            | Some name => do it <- get_it_number_by_name_hm_short name; Some (Some (it, code))
            | None =>
                match in_hall i with
                | Some name => do it <- get_it_number_by_name_hall name; Some (Some (it, code))
                | None =>
                    match in_it i with
                    | Some it => Some (Some (it, code))
                    | None =>
                        match in_schoenflies i with
                        | Some name => do it <- get_it_number_by_name_schoenflies name; Some (Some (it, code))
                        | None => Some None end
                    end
                end
            end
        end
    end in
  do st <- start;
  match st with
  | None => Some None
  | Some (it, code) =>
      let codes := map Some (get_it_coordinate_system_codes_by_it_number it) in
      Some (Some (it, if existsb (opt_eqb code) codes then code else auto_choose_it_coordinate_system_code it codes))
  end.
Record SpaceGroup := mkSG {
  sg_it : Z; sg_code : option string; sg_crystal_system : option string; sg_centring_type : option string; sg_bravais_type : option string;
  sg_centrosymmetry : bool; sg_laue_class : option string; sg_point_group_hm : option string; sg_patterson : option string;
  sg_hm_extended : option string; sg_hm_full : option string; sg_hm_short : option string; sg_hall : option string; sg_schoenflies : option string;
  sg_pcentr : vec; sg_reduced : list str; sg_full : list str; sg_wyckoff : list WPos; sg_shift : list (list Q) }.
(** cl_2_space_group.py l.259-276, 290-293: the centring type *)
Definition centring_type_of (it : Z) (code : option string) : option (option string) :=
  do c1 <- match get_name_hm_extended_by_it_number_it_coordinate_system_code it code with
           | Some n => get_centring_type_by_name_hm_extended n | None => Some None end;
  do c2 <- match get_name_hm_short_by_it_number it, c1 with
           | Some n, None => get_centring_type_by_name_hm_extended n | _, _ => Some c1 end;
  match get_name_hm_full_by_it_number it, c2 with
  | Some n, None => get_centring_type_by_name_hm_extended n | _, _ => Some c2 end.
Definition starts (a : ascii) (s : string) : bool := match s with String b _ => Ascii.eqb b a | EmptyString => false end.
(** cl_2_space_group.py l.237-339, 160-165: form_object for a number and a code *)
Definition form_object (cards : list Card) (wcards : list WCard) (it : Z) (code : option string) : option SpaceGroup :=
  let crystal_system := get_crystal_system_by_it_number it in
  do centring <- centring_type_of it code;
  do lattice_type <- match get_name_hm_short_by_it_number it with Some n => get_lattice_type_by_name_hm_short n | None => Some None end;
  let bravais := match centring, crystal_system with Some c, Some s => get_bravais_type_by_centring_type_crystal_system c s | _, _ => None end in
  do hall <- get_name_hall_by_it_number it;
  do centro <- get_centrosymmetry_by_name_hall hall;
  let sch := get_name_schoenflies_by_it_number it in
  let laue := obind sch get_laue_class_by_name_schoenflies in
  let pg := obind sch get_point_group_hm_short_by_name_schoenflies in
  let patterson := match lattice_type, laue with Some l, Some c => get_patterson_name_hm_by_lattice_type_laue_class l c | _, _ => None end in
  let centring := match centring, code with Some c, Some s => if starts "R"%char c && starts "r"%char s then Some "P" else centring | _, _ => centring end in
  do (symop, pcentr, wp) <- get_symop_pcentr_wyckoff cards wcards it code;
  let ct := match centring with Some c => c | None => EmptyString end in
  do full <- form_full symop pcentr centro ct;
  Some (mkSG it code crystal_system centring bravais centro laue pg patterson
          (get_name_hm_extended_by_it_number_it_coordinate_system_code it code) (get_name_hm_full_by_it_number it) (get_name_hm_short_by_it_number it)
          (Some hall) sch pcentr symop full wp (get_shift_by_centring_type ct)).

(** cl_2_space_group.py l.139-165, 237-257: SpaceGroup(...) with the attributes of [i]; when nothing fixes the number, name_hall stays None
    and centrosymmetry is unbound at l.298. *)
Definition make_space_group (cards : list Card) (wcards : list WCard) (i : SgInput) : option SpaceGroup :=
  do st <- define_it_number_and_code i;
  match st with Some (it, code) => form_object cards wcards it code | None => None end.

(** function_2_sym_elems.py l.127-142 calc_numerators_denominator_for_b_i (one operation; rationals instead of floats) *)
Definition calc_numerators_denominator (b1 b2 b3 : Q) : V3 Z * Z :=
  let n1 := round_half_even (48 * b1) in let n2 := round_half_even (48 * b2) in let n3 := round_half_even (48 * b3) in
  let g := Z.gcd (Z.gcd (Z.gcd n1 n2) n3) 48 in
  (mkV (n1 / g) (n2 / g) (n3 / g), 48 / g).
(** int(Fraction) *)
Definition int_of_Q (q : Q) : Z := Z.quot (Qnum q) (Zpos (Qden q)).
(** function_2_sym_elems.py l.33-73 form_symm_elems_by_b_i_r_ij with cl_1_space_group_symop.py l.294-298 get_symm_elems (one operation) *)
Definition symm_elem_of (s : str) : option Op :=
  match symop_r_b s with
  | Some ([[r11; r12; r13]; [r21; r22; r23]; [r31; r32; r33]], [b1; b2; b3]) =>
      let '(n, d) := calc_numerators_denominator b1 b2 b3 in
      Some (mkE n d (mkM (int_of_Q r11) (int_of_Q r12) (int_of_Q r13) (int_of_Q r21) (int_of_Q r22) (int_of_Q r23)
                         (int_of_Q r31) (int_of_Q r32) (int_of_Q r33)))
  | _ => None end.
Definition get_symm_elems (l : list str) : option (list Op) := opt_list (map symm_elem_of l).
(** E_data_classes/cl_1_crystal.py l.637-651: a vector of Fractions as numerators over the least common denominator *)
Definition common_denominator (v : vec) : option (V3 Z * Z) :=
  match v with
  | [a; b; c] =>
      let d := Z.lcm (Z.lcm (Zpos (Qden a)) (Zpos (Qden b))) (Zpos (Qden c)) in
      let f q := Z.quot (Qnum q * d) (Zpos (Qden q)) in
      Some (mkV (f a) (f b) (f c), d)
  | _ => None end.

(** ** Wyckoff positions: cl_1_space_group_wyckoff.py l.76-101 form_object, from the coordinate strings and the centring shifts:
    full_r with full_b, and full_coord_xyz. *)
Definition frac_mod_1 (q : Q) : Q := Qred (q - inject_Z (Qfloor q)).
Definition wyckoff_full (shift : list (list Q)) (coords : list str) : option (list (mat * vec)) :=
  do l <- opt_list (map (fun s => do (r, b) <- symop_r_b s;
      opt_list (map (fun sh => do b' <- add_vec b sh; Some (r, map frac_mod_1 b')) shift)) coords);
  Some (List.concat l).
Definition full_coord_xyz (shift : list (list Q)) (coords : list str) : option (list str) :=
  do l <- wyckoff_full shift coords; Some (map (fun rb => transform_r_b_to_string (fst rb) (snd rb) xyz) l).
(** The group as SpaceGroup(it_number=..., it_coordinate_system_code=...) builds it: the two files are read at import
    (function_2_space_group.py l.133-135). *)
Definition space_group (it : Z) (code : option string) : option SpaceGroup :=
  do cards <- read_el_cards; do wcards <- read_wyckoff; form_object cards wcards it code.

(** ** Which Wyckoff position a point belongs to *)
(** function_2_space_group.py l.1425-1433 devide *)
Definition devide (a : vec) (b : Q) (dev : option Q) : vec * Q :=
  match dev with Some d => (map (fun x => Qred (x / d)) a, Qred (b / d)) | None => (a, b) end.
(** l.1436-1449 one_line: the first index that is not excluded and whose coefficient is not zero *)
Fixpoint first_pivot (i : nat) (a : vec) (excl : list nat) : option (nat * Q) :=
  match a with
  | [] => None
  | x :: r => if (negb (existsb (Nat.eqb i) excl) && negb (Qeq_bool x 0))%bool then Some (i, x) else first_pivot (S i) r excl end.
Definition one_line (a : vec) (b : Q) (excl : list nat) : (vec * Q) * option nat :=
  let p := first_pivot 0 a excl in (devide a b (option_map snd p), option_map fst p).
(** l.1460-1463: the row minus val times the pivot row, the right-hand side modulo 1 *)
Definition eliminate (a1 : vec) (b1 : Q) (i : nat) (row : vec) (b : Q) : vec * Q :=
  let v := nth i row 0%Q in
  (map (fun p => Qred (fst p - v * snd p)) (combine row a1), frac_mod_1 (b - v * b1)).
(** l.1451-1487 is_solution_a_b on three rows of three *)
Definition is_solution_a_b (r1 r2 r3 : vec) (c1 c2 c3 : Q) : bool :=
  if (Qeq_bool c1 0 && Qeq_bool c2 0 && Qeq_bool c3 0)%bool then true
  else
    let d1 := frac_mod_1 c1 in let d2 := frac_mod_1 c2 in let d3 := frac_mod_1 c3 in
    let '((a1, e1), i1) := one_line r1 d1 [] in
    let '(r2', d2', r3', d3', excl, ok1) :=
      match i1 with
      | Some i => let '(r2', d2') := eliminate a1 e1 i r2 d2 in let '(r3', d3') := eliminate a1 e1 i r3 d3 in (r2', d2', r3', d3', [i], true)
      | None => (r2, d2, r3, d3, [], Qeq_bool d1 0) end in
    if negb ok1 then false
    else
      let '((a2, e2), i2) := one_line r2' d2' excl in
      let '(r3'', d3'', excl', ok2) :=
        match i2 with
        | Some i => let '(r3'', d3'') := eliminate a2 e2 i r3' d3' in (r3'', d3'', excl ++ [i], true)
        | None => (r3', d3', excl, Qeq_bool d2' 0) end in
      if negb ok2 then false
      else
        let '(_, i3) := one_line r3'' d3'' excl' in
        match i3 with Some _ => true | None => Qeq_bool d3'' 0 end.
(** l.1488-1492 is_good_for_mask *)
Definition is_good_for_mask (r : mat) (b : vec) (x y z : Q) : bool :=
  match r, b with
  | [r1; r2; r3], [b1; b2; b3] => is_solution_a_b r1 r2 r3 (frac_mod_1 (x - b1)) (frac_mod_1 (y - b2)) (frac_mod_1 (z - b3))
  | _, _ => false end.
(** cl_1_space_group_wyckoff.py l.107-121 is_valid_for_fract; int(tol ** -1) with tol = 10 ** -5 is 99999 *)
Definition is_valid_for_fract (full : list (mat * vec)) (x y z : Q) : bool :=
  let t := limit_denominator 99999 in
  existsb (fun rb => is_good_for_mask (fst rb) (snd rb) (t x) (t y) (t z)) full.
(** cl_1_space_group_wyckoff.py l.263-270 get_id_for_fract, with l.272-279 get_wyckoff_for_fract: the first of the valid positions
    with the smallest multiplicity (sorted is stable); None: IndexError when there is none.  The id is the number in the list. *)
Fixpoint least_mult (l : list (nat * Z)) : option (nat * Z) :=
  match l with
  | [] => None
  | p :: r => match least_mult r with Some q => if Z.leb (snd p) (snd q) then Some p else Some q | None => Some p end end.
Definition get_id_for_fract (shift : list (list Q)) (ws : list WPos) (x y z : Q) : option nat :=
  do l <- opt_list (map (fun iw => do full <- wyckoff_full shift (w_coords (snd iw));
                                   Some (if is_valid_for_fract full x y z then [(fst iw, w_mult (snd iw))] else []))
                        (combine (seq 0 (List.length ws)) ws));
  do p <- least_mult (List.concat l); Some (fst p).
(** cl_1_space_group_wyckoff.py l.122-247 give_default_xyz: the candidates are the six orders of the three coordinates with the eight
    choices of sign, in this order; numpy.isclose(v, 0.) is |v| <= 1e-8 (atol). *)
Definition isclose_0 (v : Q) : bool := Qle_bool (Qabs.Qabs v) (1 # 100000000).
Definition hits (r : mat) (b : vec) (h p : vec) : bool :=
  match mult_matrix_vector r h with
  | Some v => match add_vec v b with
              | Some w => match add_vec w (opp_vec p) with Some d => forallb (fun x => isclose_0 (frac_mod_1 x)) d | None => false end
              | None => false end
  | None => false end.
Definition signs : list (Q * Q * Q) :=
  [(1, 1, 1); (-(1), 1, 1); (1, -(1), 1); (1, 1, -(1)); (1, -(1), -(1)); (-(1), 1, -(1)); (-(1), -(1), 1); (-(1), -(1), -(1))]%Q.
Definition candidates (x y z : Q) : list vec :=
  flat_map (fun o : Q * Q * Q => let '(a, b, c) := o in map (fun s : Q * Q * Q => let '(u, v, w) := s in [qmul u a; qmul v b; qmul w c]) signs)
    [(x, y, z); (x, z, y); (y, x, z); (y, z, x); (z, x, y); (z, y, x)].
Definition give_default_xyz (r : mat) (b : vec) (full : list (mat * vec)) (x y z : Q) : option vec :=
  let t := limit_denominator 100000 in
  let p := [t x; t y; t z] in
  let h := match find (fun h => existsb (fun rb => hits (fst rb) (snd rb) h p) full) (candidates (t x) (t y) (t z)) with
           | Some h => h | None => p end in
  do v <- mult_matrix_vector r h; do w <- add_vec v b; Some (map frac_mod_1 w).
(** cl_1_atom_site.py l.91-121 form_object for an atom with a stored Wyckoff position: multiplicity, letter, constraint flags of the
    coordinates, coordinates. *)
Definition form_object_on_atom (shift : list (list Q)) (w : WPos) (x y z : Q) : option (Z * str * (bool * bool * bool) * vec) :=
  do c0 <- nth_error (w_coords w) 0;
  do (r, b) <- symop_r_b c0;
  do full <- wyckoff_full shift (w_coords w);
  do p <- give_default_xyz r b full x y z;
  do r11 <- entry r 0 0; do r22 <- entry r 1 1; do r33 <- entry r 2 2;
  Some (w_mult w, w_letter w, (Qeq_bool r11 0, Qeq_bool r22 0, Qeq_bool r33 0), p).
(** cl_1_atom_site.py l.127-142 define_space_group_wyckoff and apply_constraints: the position is looked for when none is stored; the
    position found is stored. *)
Definition atom_position (shift : list (list Q)) (ws : list WPos) (stored : option WPos) (x y z : Q) : option WPos :=
  match stored with Some w => Some w | None => do i <- get_id_for_fract shift ws x y z; nth_error ws i end.
Definition apply_constraints_on_stored (shift : list (list Q)) (ws : list WPos) (stored : option WPos) (x y z : Q)
    : option ((Z * str * (bool * bool * bool) * vec) * WPos) :=
  do w <- atom_position shift ws stored x y z; do a <- form_object_on_atom shift w x y z; Some (a, w).
(** The first call on an atom: no position is stored yet. *)
Definition apply_constraints_on_atom (shift : list (list Q)) (ws : list WPos) (x y z : Q) : option (Z * str * (bool * bool * bool) * vec) :=
  do i <- get_id_for_fract shift ws x y z;
  do w <- nth_error ws i;
  form_object_on_atom shift w x y z.
(** SpaceGroup(...) with the attributes of [i], the files read at import *)
Definition new_space_group (i : SgInput) : option SpaceGroup :=
  do cards <- read_el_cards; do wcards <- read_wyckoff; make_space_group cards wcards i.
(** E_data_classes/cl_1_crystal.py l.632-651: the symmetry part of the crystal dictionary *)
Record SymmDict := mkSD { sd_full : list Op; sd_reduced : list Op; sd_centrosymmetry : bool; sd_cp : option (V3 Z * Z); sd_translations : list (V3 Z * Z) }.
Definition symm_dictionary (g : SpaceGroup) : option SymmDict :=
  do full <- get_symm_elems (sg_full g);
  do reduced <- get_symm_elems (sg_reduced g);
  do cp <- (if sg_centrosymmetry g then do c <- common_denominator (sg_pcentr g); Some (Some c) else Some None);
  do ts <- opt_list (map common_denominator (sg_shift g));
  Some (mkSD full reduced (sg_centrosymmetry g) cp ts).
