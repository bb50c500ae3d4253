(** Model of the CIF text of items, loops and data blocks:
    /repo/cryspy/B_parent_classes/cl_1_item.py, cl_2_loop.py, cl_3_data.py, cl_4_global.py (to_cif, from_cif, the "_as_string" attributes).
    The text is read by the external package pycifstar, which is not part of the repository; its place is taken by the grammar of
    the format (Spec/StarSpec.v), with names in lower case and looked up without regard to case. *)
From Coq Require Import NArith QArith List String Ascii Bool.
From Verif Require Import Spec.Objects Spec.StarSpec Model.Strings Model.Numbers Model.Items.
Import ListNotations.
Open Scope string_scope.
Open Scope list_scope.

Definition tx (s : string) : text := list_ascii_of_string s.
Definition st (s : text) : string := string_of_list_ascii s.

(** An item class with the attributes the text needs: names in the file (ATTR_CIF, in the order of ATTR_NAMES), number of digits of the formats
    "{:.nf}" of D_FORMATS (only these occur), f"{x:}" of a number held by an attribute (an integer and a float are written differently),
    the attributes after cls(). *)
Record cif_class := mkCif {
  BASE : item_class;
  ATTR_CIF : list string;
  D_FORMATS : list (string * nat);
  REPR : string -> Q -> text;
  INIT : dict }.
Fixpoint format_of (t : list (string * nat)) (k : string) : option nat :=
  match t with [] => None | (k', n) :: r => if String.eqb k k' then Some n else format_of r k end.
(** str(v) of the value of an attribute; None: not modelled. *)
Definition py_text (c : cif_class) (name : string) (v : value) : option text :=
  match v with
  | VNone => Some (tx "None")
  | VBool b => Some (tx (if b then "True" else "False"))
  | VNum x => Some (REPR c name x)
  | VNan => Some (tx "nan")
  | VStr s => Some (tx s)
  | VOther _ => None
  end.
(** "{:.nf}".format(x): correctly rounded, with the sign of x. *)
Definition fixed_text (n : nat) (x : Q) : text := decimal_text (negb (Qle_bool 0 x)) (round_half_even (x * inject_Z (pow10 n))) n.
(** truth value of a flag *)
Definition truthy (v : value) : bool := match py_bool v with VBool b => b | _ => false end.
(** cl_1_item.py l.137-168: the attribute with the suffix "_as_string"; None: an exception, or not modelled. *)
Definition as_string (c : cif_class) (d : dict) (name : string) : option text :=
  match dget d name with
  | None => Some (tx ".")
  | Some VNone => Some (tx ".")
  | Some v =>
    let flag_ref := match dget d (name ++ "_refinement")%string, dget d (name ++ "_sigma")%string with Some f, Some _ => truthy f | _, _ => false end in
    if flag_ref then
      let mark := match dget d (name ++ "_mark")%string with Some m => m | None => VStr "" end in
      match v, dget d (name ++ "_sigma")%string, mark with
      | VNum x, Some (VNum e), VStr m => Some (value_error_mark_to_string (REPR c name) x (Some e) (tx m))
      | VNum x, Some VNone, VStr m => Some (value_error_mark_to_string (REPR c name) x None (tx m))
      | _, _, _ => None
      end
    else
      match format_of (D_FORMATS c) name with
      | None => py_text c name v
      | Some n => match v with VNum x => Some (fixed_text n x) | _ => None end
      end
  end.

Definition has_newline (s : text) : bool := existsb is_newline s.
Definition has_space (s : text) : bool := contains c_space s.
Definition quoted (s : text) : text := """"%char :: s ++ [""""%char].
(** l.376-378: the name in the file. *)
Definition full_name (prefix sep cif : text) : text := "_"%char :: prefix ++ sep ++ cif.
(** "\n".join *)
Fixpoint join_lines (l : list text) : text := match l with [] => [] | [s] => s | s :: r => s ++ newline :: join_lines r end.
(** l.374-394: the lines of one attribute. *)
Definition attr_lines (c : cif_class) (d : dict) (sep : text) (a : string * string) : option (list text) :=
  let (name, cif) := a in
  match dget d name with
  | None => Some []
  | Some v =>
    let key := full_name (tx (PREFIX (BASE c))) sep (if String.eqb cif "" then tx name else tx cif) in
    match py_text c name v with
    | None => None
    | Some s =>
      if has_newline s then Some [key; [";"%char]; s; [";"%char]]
      else if has_space s then Some [key ++ c_space :: quoted s]
      else option_map (fun t => [key ++ c_space :: t]) (as_string c d name)
    end
  end.
Fixpoint all_some {A} (l : list (option A)) : option (list A) :=
  match l with [] => Some [] | None :: _ => None | Some x :: r => option_map (cons x) (all_some r) end.
Definition columns_of (c : cif_class) : list (string * string) := combine (ATTR_NAMES (BASE c)) (ATTR_CIF c).
(** l.358-395 to_cif(separator), flag_all_attributes=False. *)
Definition item_to_cif (c : cif_class) (d : dict) (sep : text) : option text :=
  option_map (fun l => join_lines (List.concat l)) (all_some (map (attr_lines c d sep) (columns_of c))).

(** * Reading an item *)
Definition value_of (es : list entry) (name : text) : option text :=
  match find (fun e => match e with EItem n _ => if list_eq_dec ascii_dec n (lower name) then true else false | _ => false end) es with
  | Some (EItem _ v) => Some v
  | _ => None
  end.
Definition is_value (es : list entry) (name : text) : bool := match value_of es name with Some _ => true | None => false end.
Definition vopt (o : option Q) : value := match o with Some x => VNum x | None => VNone end.
(** l.617-634 (and cl_2_loop.py l.305-321, l.325-337): one value. *)
Definition assign_text (c : item_class) (d : dict) (name : string) (t : text) : option dict :=
  if isin name (ATTR_REF c) then
    match string_to_value_error_mark t with
    | None => None
    | Some (v, e, m) =>
      match setattr c d name (vopt v) with
      | None => None
      | Some d1 =>
        match e with
        | Some x =>
          match setattr c d1 (name ++ "_sigma")%string (VNum x) with
          | None => None
          | Some d2 =>
            match setattr c d2 (name ++ "_refinement")%string (VBool true) with
            | None => None
            | Some d3 => setattr c d3 (name ++ "_mark")%string (VStr (st m))
            end
          end
        | None => setattr c d1 (name ++ "_refinement")%string (VBool false)
        end
      end
    end
  else setattr c d name (VStr (st t)).
(** What from_cif returns: an exception, Python's None, or an item. *)
Inductive result (A : Type) := Raises | NoObject | Object (x : A).
Arguments Raises {A}. Arguments NoObject {A}. Arguments Object {A} x.
Definition read_attr (c : cif_class) (es : list entry) (sep : text) (o : option dict) (a : string * string) : option dict :=
  match o with
  | None => None
  | Some d =>
    match value_of es (full_name (tx (PREFIX (BASE c))) sep (tx (snd a))) with
    | Some t => assign_text (BASE c) d (fst a) t
    | None => Some d
    end
  end.
Definition mandatory_cif (c : cif_class) : list string := firstn (List.length (ATTR_MANDATORY_NAMES (BASE c))) (ATTR_CIF c).
Definition sep_u : text := ["_"%char].
Definition sep_d : text := ["."%char].
(** l.566-643 from_cif of a class with fixed attributes, on the contents of the text. *)
Definition item_from_entries (c : cif_class) (es : list entry) : result dict :=
  let present sep k := is_value es (full_name (tx (PREFIX (BASE c))) sep (tx k)) in
  if forallb (present sep_u) (mandatory_cif c) || forallb (present sep_d) (mandatory_cif c) then
    let flag_u := existsb (present sep_u) (ATTR_CIF c) in
    let sep := if flag_u then sep_u else sep_d in
    if flag_u || existsb (present sep_d) (ATTR_CIF c) then
      match fold_left (read_attr c es sep) (columns_of c) (Some (INIT c)) with
      | None => Raises
      | Some d =>
        if is_defined (BASE c) d then match FORM (BASE c) d with Some d' => Object d' | None => Raises end
        else Object d
      end
    else NoObject
  else NoObject.
Definition item_from_cif (c : cif_class) (s : text) : result dict :=
  match contents s with Some es => item_from_entries c es | None => Raises end.

(** * Loops *)
(** str.rjust(n) *)
Definition rjust (n : nat) (s : text) : text := repeat c_space (n - List.length s) ++ s.
Definition max_len (l : list text) : nat := fold_right Nat.max 0%nat (map (@List.length ascii) l).
(** l.398-416: one value of a column. *)
Definition cell_text (n_max : nat) (s : text) : text := if has_space s || starts_with "_"%char s then rjust n_max (quoted s) else rjust n_max s.
Definition loop_column (c : cif_class) (items : list dict) (name : string) : option (list text) :=
  option_map (fun l => map (cell_text (max_len l + 2)) l) (all_some (map (fun d => as_string c d name) items)).
Definition loop_key (prefix sep cif : text) : text := match cif with [] => "_"%char :: prefix | _ => full_name prefix sep cif end.
Definition head_line (loop_name : option text) : text := kw_loop ++ match loop_name with Some n => n | None => [] end.
(** " ".join *)
Fixpoint join_words (l : list text) : text := match l with [] => [] | [s] => s | s :: r => s ++ c_space :: join_words r end.
(** The rows: list_out gets one more text for every column. *)
Fixpoint add_column (rows : list (list text)) (col : list text) : list (list text) :=
  match rows, col with r :: rows', x :: col' => (r ++ [x]) :: add_column rows' col' | _, _ => [] end.
Definition add_columns (cols : list (list text)) : list (list text) :=
  match cols with [] => [] | c1 :: r => fold_left add_column r (map (fun x => [x]) c1) end.
(** l.358-421 to_cif of a loop of a class with fixed attributes.  (The first column starts the rows again while there are none.) *)
Definition loop_to_cif (c : cif_class) (loop_name : option text) (items : list dict) (sep : text) : option text :=
  let prefix := tx (PREFIX (BASE c)) in
  match items with
  | [] => Some (join_lines (head_line loop_name :: map (fun k => full_name prefix sep (tx k)) (ATTR_CIF c) ++
                            [join_words (map (fun _ => tx ".") (ATTR_CIF c))]))
  | item_0 :: _ =>
    let cols := filter (fun a => has item_0 (fst a)) (columns_of c) in
    option_map (fun texts => join_lines (head_line loop_name :: map (fun a => loop_key prefix sep (tx (snd a))) cols ++ map join_words (add_columns texts)))
      (all_some (map (fun a => loop_column c items (fst a)) cols))
  end.

(** * Reading a loop *)
Definition strip_names (s : string) : string := st (rstrip_by (Ascii.eqb "."%char) (lstrip_by (Ascii.eqb "."%char) (rstrip_by (Ascii.eqb "_"%char) (lstrip_by (Ascii.eqb "_"%char) (tx s))))).
(** l.286-293: the attribute of a column, by its name without the prefix; None: not an attribute of the class. *)
Definition attr_of (c : cif_class) (short : text) : option string :=
  let obj := match index_of (st (lower short)) (map (fun k => st (lower (tx k))) (ATTR_CIF c)) with
             | Some i => match nth_error (ATTR_NAMES (BASE c)) i with Some n => n | None => ""%string end
             | None => st (lower short)
             end in
  if isin (strip_names obj) (ATTR_NAMES (BASE c)) then Some obj else None.
Fixpoint assign_column (c : item_class) (items : list dict) (name : string) (vals : list text) : option (list dict) :=
  match items, vals with
  | d :: r, t :: ts => match assign_text c d name t, assign_column c r name ts with Some d', Some r' => Some (d' :: r') | _, _ => None end
  | _, _ => Some items
  end.
(** l.283-338: the items (None before the first column that is an attribute), column after column. *)
Definition read_column (c : cif_class) (o : option (option (list dict))) (col : text * list text) : option (option (list dict)) :=
  match o with
  | None => None
  | Some items =>
    match attr_of c (skipn (S (S (List.length (tx (PREFIX (BASE c)))))) (fst col)) with
    | None => Some items
    | Some name =>
      let l := match items with None => map (fun _ => INIT c) (snd col) | Some l => l end in
      option_map Some (assign_column (BASE c) l name (snd col))
    end
  end.
Definition column (rows : list (list text)) (j : nat) : list text := map (fun r => nth j r []) rows.
Definition columns (names : list text) (rows : list (list text)) : list (text * list text) :=
  combine names (map (column rows) (seq 0 (List.length names))).
Definition is_my_loop (c : cif_class) (e : entry) : bool :=
  match e with ELoop _ names _ => forallb (begins ("_"%char :: lower (tx (PREFIX (BASE c))))) names | _ => false end.
(** l.243-344 from_cif of a class with fixed attributes: the first loop whose common beginning of names starts with the prefix.
    (cif_loop.prefix of pycifstar, whatever is cut from the common beginning of the names.)  No known column: "items" is unbound. *)
Definition loop_from_entries (c : cif_class) (es : list entry) : result (text * list dict) :=
  match find (is_my_loop c) es with
  | Some (ELoop n names rows) =>
    match fold_left (read_column c) (columns names rows) (Some None) with
    | Some (Some items) => Object (n, items)
    | _ => Raises
    end
  | _ => NoObject
  end.
Definition loop_from_cif (c : cif_class) (s : text) : result (text * list dict) :=
  match contents s with Some es => loop_from_entries c es | None => Raises end.

(** * Data blocks and global files *)
(** cl_3_data.py l.434-471, cl_4_global.py l.434-474: the texts of the items and loops, long items last. *)
Definition ordered_texts (items loops : list text) : list text :=
  let ti := map (fun s => s ++ [newline]) items in let tl := map (fun s => s ++ [newline]) loops in
  let n_max_loop := match tl with [] => 10000%N | _ => N.max (N.of_nat (max_len tl)) 1000 end in
  filter (fun s => N.leb (N.of_nat (List.length s)) n_max_loop) ti ++ tl ++ filter (fun s => negb (N.leb (N.of_nat (List.length s)) n_max_loop)) ti.
Definition data_to_cif (name : option text) (items loops : list text) : text :=
  join_lines ((kw_data ++ (match name with Some n => n | None => [] end) ++ [newline]) :: ordered_texts items loops).
(** sorted(…, key=len): stable. *)
Fixpoint insert_len (s : text) (l : list text) : list text :=
  match l with [] => [s] | x :: r => if Nat.leb (List.length x) (List.length s) then x :: insert_len s r else s :: l end.
Definition sort_len (l : list text) : list text := fold_left (fun acc s => insert_len s acc) l [].
Definition global_to_cif (name : option text) (items loops data : list text) : text :=
  join_lines ((kw_global ++ (match name with Some n => n | None => [] end) ++ [newline]) :: ordered_texts items loops ++
              sort_len (map (fun s => s ++ [newline]) data)).

(** * Generic items and loops: the prefix of a set of names *)
(** function_1_strings.py l.62-72 common_string: the characters at which all texts agree, from the left (two by two here). *)
Fixpoint common2 (a b : text) : text := match a, b with x :: a', y :: b' => if Ascii.eqb x y then x :: common2 a' b' else [] | _, _ => [] end.
Definition common_string (l : list text) : text := match l with [] => [] | x :: r => fold_left common2 r x end.
(** str.rfind of one character *)
Definition rfind (c : ascii) (s : text) : option nat := match find_char c (rev s) with Some i => Some (List.length s - 1 - i)%nat | None => None end.
(** s[:ind] with ind = -1 when nothing was found *)
Definition upto (o : option nat) (s : text) : text := match o with Some i => firstn i s | None => removelast s end.
(** l.28-60 find_prefix *)
Definition find_prefix (l : list text) : text :=
  let c_string := common_string l in
  match rfind c_dot c_string with
  | Some i => firstn i c_string
  | None =>
    if Nat.ltb 1 (List.length l) && existsb (fun s => if list_eq_dec ascii_dec s c_string then true else false) l then c_string
    else upto (rfind "_"%char c_string) c_string
  end.

(** * Two classes *)
(** The attributes after cls(): D_DEFAULT (cl_1_phase.py l.45-53; the same loops in cl_1_cell.py l.79-84). *)
Definition defaults (c : item_class) : dict :=
  map (fun k => (k, VNum 0)) (ATTR_SIGMA c) ++ map (fun k => (k, VBool false)) (ATTR_CONSTR_FLAG c ++ ATTR_REF_FLAG c) ++ map (fun k => (k, VStr "")) (ATTR_CONSTR_MARK c).
(** str of a string. *)
Definition py_str (v : value) : option value := match v with VStr s => Some (VStr s) | _ => None end.
Definition phase_refined := ["scale"; "igsize"; "x"; "y"; "u"; "v"; "w"].
(** cl_1_phase.py l.17-75 class Phase (no D_FORMATS, no form_object of its own: cl_1_item.py form_object does nothing). *)
Definition phase_class : item_class := {|
  PREFIX := "phase";
  ATTR_NAMES := "label" :: phase_refined;
  ATTR_TYPES := [py_str; py_float; py_float; py_float; py_float; py_float; py_float; py_float];
  ATTR_MANDATORY_NAMES := ["label"];
  ATTR_INT_NAMES := [];
  ATTR_INT_PROTECTED_NAMES := [];
  ATTR_REF := phase_refined;
  ATTR_SIGMA := suffixed "_sigma" phase_refined;
  ATTR_CONSTR_FLAG := suffixed "_constraint" phase_refined;
  ATTR_REF_FLAG := suffixed "_refinement" phase_refined;
  ATTR_CONSTR_MARK := suffixed "_mark" phase_refined;
  D_CONSTRAINTS := [];
  D_MIN := [("igsize", 0); ("x", 0); ("y", 0)]%Q;
  D_MAX := [];
  FORM := Some |}.
Definition phase_cif (repr : string -> Q -> text) : cif_class :=
  mkCif phase_class ["label"; "scale"; "igsize"; "X"; "Y"; "U"; "V"; "W"] [] repr (defaults phase_class).
(** cl_1_cell.py l.33-110 *)
Definition cell_cif (form : dict -> option dict) (repr : string -> Q -> text) : cif_class :=
  mkCif (cell_class form) cell_names (map (fun k => (k, 6%nat)) cell_names) repr
    ([("length_a", VNum 1); ("length_b", VNum 1); ("length_c", VNum 1); ("angle_alpha", VNum 90); ("angle_beta", VNum 90); ("angle_gamma", VNum 90)] ++ defaults (cell_class form)).
(** float of a number or of a text; int of an integer or of its text (others are not modelled). *)
Definition py_float_of (v : value) : option value := match v with VStr s => option_map VNum (parse_float (tx s)) | _ => py_float v end.
Definition py_int_of (v : value) : option value :=
  match py_float_of v with Some (VNum x) => if Qeq_bool x (inject_Z (Qnum x / Zpos (Qden x))) then Some (VNum x) else None | _ => None end.
Definition atom_site_refined := ["fract_x"; "fract_y"; "fract_z"; "occupancy"; "u_iso_or_equiv"; "u_equiv_geom_mean"; "b_iso_or_equiv"].
(** cl_1_atom_site.py l.28-104 class AtomSite; form_object (l.106-140) is a parameter. *)
Definition atom_site_class (form : dict -> option dict) : item_class := {|
  PREFIX := "atom_site";
  ATTR_NAMES := ["label"; "type_symbol"; "fract_x"; "fract_y"; "fract_z"; "occupancy"; "adp_type"; "u_iso_or_equiv"; "u_equiv_geom_mean";
        "b_iso_or_equiv"; "multiplicity"; "wyckoff_symbol"; "cartn_x"; "cartn_y"; "cartn_z"];
  ATTR_TYPES := [py_str; py_str; py_float_of; py_float_of; py_float_of; py_float_of; py_str; py_float_of; py_float_of; py_float_of; py_int_of; py_str;
        py_float_of; py_float_of; py_float_of];
  ATTR_MANDATORY_NAMES := ["label"; "type_symbol"; "fract_x"; "fract_y"; "fract_z"];
  ATTR_INT_NAMES := ["scat_length_neutron"];
  ATTR_INT_PROTECTED_NAMES := ["space_group_wyckoff"; "constr_number"; "sc_chi"];
  ATTR_REF := atom_site_refined;
  ATTR_SIGMA := suffixed "_sigma" atom_site_refined;
  ATTR_CONSTR_FLAG := suffixed "_constraint" atom_site_refined;
  ATTR_REF_FLAG := suffixed "_refinement" atom_site_refined;
  ATTR_CONSTR_MARK := suffixed "_mark" atom_site_refined;
  D_CONSTRAINTS := [("adp_type", [VStr "Uani"; VStr "Uiso"; VStr "Uovl"; VStr "Umpe"; VStr "Bani"; VStr "Biso"; VStr "Bovl"])];
  D_MIN := [];
  D_MAX := [];
  FORM := form |}.
Definition atom_site_cif (form : dict -> option dict) (repr : string -> Q -> text) : cif_class :=
  mkCif (atom_site_class form) ["label"; "type_symbol"; "fract_x"; "fract_y"; "fract_z"; "occupancy"; "adp_type"; "U_iso_or_equiv"; "U_equiv_geom_mean";
        "B_iso_or_equiv"; "multiplicity"; "Wyckoff_symbol"; "Cartn_x"; "Cartn_y"; "Cartn_z"]
    [("fract_x", 6%nat); ("fract_y", 6%nat); ("fract_z", 6%nat)] repr (("occupancy", VNum 1) :: defaults (atom_site_class form)).
