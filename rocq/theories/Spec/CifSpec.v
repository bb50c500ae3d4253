(** Specification: what the text of an item or loop should hold, and when a value survives being written and read. *)
From Coq Require Import QArith List String Ascii Bool.
From Verif Require Import Spec.Objects Spec.StarSpec Model.Strings Model.Numbers Model.Items Model.CifText.
Import ListNotations.
Open Scope string_scope.
Open Scope list_scope.

(** The value a reader should find for an attribute: its text; of a text of several lines, the block (which begins with a line end). None: not defined. *)
Definition shown (c : cif_class) (d : dict) (k : string) : option text :=
  match dget d k with
  | None => None
  | Some v =>
    match py_text c k v with
    | None => None
    | Some s => if has_newline s then Some (newline :: s) else if has_space s then Some s else as_string c d k
    end
  end.
Definition key_of (c : cif_class) (sep : text) (cif : string) : text := lower (full_name (tx (PREFIX (BASE c))) sep (tx cif)).
Definition item_contents (c : cif_class) (d : dict) (sep : text) : list entry :=
  flat_map (fun a => match shown c d (fst a) with Some t => [EItem (key_of c sep (snd a)) t] | None => [] end) (columns_of c).
(** Every defined attribute has a text, and one that the format can hold in the way it is written. *)
Definition writable_attr (c : cif_class) (d : dict) (k : string) (v : value) : Prop :=
  exists s, py_text c k v = Some s /\
  if has_newline s then block_value true s = true
  else if has_space s then quotable_value s
  else exists t, as_string c d k = Some t /\ bare_value t.
Definition writable (c : cif_class) (d : dict) : Prop := forall k v, In k (ATTR_NAMES (BASE c)) -> dget d k = Some v -> writable_attr c d k v.

Record cif_class_ok (c : cif_class) : Prop := {
  ck_len : List.length (ATTR_CIF c) = List.length (ATTR_NAMES (BASE c));
  ck_cif : NoDup (map (fun k => lower (tx k)) (ATTR_CIF c));
  ck_nonempty : ~ In "" (ATTR_CIF c);
  ck_prefix : word (tx (PREFIX (BASE c)));
  ck_words : Forall (fun k => word (tx k)) (ATTR_CIF c);
  ck_mandatory : exists l, ATTR_NAMES (BASE c) = ATTR_MANDATORY_NAMES (BASE c) ++ l;
  ck_ref : incl (ATTR_REF (BASE c)) (ATTR_NAMES (BASE c));
  ck_sigma : ATTR_SIGMA (BASE c) = suffixed "_sigma" (ATTR_REF (BASE c));
  ck_flag : ATTR_REF_FLAG (BASE c) = suffixed "_refinement" (ATTR_REF (BASE c));
  ck_mark : ATTR_CONSTR_MARK (BASE c) = suffixed "_mark" (ATTR_REF (BASE c));
  ck_names : NoDup (ATTR_NAMES (BASE c) ++ ATTR_SIGMA (BASE c) ++ ATTR_CONSTR_FLAG (BASE c) ++ ATTR_REF_FLAG (BASE c) ++ ATTR_CONSTR_MARK (BASE c)) }.

Definition refined (d : dict) (k : string) : Prop := exists f s, dget d (k ++ "_refinement") = Some f /\ truthy f = true /\ dget d (k ++ "_sigma") = Some s.
(** The text [t] of the attribute, read on its own, gives the attribute back. *)
Definition reads_back (c : cif_class) (d : dict) (k : string) (v : value) (t : text) : Prop :=
  if isin k (ATTR_REF (BASE c)) then
    exists x, setattr (BASE c) [] k (vopt x) = Some [(k, v)] /\
      ((refined d k /\ exists e m w, string_to_value_error_mark t = Some (x, Some e, m) /\
          dget d (k ++ "_sigma") = Some (VNum e) /\ dget d (k ++ "_refinement") = Some (VBool true) /\
          setattr (BASE c) [] (k ++ "_mark") (VStr (st m)) = Some [((k ++ "_mark")%string, w)] /\ dget d (k ++ "_mark") = Some w)
       \/ (~ refined d k /\ exists m, string_to_value_error_mark t = Some (x, None, m)))
  else setattr (BASE c) [] k (VStr (st t)) = Some [(k, v)].
(** The two items hold the same data: values, and for refined parameters error, flag and mark; others are not refined. *)
Definition same_data (c : cif_class) (d d' : dict) : Prop :=
  (forall k, In k (ATTR_NAMES (BASE c)) -> dget d' k = dget d k) /\
  (forall k v, In k (ATTR_REF (BASE c)) -> dget d k = Some v -> refined d k ->
     dget d' (k ++ "_sigma") = dget d (k ++ "_sigma") /\ dget d' (k ++ "_refinement") = dget d (k ++ "_refinement") /\ dget d' (k ++ "_mark") = dget d (k ++ "_mark")) /\
  (forall k v, In k (ATTR_REF (BASE c)) -> dget d k = Some v -> ~ refined d k -> ~ refined d' k).
(** form_object, called at the end of reading, succeeds and leaves the data as they are. *)
Definition form_keeps (c : cif_class) (d : dict) : Prop := forall a, same_data c d a -> exists b, FORM (BASE c) a = Some b /\ same_data c d b.
Definition survives_attr (c : cif_class) (d : dict) (k : string) (v : value) : Prop := forall t, shown c d k = Some t -> reads_back c d k v t.
Definition survives (c : cif_class) (d : dict) : Prop := forall k v, In k (ATTR_NAMES (BASE c)) -> dget d k = Some v -> survives_attr c d k v.
(** Values an attribute takes unchanged when they are assigned. *)
Definition accepts (c : cif_class) (k : string) (raw v : value) : Prop := setattr (BASE c) [] k raw = Some [(k, v)].
(** Decimal numbers with n digits. *)
Definition decimal (N : Z) (n : nat) : Q := Qred (N # Pos.of_nat (Nat.pow 10 n)).
(** What cls() defines is defined, mandatory attributes and at least one attribute are defined. *)
Definition complete (c : cif_class) (d : dict) : Prop :=
  (forall k, In k (ATTR_NAMES (BASE c)) -> dget d k = None -> dget (INIT c) k = None) /\
  (forall k, In k (ATTR_MANDATORY_NAMES (BASE c)) -> dget d k <> None) /\
  (exists k, In k (ATTR_NAMES (BASE c)) /\ dget d k <> None).

(** * Loops *)
(** The columns: the attributes the first item has. *)
Definition loop_columns (c : cif_class) (items : list dict) : list (string * string) :=
  match items with [] => [] | d :: _ => filter (fun a => has d (fst a)) (columns_of c) end.
Definition as_text (c : cif_class) (d : dict) (k : string) : text := match as_string c d k with Some t => t | None => [] end.
(** What the text of a loop should hold: a row for each item with the texts of the columns. *)
Definition loop_contents (c : cif_class) (loop_name : option text) (items : list dict) (sep : text) : list entry :=
  [ELoop (match loop_name with Some n => n | None => [] end) (map (fun a => key_of c sep (snd a)) (loop_columns c items))
     (map (fun d => map (fun a => as_text c d (fst a)) (loop_columns c items)) items)].
(** A text the format can hold in the way a loop writes it. *)
Definition cell_value (t : text) : Prop := if has_space t || starts_with "_"%char t then quotable_value t else bare_value t.
Definition loop_writable (c : cif_class) (items : list dict) : Prop :=
  forall d a, In d items -> In a (loop_columns c items) -> exists t, as_string c d (fst a) = Some t /\ cell_value t.
(** Names of attributes do not begin or end with "_" or ".". *)
Definition plain_names (c : cif_class) : Prop := forall k, In k (ATTR_NAMES (BASE c)) -> strip_names k = k.
(** All items define the same attributes. *)
Definition uniform (c : cif_class) (items : list dict) : Prop := forall d d' k, In d items -> In d' items -> In k (ATTR_NAMES (BASE c)) -> has d k = has d' k.
Definition loop_survives (c : cif_class) (items : list dict) : Prop := forall d k v, In d items -> In k (ATTR_NAMES (BASE c)) -> dget d k = Some v ->
  forall t, as_string c d k = Some t -> reads_back c d k v t.
