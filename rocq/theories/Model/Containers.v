(** Model of loops and containers: /repo/cryspy/B_parent_classes/cl_2_loop.py, cl_3_data.py, cl_4_global.py: names of variables, access by name,
    add_items and attribute assignment. *)
From Coq Require Import QArith List String Ascii Bool Arith.
From Verif Require Import Spec.Objects Model.Items.
Import ListNotations.
Open Scope string_scope.
Open Scope list_scope.

(** str.lower() of an ASCII string. *)
Definition lower_char (c : ascii) : ascii := let n := nat_of_ascii c in if Nat.leb 65 n && Nat.leb n 90 then ascii_of_nat (n + 32) else c.
Fixpoint lower (s : string) : string := match s with EmptyString => EmptyString | String c r => String (lower_char c) (lower r) end.
(** The name of a loop, block or global container: None or a string.  As component of a variable name. *)
Definition sub_of (n : option string) : sub := match n with None => SNone | Some s => SStr s end.
Definition lower_sub (s : sub) : sub := match s with SStr t => SStr (lower t) | _ => s end.
Definition sub_eqb (a b : sub) : bool :=
  match a, b with SNone, SNone => true | SStr s, SStr t => String.eqb s t | SInt i, SInt j => Nat.eqb i j | _, _ => false end.

(** A loop of a predefined item class (ITEM_CLASS is not the bare ItemN). *)
Record loopn := mkLoop { l_class : item_class; loop_name : option string; l_items : list dict }.
(** ItemN or LoopN object. *)
Inductive leaf := Item (c : item_class) (d : dict) | Loop (l : loopn).
Record datan := mkData { dt_prefix : string; data_name : option string; dt_items : list leaf }.
Inductive gnode := Leaf (x : leaf) | Data (x : datan).
Record globaln := mkGlobal { gl_prefix : string; global_name : option string; gl_items : list gnode }.

(** Result of get_variable_by_name: None, an exception, or a value. *)
Inductive res := RNone | RRaise | RVal (v : value).
Definition of_value (o : option value) : res := match o with None => RRaise | Some VNone => RNone | Some v => RVal v end.
(** getattr of a data attribute, sigma or flag: no internal attribute is computed. *)
Definition read (c : item_class) (d : dict) (k : string) : res := of_value (fst (getattr c d k)).

(** cl_1_item.py l.424-444; None: a flag is not defined (AttributeError).  bool(value) of a flag is the flag. *)
Definition truth (v : value) : bool := match py_bool v with VBool b => b | _ => false end.
Fixpoint refined (c : item_class) (d : dict) (l : list (string * string)) : option (list string) :=
  match l with
  | [] => Some []
  | (name, flag) :: r =>
    match fst (getattr c d flag), refined c d r with
    | Some v, Some q => Some (if truth v then name :: q else q)
    | _, _ => None
    end
  end.
Definition item_variable_names (c : item_class) (d : dict) : option (list path) :=
  option_map (map (fun name => [(PREFIX c, SNone); (name, SNone)])) (refined c d (combine (ATTR_REF c) (ATTR_REF_FLAG c))).
(** cl_1_item.py l.461-484, for complete names (two pairs). *)
Definition item_get (c : item_class) (d : dict) (name : path) : res :=
  match name with
  | [(p, _); (a, _)] => if String.eqb p (PREFIX c) then read c d a else RNone
  | _ => RRaise
  end.
(** cl_1_item.py l.486-506; None: exception. *)
Definition item_set (c : item_class) (d : dict) (name : path) (v : value) : option dict :=
  match name with
  | [(p, _); (a, _)] => if String.eqb p (PREFIX c) then setattr c d a v else Some d
  | _ => None
  end.

(** cl_2_loop.py l.543-570 *)
Fixpoint enum_names (p : string) (n : sub) (c : item_class) (i : nat) (l : list dict) : option (list path) :=
  match l with
  | [] => Some []
  | d :: r =>
    match refined c d (combine (ATTR_REF c) (ATTR_REF_FLAG c)), enum_names p n c (S i) r with
    | Some a, Some b => Some (map (fun name => [(p, n); (name, SInt i)]) a ++ b)
    | _, _ => None
    end
  end.
Definition loop_variable_names (l : loopn) : option (list path) :=
  enum_names (PREFIX (l_class l)) (lower_sub (sub_of (loop_name l))) (l_class l) 0 (l_items l).
(** cl_2_loop.py l.581-626, for complete names with an index. *)
Definition loop_get (l : loopn) (name : path) : res :=
  match name with
  | [(p, n); (a, SInt i)] =>
    if String.eqb p (PREFIX (l_class l)) && sub_eqb (lower_sub n) (lower_sub (sub_of (loop_name l))) then
      match nth_error (l_items l) i with Some d => read (l_class l) d a | None => RRaise end
    else RNone
  | [(p, n); _] => if String.eqb p (PREFIX (l_class l)) && sub_eqb (lower_sub n) (lower_sub (sub_of (loop_name l))) then RRaise else RNone
  | _ => RRaise
  end.
Fixpoint replace_nth {A} (l : list A) (i : nat) (x : A) : list A :=
  match l, i with [], _ => [] | _ :: r, O => x :: r | y :: r, S j => y :: replace_nth r j x end.
(** cl_2_loop.py l.628-658: the name of the loop is compared as it is written. *)
Definition loop_set (l : loopn) (name : path) (v : value) : option loopn :=
  match name with
  | [(p, n); (a, i)] =>
    if String.eqb p (PREFIX (l_class l)) && sub_eqb n (sub_of (loop_name l)) then
      match i with
      | SInt j =>
        match nth_error (l_items l) j with
        | Some d => option_map (fun d' => mkLoop (l_class l) (loop_name l) (replace_nth (l_items l) j d')) (setattr (l_class l) d a v)
        | None => None
        end
      | _ => None
      end
    else Some l
  | _ => None
  end.

Definition leaf_prefix (x : leaf) : string := match x with Item c _ => PREFIX c | Loop l => PREFIX (l_class l) end.
Definition leaf_names (x : leaf) : option (list path) := match x with Item c d => item_variable_names c d | Loop l => loop_variable_names l end.
Definition leaf_get (x : leaf) (name : path) : res := match x with Item c d => item_get c d name | Loop l => loop_get l name end.
Definition leaf_set (x : leaf) (name : path) (v : value) : option leaf :=
  match x with Item c d => option_map (Item c) (item_set c d name v) | Loop l => option_map Loop (loop_set l name v) end.

(** The loops over the items of a container: l_var.extend(...), the first result that is not None, assignment to every item of the prefix. *)
Fixpoint names_of {A} (f : A -> option (list path)) (l : list A) : option (list path) :=
  match l with [] => Some [] | x :: r => match f x, names_of f r with Some a, Some b => Some (a ++ b) | _, _ => None end end.
Fixpoint first_of {A} (pf : A -> string) (get : A -> path -> res) (p : string) (l : list A) (name : path) : res :=
  match l with
  | [] => RNone
  | x :: r => if String.eqb (pf x) p then match get x name with RNone => first_of pf get p r name | z => z end else first_of pf get p r name
  end.
Fixpoint set_all {A} (pf : A -> string) (set : A -> path -> value -> option A) (p : string) (l : list A) (name : path) (v : value) : option (list A) :=
  match l with
  | [] => Some []
  | x :: r =>
    if String.eqb (pf x) p then
      match set x name v with
      | Some y => option_map (cons y) (set_all pf set p r name v)
      | None => None
      end
    else option_map (cons x) (set_all pf set p r name v)
  end.

(** cl_3_data.py l.258-284 *)
Definition data_variable_names (D : datan) : option (list path) :=
  option_map (map (cons (dt_prefix D, lower_sub (sub_of (data_name D))))) (names_of leaf_names (dt_items D)).
(** cl_3_data.py l.295-344 *)
Definition data_get (D : datan) (name : path) : res :=
  match name with
  | (p, n) :: (((p1, _) :: _) as rest) =>
    if String.eqb p (dt_prefix D) && sub_eqb (lower_sub n) (lower_sub (sub_of (data_name D))) then first_of leaf_prefix leaf_get p1 (dt_items D) rest else RNone
  | _ => RRaise
  end.
(** cl_3_data.py l.346-386: the name of the block is compared as it is written. *)
Definition data_set (D : datan) (name : path) (v : value) : option datan :=
  match name with
  | (p, n) :: (((p1, _) :: _) as rest) =>
    if String.eqb p (dt_prefix D) && sub_eqb n (sub_of (data_name D)) then
      option_map (mkData (dt_prefix D) (data_name D)) (set_all leaf_prefix leaf_set p1 (dt_items D) rest v)
    else Some D
  | _ => None
  end.
(** cl_4_global.py l.265-292, l.303-354, l.355-398 *)
Definition node_prefix (x : gnode) : string := match x with Leaf y => leaf_prefix y | Data D => dt_prefix D end.
Definition node_names (x : gnode) : option (list path) := match x with Leaf y => leaf_names y | Data D => data_variable_names D end.
Definition node_get (x : gnode) (name : path) : res := match x with Leaf y => leaf_get y name | Data D => data_get D name end.
Definition node_set (x : gnode) (name : path) (v : value) : option gnode :=
  match x with Leaf y => option_map Leaf (leaf_set y name v) | Data D => option_map Data (data_set D name v) end.
Definition global_variable_names (G : globaln) : option (list path) :=
  option_map (map (cons (gl_prefix G, lower_sub (sub_of (global_name G))))) (names_of node_names (gl_items G)).
Definition global_get (G : globaln) (name : path) : res :=
  match name with
  | (p, n) :: (((p1, _) :: _) as rest) =>
    if String.eqb p (gl_prefix G) && sub_eqb (lower_sub n) (lower_sub (sub_of (global_name G))) then first_of node_prefix node_get p1 (gl_items G) rest else RNone
  | _ => RRaise
  end.
Definition global_set (G : globaln) (name : path) (v : value) : option globaln :=
  match name with
  | (p, n) :: (((p1, _) :: _) as rest) =>
    if String.eqb p (gl_prefix G) && sub_eqb n (sub_of (global_name G)) then
      option_map (mkGlobal (gl_prefix G) (global_name G)) (set_all node_prefix node_set p1 (gl_items G) rest v)
    else Some G
  | _ => None
  end.

(** * add_items and attribute assignment.  An item of a container: its get_name() (lower-case) and the object, of any type; [ok] is the isinstance test. *)
Section Items.
Variable A : Type.
Variable ok : A -> bool.
Definition named := (string * A)%type.
(** "Double items were given": the first item of every name.  The order of the iteration over the set of names is not specified: here that of the list. *)
Fixpoint first_of_each (l : list named) (seen : list string) : list named :=
  match l with [] => [] | x :: r => if isin (fst x) seen then first_of_each r seen else x :: first_of_each r (fst x :: seen) end.
(** cl_3_data.py l.188-216; cl_4_global.py l.200-224 (there None items are dropped first, and isinstance is against CLASSES). *)
Definition add_items (cur : list named) (items : list named) : list named :=
  let s_name := map fst items in
  let items_unique := first_of_each items [] in
  filter (fun x => negb (isin (fst x) s_name)) cur ++ filter (fun x => ok (snd x)) items_unique.
(** cl_3_data.py l.118-124, __getitem__: the first item of the name. *)
Definition find_item (cur : list named) (name : string) : option A :=
  option_map snd (find (fun x => String.eqb (lower name) (fst x)) cur).
Fixpoint remove_nth {B} (l : list B) (i : nat) : list B := match l, i with [], _ => [] | _ :: r, O => r | y :: r, S j => y :: remove_nth r j end.
(** cl_3_data.py l.160-179, cl_4_global.py l.142-186: setattr(container, name, item) for an item of a class of CLASSES; None: ValueError of list.index(name). *)
Definition assign_item (cur : list named) (name : string) (x : named) : option (list named) :=
  let l_name := map fst cur in
  if isin (fst x) l_name then
    match index_of name l_name with
    | Some i => Some (remove_nth cur i ++ [x])
    | None => None
    end
  else Some (cur ++ [x]).
End Items.
Arguments add_items {A}. Arguments find_item {A}. Arguments assign_item {A}. Arguments first_of_each {A}.
