(** Model of ItemN attribute access: /repo/cryspy/B_parent_classes/cl_1_item.py. *)
From Coq Require Import QArith List String Ascii Bool.
From Verif Require Import Spec.Objects.
Import ListNotations.
Open Scope string_scope.
Open Scope list_scope.

(** Class attributes of an ItemN subclass.  A Python type (float, int, str, ...) is the function it computes when called; None when it raises.
    For bool the function includes l.232-233 (a string is compared with "True").  D_MIN, D_MAX: set by __init__ in the instance, never changed later.
    FORM: form_object, a function of the attributes (None: it raises). *)
Record item_class := mkClass {
  PREFIX : string;
  ATTR_NAMES : list string;
  ATTR_TYPES : list (value -> option value);
  ATTR_MANDATORY_NAMES : list string;
  ATTR_INT_NAMES : list string;
  ATTR_INT_PROTECTED_NAMES : list string;
  ATTR_REF : list string;
  ATTR_SIGMA : list string;
  ATTR_CONSTR_FLAG : list string;
  ATTR_REF_FLAG : list string;
  ATTR_CONSTR_MARK : list string;
  D_CONSTRAINTS : list (string * list value);
  D_MIN : list (string * Q);
  D_MAX : list (string * Q);
  FORM : dict -> option dict }.

(** "name in tuple of names" *)
Definition isin (k : string) (l : list string) : bool := existsb (String.eqb k) l.
(** tuple.index(name) *)
Fixpoint index_of (k : string) (l : list string) : option nat :=
  match l with [] => None | x :: r => if String.eqb k x then Some 0%nat else option_map S (index_of k r) end.
(** v == w (nan equals nothing; True == 1). *)
Definition py_eq (v w : value) : bool :=
  match v, w with
  | VNone, VNone => true
  | VStr s, VStr t => String.eqb s t
  | VOther a, VOther b => Nat.eqb a b
  | _, _ => match number v, number w with Some x, Some y => Qeq_bool x y | _, _ => false end
  end.
(** v < x and v > x for a number x; None: TypeError. *)
Definition py_lt (v : value) (x : Q) : option bool :=
  match v with VNan => Some false | _ => match number v with Some y => Some (negb (Qle_bool x y)) | None => None end end.
Definition py_gt (v : value) (x : Q) : option bool :=
  match v with VNan => Some false | _ => match number v with Some y => Some (negb (Qle_bool y x)) | None => None end end.
(** float(v); strings are not modelled here (they raise). *)
Definition py_float (v : value) : option value :=
  match v with VNan => Some VNan | _ => option_map VNum (number v) end.
(** bool(v) *)
Definition py_bool (v : value) : value :=
  VBool (match v with VNone => false | VBool b => b | VNum x => negb (Qeq_bool x 0) | VNan => true | VStr s => negb (String.eqb s "") | VOther _ => true end).
(** str(v).strip() of a string; other values are left as they are (their text is not modelled). *)
Definition is_space (c : ascii) : bool := let n := nat_of_ascii c in Nat.eqb n 32 || (Nat.leb 9 n && Nat.leb n 13).
Fixpoint lstrip (s : string) : string := match s with String c r => if is_space c then lstrip r else s | EmptyString => s end.
Fixpoint rev_string (s acc : string) : string := match s with String c r => rev_string r (String c acc) | EmptyString => acc end.
Definition strip (s : string) : string := rev_string (lstrip (rev_string (lstrip s) "")) "".
Definition py_mark (v : value) : value := match v with VStr s => VStr (strip s) | _ => v end.

(** l.259-280 delete_internal_parameters: names kept. *)
Definition kept_names (c : item_class) : list string :=
  ATTR_NAMES c ++ ATTR_SIGMA c ++ ATTR_CONSTR_FLAG c ++ ATTR_REF_FLAG c ++ ATTR_CONSTR_MARK c ++ ATTR_INT_PROTECTED_NAMES c.
Definition delete_internal_parameters (c : item_class) (d : dict) : dict := filter (fun q => isin (fst q) (kept_names c)) d.

(** l.240-245: replaced by the limit when outside. *)
Definition clamp_min (c : item_class) (name : string) (v : value) : option value :=
  match limit (D_MIN c) name with
  | Some m => match py_lt v m with Some true => Some (VNum m) | Some false => Some v | None => None end
  | None => Some v
  end.
Definition clamp_max (c : item_class) (name : string) (v : value) : option value :=
  match limit (D_MAX c) name with
  | Some m => match py_gt v m with Some true => Some (VNum m) | Some false => Some v | None => None end
  | None => Some v
  end.
(** l.236-239 *)
Definition permitted (c : item_class) (name : string) (v : value) : bool :=
  match allowed (D_CONSTRAINTS c) name with Some l => existsb (py_eq v) l | None => true end.
(** l.227-231: the type of a data attribute. *)
Definition convert (c : item_class) (name : string) (v : value) : option value :=
  match index_of name (ATTR_NAMES c) with
  | Some i => match nth_error (ATTR_TYPES c) i with Some t => t v | None => None end
  | None => None
  end.
(** l.218-224: None, "." and "?" *)
Definition is_none (v : value) : bool := match v with VNone => true | VStr s => String.eqb s "." || String.eqb s "?" | _ => false end.

(** l.194-258 __setattr__: None when an exception is raised (the attributes are then unchanged). *)
Definition setattr (c : item_class) (d : dict) (name : string) (v : value) : option dict :=
  if is_none v then Some (dput d name VNone)
  else if isin name (ATTR_NAMES c) then
    match convert c name v with
    | None => None
    | Some w =>
      match clamp_min c name w with
      | None => None
      | Some w1 =>
        match clamp_max c name w1 with
        | None => None
        | Some w2 =>
          let d1 := delete_internal_parameters c d in
          if permitted c name w then Some (dput d1 name w2) else Some d1
        end
      end
    end
  else if isin name (ATTR_SIGMA c) then option_map (dput d name) (py_float v)
  else if isin name (ATTR_CONSTR_FLAG c ++ ATTR_REF_FLAG c) then Some (dput d name (py_bool v))
  else if isin name (ATTR_CONSTR_MARK c) then Some (dput d name (py_mark v))
  else Some (dput d name v).

(** l.293-320 is_defined, for mandatory names that are data attributes.  (l.312-319: without mandatory names, any data attribute.) *)
Definition has (d : dict) (k : string) : bool := match dget d k with Some _ => true | None => false end.
Definition is_defined (c : item_class) (d : dict) : bool :=
  match ATTR_MANDATORY_NAMES c with [] => existsb (has d) (ATTR_NAMES c) | l => forallb (has d) l end.
(** l.118-190 __getattr__ after the lookup in __dict__: value (None: AttributeError) and the attributes afterwards.  Names ending in
    "_as_string" are not modelled. *)
Definition getattr (c : item_class) (d : dict) (name : string) : option value * dict :=
  match dget d name with
  | Some v => (Some v, d)
  | None =>
    if isin name (ATTR_NAMES c ++ ATTR_SIGMA c ++ ATTR_INT_PROTECTED_NAMES c) then (None, d)
    else if isin name (ATTR_INT_NAMES c) then
      if is_defined c d then match FORM c d with Some d' => (dget d' name, d') | None => (None, d) end else (None, d)
    else (None, d)
  end.

(** A history of assignments and reads of an item: what raises leaves the attributes unchanged. *)
Inductive op := Assign (name : string) (v : value) | Read (name : string).
Definition step (c : item_class) (d : dict) (o : op) : dict :=
  match o with
  | Assign name v => match setattr c d name v with Some d' => d' | None => d end
  | Read name => snd (getattr c d name)
  end.
Definition run (c : item_class) (d : dict) (h : list op) : dict := fold_left (step c) h d.

(** cl_1_cell.py l.33-96: class Cell.  The type is float for the six attributes; form_object is a parameter
    (see cell_form below). *)
Definition cell_names := ["length_a"; "length_b"; "length_c"; "angle_alpha"; "angle_beta"; "angle_gamma"].
Definition suffixed (s : string) (l : list string) : list string := map (fun x => (x ++ s)%string) l.
Definition cell_class (form : dict -> option dict) : item_class := {|
  PREFIX := "cell";
  ATTR_NAMES := cell_names;
  ATTR_TYPES := [py_float; py_float; py_float; py_float; py_float; py_float];
  ATTR_MANDATORY_NAMES := cell_names;
  ATTR_INT_NAMES := ["m_g"; "m_g_reciprocal"; "m_b"; "m_b_norm"; "m_m"; "m_m_norm";
        "cos_a"; "cos_b"; "cos_g"; "sin_a"; "sin_b"; "sin_g"; "cos_a_sq";
        "cos_b_sq"; "cos_g_sq"; "sin_a_sq"; "sin_b_sq"; "sin_g_sq"; "cos_ia";
        "cos_ib"; "cos_ig"; "sin_ia"; "sin_ib"; "sin_ig"; "cos_ia_sq";
        "cos_ib_sq"; "cos_ig_sq"; "sin_ia_sq"; "sin_ib_sq"; "sin_ig_sq";
        "reciprocal_length_a"; "reciprocal_length_b"; "reciprocal_length_c";
        "reciprocal_angle_alpha"; "reciprocal_angle_beta";
        "reciprocal_angle_gamma"; "volume"];
  ATTR_INT_PROTECTED_NAMES := ["type_cell"; "it_coordinate_system_code"; "formula_units_z"];
  ATTR_REF := cell_names;
  ATTR_SIGMA := suffixed "_sigma" cell_names;
  ATTR_CONSTR_FLAG := suffixed "_constraint" cell_names;
  ATTR_REF_FLAG := suffixed "_refinement" cell_names;
  ATTR_CONSTR_MARK := suffixed "_mark" cell_names;
  D_CONSTRAINTS := [("type", [VStr "c"; VStr "p"])];
  D_MIN := [("legnth_a", 0); ("legnth_b", 0); ("legnth_c", 0); ("angle_alpha", 0); ("angle_beta", 0); ("angle_gamma", 0)]%Q;
  D_MAX := [("angle_alpha", 180); ("angle_beta", 180); ("angle_gamma", 180)]%Q;
  FORM := form |}.
(** form_object of Cell, l.112-160 (apply_constraints, when type_cell and it_coordinate_system_code are defined) and l.162-283 (the internal attributes, here any
    function of the six parameters: the list of attributes set).  The dependent parameters of a cell type, with their source
    (function_1_atomic_vibrations.py l.306-402; modelled with numbers in Model/Vibration.v); type names of the tables (lower-case first letter). *)
Inductive source := From (k : string) | Fixed (x : Q).
Definition cell_rule (type_cell it_code : string) : list (string * source) :=
  let al90 := ("angle_alpha", Fixed 90) in let be90 := ("angle_beta", Fixed 90) in let ga90 := ("angle_gamma", Fixed 90) in
  let b_a := ("length_b", From "length_a") in let c_a := ("length_c", From "length_a") in
  let hexa := [b_a; al90; be90; ("angle_gamma", Fixed 120)] in
  let rhombo := [b_a; c_a; ("angle_beta", From "angle_alpha"); ("angle_gamma", From "angle_alpha")] in
  let h := String.eqb it_code "h" || String.eqb it_code "H" in
  if String.eqb type_cell "aP" then []
  else if String.prefix "m" type_cell then [al90; ga90]
  else if String.prefix "o" type_cell then [al90; be90; ga90]
  else if String.prefix "t" type_cell then [b_a; al90; be90; ga90]
  else if String.prefix "hP" type_cell then (if h then hexa else rhombo)
  else if String.eqb type_cell "hR" then (if h then hexa else rhombo)
  else if String.prefix "c" type_cell then [b_a; c_a; al90; be90; ga90]
  else [].
Definition of_source (d : dict) (s : source) : option value := match s with From k => dget d k | Fixed x => Some (VNum x) end.
Definition sigma_source (d : dict) (s : source) : option value := match s with From k => dget d (k ++ "_sigma")%string | Fixed _ => Some (VNum 0) end.
(** One dependent parameter: value, sigma, refinement flag, constraint flag (AttributeError when the source is not defined). *)
Definition constrain_one (d0 : dict) (o : option dict) (r : string * source) : option dict :=
  match o, of_source d0 (snd r), sigma_source d0 (snd r) with
  | Some d, Some v, Some s =>
    Some (dput (dput (dput (dput d (fst r) v) (fst r ++ "_sigma")%string s) (fst r ++ "_refinement")%string (VBool false)) (fst r ++ "_constraint")%string (VBool true))
  | _, _, _ => None
  end.
Definition unconstrain (d : dict) : dict := fold_left (fun d k => dput d (k ++ "_constraint")%string (VBool false)) cell_names d.
Definition cell_apply_constraints (d : dict) : option dict :=
  match dget d "type_cell", dget d "it_coordinate_system_code" with
  | Some (VStr t), Some (VStr i) => fold_left (constrain_one d) (cell_rule t i) (Some (unconstrain d))
  | Some _, Some _ => None
  | _, _ => Some d
  end.
Definition put_all (d : dict) (l : list (string * value)) : dict := fold_left (fun d q => dput d (fst q) (snd q)) l d.
Definition six (d : dict) : list (option value) := map (dget d) cell_names.
(** When an exception is raised the constraints already written stay in the program; the model restores the attributes. *)
Definition cell_form (internals : list (option value) -> option (list (string * value))) (d : dict) : option dict :=
  match cell_apply_constraints d with
  | Some d' => option_map (put_all d') (internals (six d'))
  | None => None
  end.
(** l.79-88, l.102-103: the defaults written by __init__. *)
Definition cell_default (form : dict -> option dict) : dict :=
  run (cell_class form) []
    (map (fun k => Assign k (VNum 1)) ["length_a"; "length_b"; "length_c"] ++ map (fun k => Assign k (VNum 90)) ["angle_alpha"; "angle_beta"; "angle_gamma"] ++
     map (fun k => Assign k (VNum 0)) (suffixed "_sigma" cell_names) ++
     map (fun k => Assign k (VBool false)) (suffixed "_constraint" cell_names ++ suffixed "_refinement" cell_names) ++
     map (fun k => Assign k (VStr "")) (suffixed "_mark" cell_names)).
(** cl_1_extinction.py l.28-73: class Extinction (str of anything that is not a string: not modelled, raises). *)
Definition py_str (v : value) : option value := match v with VStr _ => Some v | _ => None end.
Definition extinction_class : item_class := {|
  PREFIX := "extinction"; ATTR_NAMES := ["model"; "mosaicity"; "radius"]; ATTR_TYPES := [py_str; py_float; py_float];
  ATTR_MANDATORY_NAMES := ["model"; "mosaicity"; "radius"]; ATTR_INT_NAMES := []; ATTR_INT_PROTECTED_NAMES := [];
  ATTR_REF := ["mosaicity"; "radius"]; ATTR_SIGMA := suffixed "_sigma" ["mosaicity"; "radius"];
  ATTR_CONSTR_FLAG := suffixed "_constraint" ["mosaicity"; "radius"]; ATTR_REF_FLAG := suffixed "_refinement" ["mosaicity"; "radius"];
  ATTR_CONSTR_MARK := suffixed "_mark" ["mosaicity"; "radius"];
  D_CONSTRAINTS := [("model", [VStr "gauss"; VStr "lorentz"])]; D_MIN := [("mosaicity", 0); ("radius", 0)]%Q; D_MAX := []; FORM := Some |}.
(** cl_1_phase.py l.11-73: class Phase. *)
Definition phase_refs := ["scale"; "igsize"; "x"; "y"; "u"; "v"; "w"].
Definition phase_class : item_class := {|
  PREFIX := "phase"; ATTR_NAMES := "label" :: phase_refs; ATTR_TYPES := py_str :: map (fun _ => py_float) phase_refs;
  ATTR_MANDATORY_NAMES := ["label"]; ATTR_INT_NAMES := []; ATTR_INT_PROTECTED_NAMES := [];
  ATTR_REF := phase_refs; ATTR_SIGMA := suffixed "_sigma" phase_refs;
  ATTR_CONSTR_FLAG := suffixed "_constraint" phase_refs; ATTR_REF_FLAG := suffixed "_refinement" phase_refs;
  ATTR_CONSTR_MARK := suffixed "_mark" phase_refs;
  D_CONSTRAINTS := []; D_MIN := [("igsize", 0); ("x", 0); ("y", 0)]%Q; D_MAX := []; FORM := Some |}.
(** The defaults of an item with refined parameters [l]. *)
Definition defaults (l : list string) : dict :=
  map (fun k => (k, VNum 0)) (suffixed "_sigma" l) ++ map (fun k => (k, VBool false)) (suffixed "_constraint" l ++ suffixed "_refinement" l) ++ map (fun k => (k, VStr "")) (suffixed "_mark" l).
