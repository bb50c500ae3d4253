(** Specification of the attribute limits of an item class and of well-behaved operations. *)
From Coq Require Import QArith List String Ascii.
From Verif Require Import Spec.Objects Model.Items.
Import ListNotations.
Open Scope string_scope.

(** Attributes with a lower or an upper limit; a value that respects the limits (None: not defined; nan compares with nothing). *)
Definition limited (c : item_class) (k : string) : Prop := limit (D_MIN c) k <> None \/ limit (D_MAX c) k <> None.
Definition in_limits (c : item_class) (k : string) (v : value) : Prop :=
  v = VNone \/ v = VNan \/ exists x, number v = Some x /\ above (limit (D_MIN c) k) x /\ below (limit (D_MAX c) k) x.
Definition limits_consistent (c : item_class) : Prop := forall k m M, limit (D_MIN c) k = Some m -> limit (D_MAX c) k = Some M -> (m <= M)%Q.
Definition all_in_limits (c : item_class) (d : dict) : Prop :=
  forall k v, In k (ATTR_NAMES c) -> limited c k -> dget d k = Some v -> in_limits c k v.
(** Attributes with a list of permitted values. *)
Definition enumerated_ok (c : item_class) (d : dict) : Prop := forall k l v, In k (ATTR_NAMES c) -> allowed (D_CONSTRAINTS c) k = Some l -> dget d k = Some v ->
  v = VNone \/ exists a, In a l /\ py_eq v a = true.
(** Operations that do not bypass the mechanism: no assignment of None to a data attribute, none to an internal attribute. *)
Definition plain (c : item_class) (o : op) : Prop :=
  match o with Assign name v => (In name (ATTR_NAMES c) -> is_none v = false) /\ ~ In name (ATTR_INT_NAMES c) | Read _ => True end.
(** form_object computes the internal attributes from the data attributes, leaves those as they are; internal names are not data names. *)
Record form_ok (c : item_class) : Prop := {
  fk_data : forall a b k, FORM c a = Some b -> In k (ATTR_NAMES c) -> dget b k = dget a k;
  fk_dep : forall a b k, (forall n, In n (ATTR_NAMES c) -> dget a n = dget b n) -> In k (ATTR_INT_NAMES c) ->
    option_map (fun d => dget d k) (FORM c a) = option_map (fun d => dget d k) (FORM c b);
  fk_mand : forall k, In k (ATTR_MANDATORY_NAMES c) -> In k (ATTR_NAMES c);
  fk_disj : forall k, In k (ATTR_INT_NAMES c) -> ~ In k (kept_names c) }.

(** * The unit cell object *)
Definition cell_internal_names := ATTR_INT_NAMES (cell_class Some).
(** The attributes form_object computes are internal ones. *)
Definition internals_ok (f : list (option value) -> option (list (string * value))) : Prop := forall p l, f p = Some l -> forall k v, In (k, v) l -> In k cell_internal_names.
Definition angles := ["angle_alpha"; "angle_beta"; "angle_gamma"].
Definition angle_ok (v : value) : Prop := v = VNone \/ v = VNan \/ exists x, number v = Some x /\ (0 <= x <= 180)%Q.
Definition angles_ok (d : dict) : Prop := forall k v, In k angles -> dget d k = Some v -> angle_ok v.

(** Restrictions of the six parameters by the crystal system (International Tables A): a parameter equal to another, or a fixed angle. *)
Inductive restriction := SameAs (k k' : string) | Equals (k : string) (x : Q).
Definition restricted (r : restriction) : string := match r with SameAs k _ => k | Equals k _ => k end.
Definition satisfied (d : dict) (r : restriction) : Prop := match r with SameAs k k' => dget d k = dget d k' | Equals k x => dget d k = Some (VNum x) end.
Inductive system := Triclinic | MonoclinicA | MonoclinicB | MonoclinicC | Orthorhombic | Tetragonal | HexagonalAxes | RhombohedralAxes | Cubic.
Definition restrictions (s : system) : list restriction :=
  let al := Equals "angle_alpha" 90 in let be := Equals "angle_beta" 90 in let ga := Equals "angle_gamma" 90 in
  match s with
  | Triclinic => []
  | MonoclinicA => [be; ga]
  | MonoclinicB => [al; ga]
  | MonoclinicC => [al; be]
  | Orthorhombic => [al; be; ga]
  | Tetragonal => [SameAs "length_b" "length_a"; al; be; ga]
  | HexagonalAxes => [SameAs "length_b" "length_a"; al; be; Equals "angle_gamma" 120]
  | RhombohedralAxes => [SameAs "length_b" "length_a"; SameAs "length_c" "length_a"; SameAs "angle_beta" "angle_alpha"; SameAs "angle_gamma" "angle_alpha"]
  | Cubic => [SameAs "length_b" "length_a"; SameAs "length_c" "length_a"; al; be; ga]
  end.
(** Bravais type (its first letter is that of the crystal family) and code of the setting. *)
Inductive cell_system : string -> string -> system -> Prop :=
  | cs_a : forall i, cell_system "aP" i Triclinic
  | cs_ma : forall r i, cell_system (String "m"%char r) (String "a"%char i) MonoclinicA
  | cs_mb : forall r i, cell_system (String "m"%char r) (String "b"%char i) MonoclinicB
  | cs_mc : forall r i, cell_system (String "m"%char r) (String "c"%char i) MonoclinicC
  | cs_o : forall r i, cell_system (String "o"%char r) i Orthorhombic
  | cs_t : forall r i, cell_system (String "t"%char r) i Tetragonal
  | cs_hP : forall i, cell_system "hP" i HexagonalAxes
  | cs_hR_h : forall i, i = "h" \/ i = "H" -> cell_system "hR" i HexagonalAxes
  | cs_hR_r : forall i, i = "r" \/ i = "R" -> cell_system "hR" i RhombohedralAxes
  | cs_c : forall r i, cell_system (String "c"%char r) i Cubic.
(** The parameters obey the restrictions of the cell type of the object. *)
Definition obeys (d : dict) : Prop := forall t i s, dget d "type_cell" = Some (VStr t) -> dget d "it_coordinate_system_code" = Some (VStr i) -> cell_system t i s ->
  forall r, In r (restrictions s) -> satisfied d r.
(** ... and the flags say so: what is restricted is constrained and not refined, what is not is not constrained. *)
Definition flagged (d : dict) : Prop := forall t i s, dget d "type_cell" = Some (VStr t) -> dget d "it_coordinate_system_code" = Some (VStr i) -> cell_system t i s ->
  forall k, In k ["length_a"; "length_b"; "length_c"; "angle_alpha"; "angle_beta"; "angle_gamma"] ->
  (In k (map restricted (restrictions s)) -> dget d (k ++ "_constraint") = Some (VBool true) /\ dget d (k ++ "_refinement") = Some (VBool false)) /\
  (~ In k (map restricted (restrictions s)) -> dget d (k ++ "_constraint") = Some (VBool false)).
(** Cases the library handles: unique axis b; primitive hexagonal lattices with code h. *)
Definition usual_setting (d : dict) : Prop :=
  (forall r i, dget d "type_cell" = Some (VStr (String "m"%char r)) -> dget d "it_coordinate_system_code" = Some (VStr i) -> exists j, i = String "b"%char j) /\
  (forall i, dget d "type_cell" = Some (VStr "hP") -> dget d "it_coordinate_system_code" = Some (VStr i) -> i = "h" \/ i = "H").
