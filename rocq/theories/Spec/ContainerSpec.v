(** Specification of variables in a tree of items, loops, data blocks and a global container. *)
From Coq Require Import QArith List String.
From Verif Require Import Spec.Objects Model.Items Spec.ItemSpec Model.Containers.
Import ListNotations.
Open Scope string_scope.
Open Scope list_scope.

(** The value [v] may be assigned to attribute [a] and is stored as [w]. *)
Definition accepts (c : item_class) (a : string) (v w : value) : Prop :=
  is_none v = false /\ In a (ATTR_NAMES c) /\ convert c a v = Some w /\ permitted c a w = true /\ w <> VNone /\
  (limited c a -> exists x, number w = Some x /\ above (limit (D_MIN c) a) x /\ below (limit (D_MAX c) a) x).
(** What a path denotes: attribute [a] of the item of class [c] with attributes [d].  Names of loops and blocks are given in lower case. *)
Inductive denotes_leaf : leaf -> path -> item_class -> dict -> string -> Prop :=
| DItem : forall c d a, denotes_leaf (Item c d) [(PREFIX c, SNone); (a, SNone)] c d a
| DLoop : forall l i d a, nth_error (l_items l) i = Some d ->
    denotes_leaf (Loop l) [(PREFIX (l_class l), lower_sub (sub_of (loop_name l))); (a, SInt i)] (l_class l) d a.
Inductive denotes_data : datan -> path -> item_class -> dict -> string -> Prop :=
| DData : forall D x n c d a, In x (dt_items D) -> denotes_leaf x n c d a -> denotes_data D ((dt_prefix D, lower_sub (sub_of (data_name D))) :: n) c d a.
Inductive denotes_node : gnode -> path -> item_class -> dict -> string -> Prop :=
| DLeafN : forall x n c d a, denotes_leaf x n c d a -> denotes_node (Leaf x) n c d a
| DDataN : forall D n c d a, denotes_data D n c d a -> denotes_node (Data D) n c d a.
Inductive denotes : globaln -> path -> item_class -> dict -> string -> Prop :=
| DGlobal : forall G x n c d a, In x (gl_items G) -> denotes_node x n c d a -> denotes G ((gl_prefix G, lower_sub (sub_of (global_name G))) :: n) c d a.

(** Two items of a container answer to the same names: same prefix, and not two loops (or two blocks) with different names. *)
Definition clash_leaf (x y : leaf) : Prop :=
  leaf_prefix x = leaf_prefix y /\
  match x, y with Loop l, Loop m => lower_sub (sub_of (loop_name l)) = lower_sub (sub_of (loop_name m)) | _, _ => True end.
Definition clash_node (x y : gnode) : Prop :=
  node_prefix x = node_prefix y /\
  match x, y with Leaf a, Leaf b => clash_leaf a b | Data D, Data E => lower_sub (sub_of (data_name D)) = lower_sub (sub_of (data_name E)) | _, _ => True end.
Definition distinct_data (D : datan) : Prop := ForallOrdPairs (fun x y => ~ clash_leaf x y) (dt_items D).
Definition distinct (G : globaln) : Prop :=
  ForallOrdPairs (fun x y => ~ clash_node x y) (gl_items G) /\ forall D, In (Data D) (gl_items G) -> distinct_data D.
(** All names in lower case. *)
Definition lower_name (n : option string) : Prop := match n with Some s => lower s = s | None => True end.
Definition lower_leaf (x : leaf) : Prop := match x with Loop l => lower_name (loop_name l) | Item _ _ => True end.
Definition lower_data (D : datan) : Prop := lower_name (data_name D) /\ forall x, In x (dt_items D) -> lower_leaf x.
Definition lower_global (G : globaln) : Prop :=
  lower_name (global_name G) /\ forall x, In x (gl_items G) -> match x with Leaf y => lower_leaf y | Data D => lower_data D end.
(** [a] is refined: one of the parameters of the class, whose refinement flag is true. *)
Definition refines (c : item_class) (d : dict) (a : string) : Prop :=
  exists flag v, In (a, flag) (combine (ATTR_REF c) (ATTR_REF_FLAG c)) /\ dget d flag = Some v /\ truth v = true.
(** Refinement flags are stored attributes, not computed ones. *)
Definition flags_plain (c : item_class) : Prop := forall k, In k (ATTR_REF_FLAG c) -> ~ In k (ATTR_INT_NAMES c).
Definition leaf_class (x : leaf) : item_class := match x with Item c _ => c | Loop l => l_class l end.
Definition plain_data (D : datan) : Prop := forall x, In x (dt_items D) -> flags_plain (leaf_class x).
Definition plain_node (x : gnode) : Prop := match x with Leaf y => flags_plain (leaf_class y) | Data D => plain_data D end.
Definition plain_global (G : globaln) : Prop := forall x, In x (gl_items G) -> plain_node x.

(** A sequence of writes by name; None: one of them raises. *)
Fixpoint write_all (G : globaln) (h : list (path * value)) : option globaln :=
  match h with [] => Some G | (n, v) :: r => match global_set G n v with Some G' => write_all G' r | None => None end end.
(** Every write is of an acceptable value to a variable of the container. *)
Definition writes_ok (G : globaln) (h : list (path * value)) : Prop := forall n v, In (n, v) h -> exists c d a w, denotes G n c d a /\ accepts c a v w.

(** Items of a container, by name: add_items calls and assignments of an item under its own name. *)
Inductive container_op (A : Type) := AddItems (l : list (string * A)) | AssignItem (x : string * A).
Arguments AddItems {A}. Arguments AssignItem {A}.
Definition container_step {A} (ok : A -> bool) (cur : list (string * A)) (o : container_op A) : list (string * A) :=
  match o with
  | AddItems l => add_items ok cur l
  | AssignItem x => match assign_item cur (fst x) x with Some r => r | None => cur end
  end.
Definition container_run {A} (ok : A -> bool) (h : list (container_op A)) : list (string * A) := fold_left (container_step ok) h [].
(** One item per name. *)
Definition one_per_name {A} (l : list (string * A)) : Prop := NoDup (map fst l).
