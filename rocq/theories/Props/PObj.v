(** Property theorems C27-C30 and C67: items, loops and containers (B_parent_classes, cl_1_cell.py). *)
From Coq Require Import QArith List String Bool.
From Verif Require Import Spec.Objects Model.Items Spec.ItemSpec Model.Containers Spec.ContainerSpec Proofs.ItemsP Proofs.CellObjP Proofs.ContainersP Proofs.ContainersP2 Proofs.ContainersP3 Proofs.ObjExP.
Import ListNotations.
Open Scope string_scope.
Open Scope list_scope.

(** * C27: one item *)
(** After any sequence of assignments and reads every attribute with a limit is undefined (None), nan, or a number within the limits. *)
Theorem C27_limits : forall c h d, limits_consistent c -> (forall a b, FORM c a = Some b -> all_in_limits c a -> all_in_limits c b) ->
  all_in_limits c d -> all_in_limits c (run c d h).
Proof. exact limits_kept. Qed.
Print Assumptions C27_limits.
(** ... and every attribute with a list of permitted values is None or one of them. *)
Theorem C27_enumerated : forall c h d, (forall k l, allowed (D_CONSTRAINTS c) k = Some l -> ~ limited c k) -> (forall a b, FORM c a = Some b -> enumerated_ok c a -> enumerated_ok c b) ->
  enumerated_ok c d -> enumerated_ok c (run c d h).
Proof. exact enumerated_kept. Qed.
Print Assumptions C27_enumerated.
(** An accepted value is stored, an assignment changes no other stored attribute, and it removes the computed ones. *)
Theorem C27_stored : forall c d name v w, is_none v = false -> In name (ATTR_NAMES c) -> convert c name v = Some w -> permitted c name w = true ->
  (limited c name -> exists x, number w = Some x /\ above (limit (D_MIN c) name) x /\ below (limit (D_MAX c) name) x) ->
  exists d', setattr c d name v = Some d' /\ dget d' name = Some w.
Proof. exact set_get. Qed.
Print Assumptions C27_stored.
Theorem C27_frame : forall c d name v d' k, setattr c d name v = Some d' -> k <> name -> In k (kept_names c) -> dget d' k = dget d k.
Proof. exact set_frame. Qed.
Print Assumptions C27_frame.
Theorem C27_clears_internal : forall c d name v d', is_none v = false -> In name (ATTR_NAMES c) -> setattr c d name v = Some d' ->
  forall k, ~ In k (kept_names c) -> dget d' k = None.
Proof. exact set_clears. Qed.
Print Assumptions C27_clears_internal.
(** Reading an internal attribute after any history of plain operations gives what form_object computes from the present data attributes. *)
Theorem C27_internal_current : forall c h, form_ok c -> Forall (plain c) h ->
  forall k, In k (ATTR_INT_NAMES c) ->
  fst (getattr c (run c [] h) k) =
    (if is_defined c (run c [] h) then match FORM c (run c [] h) with Some d' => dget d' k | None => None end else None).
Proof. exact internal_current. Qed.
Print Assumptions C27_internal_current.
(** Not so for None: the internal attributes stay. *)
Theorem C27_internal_current_refuted : exists h, fst (getattr vcell (run vcell [] h) "volume") <>
  (if is_defined vcell (run vcell [] h) then match FORM vcell (run vcell [] h) with Some d' => dget d' "volume" | None => None end else None).
Proof. exact none_stale. Qed.
Print Assumptions C27_internal_current_refuted.
(** The limits do not exclude nan. *)
Theorem C27_limits_refuted : exists h v, dget (run extinction_class [] h) "radius" = Some v /\ v <> VNone /\ ~ exists x, number v = Some x /\ (0 <= x)%Q.
Proof. exact nan_in. Qed.
Print Assumptions C27_limits_refuted.
Example C27_case_limits : limits_consistent extinction_class /\ all_in_limits extinction_class [] /\ enumerated_ok extinction_class [] /\
  (forall k l, allowed (D_CONSTRAINTS extinction_class) k = Some l -> ~ limited extinction_class k) /\
  run extinction_class [] [Assign "radius" (VNum (-2)); Assign "model" (VStr "gauss"); Assign "model" (VStr "x"); Assign "mosaicity" (VNum 7)] =
    [("radius", VNum 0); ("model", VStr "gauss"); ("mosaicity", VNum 7)].
Proof.
  split; [intros k m M _ H; discriminate|]. split; [intros k v _ _ H; discriminate|]. split; [intros k l v _ _ H; discriminate|]. split; [|reflexivity].
  intros k l H. cbn in H. destruct (String.eqb_spec k "model") as [->|]; [|discriminate]. intros [L|L]; apply L; reflexivity.
Qed.
Example C27_case_form : form_ok (cell_class (plain_form all_int)) /\ Forall (plain (cell_class (plain_form all_int))) vhist /\
  fst (getattr (cell_class (plain_form all_int)) (run (cell_class (plain_form all_int)) [] (vhist ++ [Read "volume"; Assign "length_b" (VNum 5)])) "volume") = Some (VNum 20).
Proof.
  split; [apply cell_form_ok; apply all_int_ok|]. split; [|vm_compute; reflexivity].
  unfold vhist. cbn [map app suffixed cell_names]. repeat (constructor; [split; [intros _; reflexivity|cbn; intuition discriminate]|]). constructor.
Qed.

(** * C28: the unit cell *)
(** After any sequence of assignments and reads (the internal attributes being any function of the six parameters) the angles are in [0, 180]. *)
Theorem C28_angles : forall f h, internals_ok f -> angles_ok (run (cell_class (cell_form f)) [] h).
Proof. exact cell_angles. Qed.
Print Assumptions C28_angles.
(** The lengths are not limited: the keys of the limits are misspelt. *)
Theorem C28_lengths_refuted : exists h x, dget (run vcell (cell_default (cell_form vol3)) h) "length_a" = Some (VNum x) /\ (x < 0)%Q.
Proof. exact negative_length. Qed.
Print Assumptions C28_lengths_refuted.
Theorem C28_any_length_refuted : forall f d x, setattr (cell_class f) d "length_a" (VNum x) = Some (dput (delete_internal_parameters (cell_class f) d) "length_a" (VNum x)).
Proof. exact cell_negative_length. Qed.
Print Assumptions C28_any_length_refuted.
Example C28_case : internals_ok vol3 /\ dget (run vcell (cell_default (cell_form vol3)) [Assign "angle_beta" (VNum 200); Read "volume"]) "angle_beta" = Some (VNum 180).
Proof. split; [exact vol3_ok|vm_compute; reflexivity]. Qed.

(** * C67: the restrictions of the cell type *)
Theorem C67_after_internal : forall f d d', internals_ok f -> usual_setting d -> cell_form f d = Some d' -> obeys d'.
Proof. exact form_obeys. Qed.
Print Assumptions C67_after_internal.
(** ... and the restricted parameters are flagged as constrained and not refined, the free ones as not constrained. *)
Theorem C67_flags : forall f d d', internals_ok f -> usual_setting d -> cell_form f d = Some d' -> flagged d'.
Proof. exact form_flags. Qed.
Print Assumptions C67_flags.
(** Not for monoclinic cells with unique axis c (beta stays 100, gamma is set to 90), nor for primitive hexagonal lattices with a code other than h. *)
Theorem C67_unique_axis_refuted : cell_system "mP" "c1" MonoclinicC /\ ~ obeys (run vcell [] (set_type "mP" "c1")) /\ ~ flagged (run vcell [] (set_type "mP" "c1")) /\
  dget (run vcell [] (set_type "mP" "c1")) "angle_beta" = Some (VNum 100) /\ dget (run vcell [] (set_type "mP" "c1")) "angle_gamma" = Some (VNum 90).
Proof. exact axis_refuted. Qed.
Print Assumptions C67_unique_axis_refuted.
Theorem C67_hexagonal_refuted : cell_system "hP" "1" HexagonalAxes /\ ~ obeys (run vcell [] (set_type "hP" "1")) /\ dget (run vcell [] (set_type "hP" "1")) "angle_gamma" = Some (VNum 90).
Proof. exact hexagonal_refuted. Qed.
Print Assumptions C67_hexagonal_refuted.
(** After an assignment the dependent parameters keep their old values until an internal attribute is read. *)
Theorem C67_after_assignment_refuted : ~ obeys (run vcell [] typed) /\ obeys (run vcell [] (typed ++ [Read "volume"])).
Proof. exact lazy_constraint. Qed.
Print Assumptions C67_after_assignment_refuted.
Example C67_case : exists d', cell_form vol3 (run vcell [] typed) = Some d' /\ dget d' "length_b" = Some (VNum 5) /\ usual_setting (run vcell [] typed) /\ cell_system "tP" "1" Tetragonal.
Proof. eexists. split; [vm_compute; reflexivity|]. split; [reflexivity|]. split; [exact typed_usual|apply (cs_t "P")]. Qed.

(** * C29: variables by name *)
(** The listed names are the refined attributes of the items of the container. *)
Theorem C29_listed : forall G q, plain_global G -> global_variable_names G = Some q -> forall m, In m q <-> exists c d a, denotes G m c d a /\ refines c d a.
Proof. exact global_names_spec. Qed.
Print Assumptions C29_listed.
(** A name gives the attribute it denotes. *)
Theorem C29_get : forall G n c d a, distinct G -> denotes G n c d a -> global_get G n = read c d a.
Proof. exact global_get_denoted. Qed.
Print Assumptions C29_get.
(** One write: the value is read back, all other variables keep theirs. *)
Theorem C29_write_read : forall G n c d a v w, lower_global G -> distinct G -> denotes G n c d a -> accepts c a v w ->
  exists G', global_set G n v = Some G' /\ global_get G' n = RVal w /\ lower_global G' /\ distinct G' /\
    forall m c2 d2 a2, denotes G m c2 d2 a2 -> m <> n -> In a2 (ATTR_NAMES c2) -> global_get G' m = global_get G m.
Proof. exact write_read. Qed.
Print Assumptions C29_write_read.
(** Any sequence of writes: every variable has the value last written, or the initial one. *)
Theorem C29_writes : forall h G, lower_global G -> distinct G -> writes_ok G h -> exists G', write_all G h = Some G' /\ lower_global G' /\ distinct G' /\
  (forall m c d a, denotes G m c d a -> In a (ATTR_NAMES c) -> (forall v, ~ In (m, v) h) -> global_get G' m = global_get G m) /\
  (forall h1 n v h2, h = h1 ++ (n, v) :: h2 -> (forall v', ~ In (n, v') h2) -> forall c d a w, denotes G n c d a -> accepts c a v w -> global_get G' n = RVal w).
Proof. exact writes_done. Qed.
Print Assumptions C29_writes.
(** With an upper-case letter in the name of the container, block or loop the listed names are not those set_variable_by_name expects: the write is lost. *)
Theorem C29_upper_case_refuted :
  (forall G s n c d a v, global_name G = Some s -> lower s <> s -> denotes G n c d a -> global_set G n v = Some G) /\
  (forall D s n c d a v, data_name D = Some s -> lower s <> s -> denotes_data D n c d a -> data_set D n v = Some D) /\
  (forall l s n c d a v, loop_name l = Some s -> lower s <> s -> denotes_leaf (Loop l) n c d a -> loop_set l n v = Some l).
Proof. exact ((conj upper_global (conj upper_data upper_loop))). Qed.
Print Assumptions C29_upper_case_refuted.
Example C29_case : lower_global (obj None) /\ distinct (obj None) /\ plain_global (obj None) /\
  writes_ok (obj None) [(var "down" "radius", VNum 8); (var "up" "radius", VNum 9); (var "down" "radius", VNum 4)] /\
  global_variable_names (obj None) = Some [var "up" "radius"; var "down" "radius";
    [("rhochi", SNone); ("pd", SStr "pow"); ("phase", SNone); ("scale", SInt 0)]; [("rhochi", SNone); ("pd", SStr "pow"); ("phase", SNone); ("igsize", SInt 1)]].
Proof. exact (conj (proj1 obj_ok) (conj (proj1 (proj2 obj_ok)) (conj (proj2 (proj2 obj_ok)) (conj obj_writes obj_names)))). Qed.

(** * C30: items by name *)
(** Calls of add_items and assignments of items under their own names, in any order: one item per name. *)
Theorem C30_one_per_name : forall A (ok : A -> bool) h, one_per_name (container_run ok h).
Proof. exact @one_item_per_name. Qed.
Print Assumptions C30_one_per_name.
(** An added item is found under its name, the other names are not affected. *)
Theorem C30_added_found : forall A (ok : A -> bool) cur items (x : string * A), one_per_name items -> In x items -> ok (snd x) = true -> lower (fst x) = fst x ->
  find_item (add_items ok cur items) (fst x) = Some (snd x).
Proof. exact @added_found. Qed.
Print Assumptions C30_added_found.
Theorem C30_add_frame : forall A (ok : A -> bool) cur (items : list (string * A)) k, ~ In (lower k) (map fst items) -> find_item (add_items ok cur items) k = find_item cur k.
Proof. exact @add_frame. Qed.
Print Assumptions C30_add_frame.
Theorem C30_assigned_found : forall A cur (x : string * A) r, one_per_name cur -> lower (fst x) = fst x -> assign_item cur (fst x) x = Some r ->
  find_item r (fst x) = Some (snd x) /\ forall k, lower k <> fst x -> find_item r k = find_item cur k.
Proof. exact @assigned_found. Qed.
Print Assumptions C30_assigned_found.
Theorem C30_assign_total : forall A cur (x : string * A), exists r, assign_item cur (fst x) x = Some r.
Proof. exact @assign_own. Qed.
Print Assumptions C30_assign_total.
(** Within one call the first item of a name wins, not the last. *)
Theorem C30_duplicate_refuted : forall A (ok : A -> bool) cur k (a b : A), lower k = k -> ok a = true -> find_item (add_items ok cur [(k, a); (k, b)]) k = Some a.
Proof. exact @first_duplicate_kept. Qed.
Print Assumptions C30_duplicate_refuted.
(** An item of a class the container does not take removes the item of its name. *)
Theorem C30_rejected_refuted : forall A (ok : A -> bool) cur k (a : A), lower k = k -> ok a = false -> find_item (add_items ok cur [(k, a)]) k = None.
Proof. exact @rejected_removes. Qed.
Print Assumptions C30_rejected_refuted.
(** Assigned under another name: that item is dropped, the name of the new item is there twice and gives the old item; or ValueError. *)
Theorem C30_assign_other_name_refuted : forall A (a b x : A),
  assign_item [("u", a); ("w", b)] "u" ("w", x) = Some [("w", b); ("w", x)] /\ find_item [("w", b); ("w", x)] "w" = Some b /\ find_item [("w", b); ("w", x)] "u" = None /\
  assign_item [("w", b)] "u" ("w", x) = None.
Proof. exact @assign_other_name. Qed.
Print Assumptions C30_assign_other_name_refuted.
Example C30_case : container_run (fun _ : nat => true) [AddItems [("cell", 1); ("space_group", 2)]; AssignItem ("cell", 3); AddItems [("atom", 4); ("space_group", 5)]]%nat =
  [("cell", 3); ("atom", 4); ("space_group", 5)]%nat.
Proof. reflexivity. Qed.
