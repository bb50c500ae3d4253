(** Property theorems C74-C78: the CIF text of items, loops, data blocks and files (B_parent_classes). *)
From Coq Require Import QArith Qabs List String Ascii Bool Permutation.
From Verif Require Import Spec.Objects Spec.ItemSpec Spec.StarSpec Spec.CifSpec Model.Strings Model.Numbers Model.Items Model.CifText Proofs.CifTextP Proofs.CifItemP Proofs.CifItem2P Proofs.CifValueP Proofs.CifLoopP Proofs.CifBlockP Proofs.CifExP.
Import ListNotations.
Open Scope string_scope.
Open Scope list_scope.

(** * C74: the text of an item *)
(** The text of an item is a CIF text; its contents are the defined attributes, in order, each under its name and with its value. *)
Theorem C74_item_text : forall c d sep, cif_class_ok c -> word sep -> writable c d ->
  exists s, item_to_cif c d sep = Some s /\ contents s = Some (item_contents c d sep).
Proof. exact item_text. Qed.
Print Assumptions C74_item_text.
(** Not for every value: a label that begins with "#", "_" or a quote, is a keyword, is empty or holds a tabulator is accepted, and the text is no CIF text. *)
Theorem C74_item_text_refuted : forall s, In s ["#1"; ""; "_a"; "loop_"; "'a"; ("a" ++ tab ++ "b")%string] -> forall repr,
  setattr phase_class (defaults phase_class) "label" (VStr s) = Some (with_label s) /\
  exists t, item_to_cif (phase_cif repr) (with_label s) sep_u = Some t /\ contents t = None.
Proof. exact label_refuted. Qed.
Print Assumptions C74_item_text_refuted.
Example C74_case : cif_class_ok phase_ex /\ word sep_u /\ writable phase_ex phase_d /\
  option_map st (item_to_cif phase_ex phase_d sep_u) =
  Some ("_phase_label ""Fe3 O4""" ++ String newline ("_phase_scale 1.250(30)s1" ++ String newline ("_phase_U ." ++ String newline "_phase_W 0.5")))%string /\
  contents (tx ("_phase_label ""Fe3 O4""" ++ String newline "_phase_scale 1.250(30)s1 # comment")) = Some [EItem (tx "_phase_label") (tx "Fe3 O4"); EItem (tx "_phase_scale") (tx "1.250(30)s1")].
Proof. repeat split; try (apply phase_ok || apply phase_d_good || apply phase_d_text || (vm_compute; reflexivity)). apply wordb_ok; reflexivity. Qed.
Example C74_classes : forall form repr, cif_class_ok (phase_cif repr) /\ cif_class_ok (cell_cif form repr) /\ cif_class_ok (atom_site_cif form repr).
Proof. intros. split; [apply phase_ok|]. split; [apply cell_ok|apply atom_site_ok]. Qed.

(** * C75: reading the text of an item *)
(** from_cif of the text of an item gives an item with the same data, for both separators. *)
Theorem C75_item_round_trip : forall c d sep, cif_class_ok c -> sep = sep_u \/ sep = sep_d -> writable c d -> survives c d -> complete c d -> form_keeps c d ->
  exists s d', item_to_cif c d sep = Some s /\ item_from_cif c s = Object d' /\ same_data c d d'.
Proof. exact item_round_trip. Qed.
Print Assumptions C75_item_round_trip.
(** Values with these properties: texts that are words or can be quoted, *)
Theorem C75_string : forall c d k s, In k (ATTR_NAMES (BASE c)) -> ~ In k (ATTR_REF (BASE c)) -> dget d k = Some (VStr s) -> ~ refined d k ->
  format_of (D_FORMATS c) k = None -> accepts c k (VStr s) (VStr s) -> bare_value (tx s) \/ (has_space (tx s) = true /\ quotable_value (tx s)) ->
  writable_attr c d k (VStr s) /\ survives_attr c d k (VStr s).
Proof. exact string_survives. Qed.
Print Assumptions C75_string.
(** None, *)
Theorem C75_none : forall c d k, In k (ATTR_NAMES (BASE c)) -> dget d k = Some VNone -> ~ refined d k -> writable_attr c d k VNone /\ survives_attr c d k VNone.
Proof. exact none_survives. Qed.
Print Assumptions C75_none.
(** numbers that Python's own formatting keeps, *)
Theorem C75_number : forall c d k x, In k (ATTR_REF (BASE c)) -> dget d k = Some (VNum x) -> ~ refined d k -> format_of (D_FORMATS c) k = None ->
  bare_value (REPR c k x) -> (forall a, In a (REPR c k x) -> a <> "("%char /\ a <> ")"%char) -> REPR c k x <> [c_dot] -> parse_float (REPR c k x) = Some x ->
  accepts c k (VNum x) (VNum x) -> writable_attr c d k (VNum x) /\ survives_attr c d k (VNum x).
Proof. exact free_survives. Qed.
Print Assumptions C75_number.
(** numbers with as many digits as the format of the attribute, *)
Theorem C75_fixed_format : forall c d k N n, In k (ATTR_REF (BASE c)) -> dget d k = Some (VNum (decimal N n)) -> ~ refined d k -> format_of (D_FORMATS c) k = Some n -> (0 < n)%nat ->
  word (REPR c k (decimal N n)) -> accepts c k (VNum (decimal N n)) (VNum (decimal N n)) ->
  writable_attr c d k (VNum (decimal N n)) /\ survives_attr c d k (VNum (decimal N n)).
Proof. exact fixed_survives. Qed.
Print Assumptions C75_fixed_format.
(** and refined parameters whose value and error survive their common text (C31). *)
Theorem C75_refined : forall c d k x e m, In k (ATTR_REF (BASE c)) -> dget d k = Some (VNum x) ->
  dget d (k ++ "_refinement") = Some (VBool true) -> dget d (k ++ "_sigma") = Some (VNum e) -> dget d (k ++ "_mark") = Some (VStr m) ->
  word (REPR c k x) -> bare_value (value_error_mark_to_string (REPR c k) x (Some e) (tx m)) ->
  string_to_value_error_mark (value_error_mark_to_string (REPR c k) x (Some e) (tx m)) = Some (Some x, Some e, tx m) ->
  accepts c k (VNum x) (VNum x) -> accepts c (k ++ "_mark") (VStr m) (VStr m) ->
  writable_attr c d k (VNum x) /\ survives_attr c d k (VNum x).
Proof. exact refined_survives. Qed.
Print Assumptions C75_refined.
(** A number with more digits than the format is read back within half a unit of the last digit, *)
Theorem C75_digits_partial : forall n x, (0 < n)%nat -> exists y, parse_float (fixed_text n x) = Some y /\ (Qabs (y - x) * inject_Z (pow10 n) <= 1 # 2)%Q.
Proof. exact fixed_close. Qed.
Print Assumptions C75_digits_partial.
(** but not exactly: a cell length 5.43102064 comes back as 5.431021. *)
Theorem C75_digits_refuted : exists t d', item_to_cif cell_ex cell_d sep_u = Some t /\ item_from_cif cell_ex t = Object d' /\
  dget cell_d "length_a" = Some (VNum (Qred (543102064 # 100000000))) /\ dget d' "length_a" = Some (VNum (Qred (5431021 # 1000000))).
Proof. exact digits_refuted. Qed.
Print Assumptions C75_digits_refuted.
(** The error of a parameter that is not refined is lost. *)
Theorem C75_sigma_refuted : exists t d', item_to_cif phase_ex fixed_scale sep_u = Some t /\ item_from_cif phase_ex t = Object d' /\
  dget fixed_scale "scale_sigma" = Some (VNum (1 # 2)) /\ dget d' "scale_sigma" = Some (VNum 0).
Proof. exact sigma_refuted. Qed.
Print Assumptions C75_sigma_refuted.
(** A text of several lines gets a line end in front (with a reader that follows the grammar of text fields). *)
Theorem C75_lines_refuted : forall repr, exists t d', item_to_cif (phase_cif repr) (with_label two_lines) sep_u = Some t /\ item_from_cif (phase_cif repr) t = Object d' /\
  dget (with_label two_lines) "label" = Some (VStr two_lines) /\ dget d' "label" = Some (VStr (String newline two_lines)).
Proof. exact lines_refuted. Qed.
Print Assumptions C75_lines_refuted.
Example C75_case : cif_class_ok phase_ex /\ writable phase_ex phase_d /\ survives phase_ex phase_d /\ complete phase_ex phase_d /\ form_keeps phase_ex phase_d.
Proof. split; [apply phase_ok|]. apply phase_d_good. Qed.

(** * C76: loops *)
(** The text of a loop is a CIF text with a single loop: a column for every attribute of the first item, a row for every item, the cells in their places. *)
Theorem C76_loop_text : forall c loop_name items sep, cif_class_ok c -> word sep -> items <> [] -> loop_columns c items <> [] ->
  match loop_name with Some n => word n | None => True end -> loop_writable c items ->
  exists s, loop_to_cif c loop_name items sep = Some s /\ contents s = Some (loop_contents c loop_name items sep).
Proof. exact loop_text. Qed.
Print Assumptions C76_loop_text.
(** from_cif of it gives as many items, in the same order and with the same data, and the name of the loop, when all items define the same attributes. *)
Theorem C76_loop_round_trip : forall c loop_name items s0, cif_class_ok c -> plain_names c -> s0 = "_"%char \/ s0 = "."%char -> items <> [] -> loop_columns c items <> [] ->
  match loop_name with Some n => word n | None => True end -> loop_writable c items -> uniform c items -> loop_survives c items ->
  (forall d k, In d items -> In k (ATTR_NAMES (BASE c)) -> dget d k = None -> dget (INIT c) k = None) ->
  exists s items', loop_to_cif c loop_name items [s0] = Some s /\ loop_from_cif c s = Object (match loop_name with Some n => n | None => [] end, items') /\ Forall2 (same_data c) items items'.
Proof. exact loop_round_trip. Qed.
Print Assumptions C76_loop_round_trip.
(** An attribute the first item does not define is lost for all items; *)
Theorem C76_first_item_refuted : let items := [with_label "a"; scaled_phase "b" (3 # 1)] in exists t a b,
  loop_to_cif phase_ex None items sep_u = Some t /\ loop_from_cif phase_ex t = Object ([], [a; b]) /\ dget b "scale" = None.
Proof. exact first_item_refuted. Qed.
Print Assumptions C76_first_item_refuted.
(** one that another item does not define comes back as None; *)
Theorem C76_other_item_refuted : let items := [scaled_phase "b" (3 # 1); with_label "a"] in exists t a b,
  loop_to_cif phase_ex None items sep_u = Some t /\ loop_from_cif phase_ex t = Object ([], [a; b]) /\ dget (with_label "a") "scale" = None /\ dget b "scale" = Some VNone.
Proof. exact other_item_refuted. Qed.
Print Assumptions C76_other_item_refuted.
(** a loop without items comes back with one; *)
Theorem C76_no_item_refuted : exists t a, loop_to_cif phase_ex None [] sep_u = Some t /\ loop_from_cif phase_ex t = Object ([], [a]) /\ dget a "label" = Some VNone.
Proof. exact no_item_refuted. Qed.
Print Assumptions C76_no_item_refuted.
(** a label of two lines comes back as two items; *)
Theorem C76_lines_refuted : exists t a b, loop_to_cif phase_ex None [with_label two_lines] sep_u = Some t /\ loop_from_cif phase_ex t = Object ([], [a; b]) /\
  dget a "label" = Some (VStr "a") /\ dget b "label" = Some (VStr "b").
Proof. exact loop_lines_refuted. Qed.
Print Assumptions C76_lines_refuted.
(** and atoms cannot be read when the loop of anisotropic parameters stands before the loop of atoms. *)
Theorem C76_prefix_refuted : forall form repr,
  (exists a, loop_from_entries (atom_site_cif form repr) [site_loop; aniso_loop] = Object ([], [a]) /\ dget a "label" = Some (VStr "O1") /\ dget a "fract_y" = Some (VNum (1 # 5))) /\
  loop_from_entries (atom_site_cif form repr) [aniso_loop; site_loop] = Raises.
Proof. exact prefix_refuted. Qed.
Print Assumptions C76_prefix_refuted.
Example C76_case : cif_class_ok phase_ex /\ plain_names phase_ex /\ loop_columns phase_ex phases <> [] /\ loop_writable phase_ex phases /\ uniform phase_ex phases /\ loop_survives phase_ex phases /\
  (forall d k, In d phases -> In k (ATTR_NAMES (BASE phase_ex)) -> dget d k = None -> dget (INIT phase_ex) k = None).
Proof. split; [apply phase_ok|]. split; [apply phase_plain|]. apply phases_good. Qed.

(** * C77: data blocks and files *)
(** The text of a data block is its heading and the contents of its items and loops, each exactly once. *)
Theorem C77_data_text : forall name items loops ei el, match name with Some n => word n | None => True end ->
  Forall2 (fun s e => contents s = Some e) items ei -> Forall2 (fun s e => contents s = Some e) loops el ->
  exists es, Permutation (ei ++ el) es /\ contents (data_to_cif name items loops) = Some (EData (match name with Some n => n | None => [] end) :: List.concat es).
Proof. exact data_contents. Qed.
Print Assumptions C77_data_text.
(** The text of a file: its heading, items, loops, then the data blocks, each exactly once. *)
Theorem C77_global_text : forall name items loops data ei el ed, match name with Some n => word n | None => True end ->
  Forall2 (fun s e => contents s = Some e) items ei -> Forall2 (fun s e => contents s = Some e) loops el -> Forall2 (fun s e => contents s = Some e) data ed ->
  exists es eb, Permutation (ei ++ el) es /\ Permutation ed eb /\ 
    contents (global_to_cif name items loops data) = Some (EGlobal (match name with Some n => n | None => [] end) :: List.concat es ++ List.concat eb).
Proof. exact global_contents. Qed.
Print Assumptions C77_global_text.
Example C77_case : word (tx "Fe3O4") /\ contents (tx "_a_b 1") = Some [EItem (tx "_a_b") (tx "1")] /\
  contents (tx ("loop_" ++ String newline "_c_d 1 2")) = Some [ELoop [] [tx "_c_d"] [[tx "1"]; [tx "2"]]] /\
  contents (data_to_cif (Some (tx "Fe3O4")) [tx "_a_b 1"] [tx ("loop_" ++ String newline "_c_d 1 2")]) =
    Some [EData (tx "Fe3O4"); EItem (tx "_a_b") (tx "1"); ELoop [] [tx "_c_d"] [[tx "1"]; [tx "2"]]].
Proof. split; [apply wordb_ok; reflexivity|]. repeat split; vm_compute; reflexivity. Qed.

(** * C78: the prefix of generic items and loops *)
(** Every name is the prefix found followed by the rest. *)
Theorem C78_prefix : forall l s, In s l -> find_prefix l ++ skipn (List.length (find_prefix l)) s = s.
Proof. exact prefix_rest. Qed.
Print Assumptions C78_prefix.
(** The common beginning is the longest one. *)
Theorem C78_common : forall l, (forall s, In s l -> begins (common_string l) s = true) /\ (l <> [] -> forall p, (forall s, In s l -> begins p s = true) -> begins p (common_string l) = true).
Proof. exact common_longest. Qed.
Print Assumptions C78_common.
(** The prefix ends in front of a separator in every name: the next character of each name is "." or "_", or the prefix is itself one of several names. *)
Theorem C78_separator : forall l s, In s l -> begins ["_"%char] s = true -> (forall s', In s' l -> begins ["_"%char] s' = true) ->
  (In (find_prefix l) l /\ (1 < List.length l)%nat) \/ (exists r, s = find_prefix l ++ "."%char :: r) \/ (exists r, s = find_prefix l ++ "_"%char :: r).
Proof. exact prefix_separator. Qed.
Print Assumptions C78_separator.
Example C78_case : find_prefix [tx "_atom_site_label"; tx "_atom_site_fract_x"] = tx "_atom_site" /\ find_prefix [tx "_a.b"; tx "_a.c"] = tx "_a" /\
  find_prefix [tx "_refln"; tx "_refln_h"] = tx "_refln".
Proof. vm_compute. repeat split. Qed.
