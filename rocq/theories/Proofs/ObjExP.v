From Coq Require Import QArith List String Ascii Bool Arith Lia.
From Verif Require Import Spec.Objects Model.Items Spec.ItemSpec Model.Containers Spec.ContainerSpec Proofs.ItemsP Proofs.CellObjP Proofs.ContainersP Proofs.ContainersP2 Proofs.ContainersP3.
Import ListNotations.
Open Scope string_scope.
Open Scope list_scope.

(** The internal attributes reduced to one of them: the volume of a rectangular cell. *)
Definition vol3 (p : list (option value)) : option (list (string * value)) :=
  match p with
  | [Some (VNum a); Some (VNum b); Some (VNum c); _; _; _] => Some [("volume", VNum (a * b * c))]
  | _ => None
  end.
Lemma vol3_ok : internals_ok vol3.
Proof.
  intros p l H k v I. destruct p as [|[[| |u1| | |]|] p]; try discriminate. destruct p as [|[[| |u2| | |]|] p]; try discriminate. destruct p as [|[[| |u3| | |]|] p]; try discriminate.
  destruct p as [|q1 p]; try discriminate. destruct p as [|q2 p]; try discriminate. destruct p as [|q3 [|]]; try discriminate.
  injection H as <-. destruct I as [E|[]]. injection E as <- <-. cbn. tauto.
Qed.
Definition vcell := cell_class (cell_form vol3).
Definition vhist : list op := map (fun k => Assign k (VNum 2)) ["length_a"; "length_b"; "length_c"] ++ map (fun k => Assign k (VNum 90)) ["angle_alpha"; "angle_beta"; "angle_gamma"] ++
  map (fun k => Assign k (VNum 0)) (suffixed "_sigma" cell_names).
Lemma none_stale : exists h, fst (getattr vcell (run vcell [] h) "volume") <>
  (if is_defined vcell (run vcell [] h) then match FORM vcell (run vcell [] h) with Some d' => dget d' "volume" | None => None end else None).
Proof. exists (vhist ++ [Read "volume"; Assign "length_a" VNone]). vm_compute. discriminate. Qed.
Lemma nan_in : exists h v, dget (run extinction_class [] h) "radius" = Some v /\ v <> VNone /\ ~ exists x, number v = Some x /\ (0 <= x)%Q.
Proof. exists [Assign "radius" VNan], VNan. split; [reflexivity|]. split; [discriminate|]. intros (x & H & _). discriminate. Qed.
(** The type is set, then a length: the dependent length is the old one until an internal attribute is read. *)
Definition typed := vhist ++ [Assign "type_cell" (VStr "tP"); Assign "it_coordinate_system_code" (VStr "1"); Read "volume"; Assign "length_a" (VNum 5)].
Lemma typed_usual : usual_setting (run vcell [] typed).
Proof. split; intros; vm_compute in H; discriminate. Qed.
Lemma lazy_constraint : ~ obeys (run vcell [] typed) /\ obeys (run vcell [] (typed ++ [Read "volume"])).
Proof.
  split.
  - intros H. specialize (H "tP" "1" Tetragonal eq_refl eq_refl (cs_t "P" "1") (SameAs "length_b" "length_a") (or_introl eq_refl)). vm_compute in H. discriminate.
  - unfold run. rewrite fold_left_app. cbn [fold_left]. fold (run vcell [] typed). apply (form_obeys vol3 (run vcell [] typed)); [exact vol3_ok|exact typed_usual|]. vm_compute. reflexivity.
Qed.
(** Unique axis c; a primitive hexagonal lattice with another code than h. *)
Definition set_type (t i : string) := vhist ++ [Assign "type_cell" (VStr t); Assign "it_coordinate_system_code" (VStr i); Assign "angle_beta" (VNum 100); Assign "angle_gamma" (VNum 110); Read "volume"].
Lemma axis_refuted : cell_system "mP" "c1" MonoclinicC /\ ~ obeys (run vcell [] (set_type "mP" "c1")) /\ ~ flagged (run vcell [] (set_type "mP" "c1")) /\
  dget (run vcell [] (set_type "mP" "c1")) "angle_beta" = Some (VNum 100) /\ dget (run vcell [] (set_type "mP" "c1")) "angle_gamma" = Some (VNum 90).
Proof.
  split; [apply (cs_mc "P" "1")|]. split; [|split; [|split; vm_compute; reflexivity]].
  - intros H. specialize (H "mP" "c1" MonoclinicC eq_refl eq_refl (cs_mc "P" "1") (Equals "angle_beta" 90) ltac:(cbn; tauto)). vm_compute in H. discriminate.
  - intros H. destruct (H "mP" "c1" MonoclinicC eq_refl eq_refl (cs_mc "P" "1") "angle_beta" ltac:(cbn; tauto)) as [A _]. destruct (A ltac:(cbn; tauto)) as [B _]. vm_compute in B. discriminate.
Qed.
Lemma hexagonal_refuted : cell_system "hP" "1" HexagonalAxes /\ ~ obeys (run vcell [] (set_type "hP" "1")) /\ dget (run vcell [] (set_type "hP" "1")) "angle_gamma" = Some (VNum 90).
Proof.
  split; [constructor|]. split; [|vm_compute; reflexivity].
  intros H. specialize (H "hP" "1" HexagonalAxes eq_refl eq_refl (cs_hP "1") (Equals "angle_gamma" 120) ltac:(cbn; tauto)). vm_compute in H. discriminate.
Qed.
(** A length below zero. *)
Lemma negative_length : exists h x, dget (run vcell (cell_default (cell_form vol3)) h) "length_a" = Some (VNum x) /\ (x < 0)%Q.
Proof. exists [Assign "length_a" (VNum (-3))], (-3)%Q. split; reflexivity. Qed.

(* ---- names with upper-case letters ---- *)
Lemma sub_neq : forall s, lower s <> s -> sub_eqb (lower_sub (sub_of (Some s))) (sub_of (Some s)) = false.
Proof. intros s H. cbn. destruct (String.eqb_spec (lower s) s); [contradiction|reflexivity]. Qed.
Lemma upper_global : forall G s n c d a v, global_name G = Some s -> lower s <> s -> denotes G n c d a -> global_set G n v = Some G.
Proof.
  intros G s n c d a v E N H. destruct H as [G x n c d a I H]. destruct (node_head x n c d a H) as (t & r & ->). unfold global_set. rewrite E, (sub_neq s N), andb_false_r. reflexivity.
Qed.
Lemma upper_data : forall D s n c d a v, data_name D = Some s -> lower s <> s -> denotes_data D n c d a -> data_set D n v = Some D.
Proof.
  intros G s n c d a v E N H. destruct H as [G x n c d a I H]. destruct (leaf_head x n c d a H) as (t & r & ->). unfold data_set. rewrite E, (sub_neq s N), andb_false_r. reflexivity.
Qed.
Lemma upper_loop : forall l s n c d a v, loop_name l = Some s -> lower s <> s -> denotes_leaf (Loop l) n c d a -> loop_set l n v = Some l.
Proof.
  intros l s n c d a v E N H. inversion H; subst. unfold loop_set. rewrite E, (sub_neq s N), andb_false_r. reflexivity.
Qed.

(* ---- an example ---- *)
Definition phase1 : dict := [("label", VStr "p"); ("scale", VNum 1); ("igsize", VNum 0)] ++ dput (defaults phase_refs) "scale_refinement" (VBool true).
Definition phase2 : dict := [("label", VStr "q"); ("scale", VNum 3); ("igsize", VNum 2)] ++ dput (defaults phase_refs) "igsize_refinement" (VBool true).
Definition ext1 : dict := [("model", VStr "gauss"); ("mosaicity", VNum 10); ("radius", VNum 5)] ++ dput (defaults ["mosaicity"; "radius"]) "radius_refinement" (VBool true).
Definition ext2 : dict := [("model", VStr "gauss"); ("mosaicity", VNum 20); ("radius", VNum 7)] ++ dput (defaults ["mosaicity"; "radius"]) "radius_refinement" (VBool true).
Definition obj (nm : option string) : globaln := mkGlobal "rhochi" nm
  [Data (mkData "diffrn" (Some "up") [Item extinction_class ext1]);
   Data (mkData "diffrn" (Some "down") [Item extinction_class ext2]);
   Data (mkData "pd" (Some "pow") [Loop (mkLoop phase_class None [phase1; phase2])])].
Definition var (b s : string) : path := [("rhochi", SNone); ("diffrn", SStr b); ("extinction", SNone); (s, SNone)].
Lemma obj_ok : lower_global (obj None) /\ distinct (obj None) /\ plain_global (obj None).
Proof.
  split; [|split].
  - split; [exact Logic.I|]. intros x [<-|[<-|[<-|[]]]]; (split; [reflexivity|]); intros y [<-|[]]; cbn; exact Logic.I.
  - split.
    + cbn. repeat constructor; intros [H1 H2]; cbn in *; discriminate.
    + intros D [H|[H|[H|[]]]]; injection H as <-; unfold distinct_data; cbn; repeat constructor.
  - intros x [<-|[<-|[<-|[]]]] y [<-|[]] k K; cbn; tauto.
Qed.
Lemma obj_names : global_variable_names (obj None) = Some [var "up" "radius"; var "down" "radius";
  [("rhochi", SNone); ("pd", SStr "pow"); ("phase", SNone); ("scale", SInt 0)]; [("rhochi", SNone); ("pd", SStr "pow"); ("phase", SNone); ("igsize", SInt 1)]].
Proof. reflexivity. Qed.
Lemma radius_accepts : forall x, (0 <= x)%Q -> accepts extinction_class "radius" (VNum x) (VNum x).
Proof.
  intros x H. split; [reflexivity|]. split; [cbn; tauto|]. split; [reflexivity|]. split; [reflexivity|]. split; [discriminate|]. intros _. exists x. split; [reflexivity|]. split; [exact H|exact Logic.I].
Qed.
Lemma obj_writes : writes_ok (obj None) [(var "down" "radius", VNum 8); (var "up" "radius", VNum 9); (var "down" "radius", VNum 4)].
Proof.
  assert (U : denotes (obj None) (var "up" "radius") extinction_class ext1 "radius").
  { apply (DGlobal (obj None) (Data (mkData "diffrn" (Some "up") [Item extinction_class ext1]))); [cbn; tauto|]. constructor.
    apply (DData (mkData "diffrn" (Some "up") [Item extinction_class ext1]) (Item extinction_class ext1)); [cbn; tauto|]. apply (DItem extinction_class). }
  assert (D : denotes (obj None) (var "down" "radius") extinction_class ext2 "radius").
  { apply (DGlobal (obj None) (Data (mkData "diffrn" (Some "down") [Item extinction_class ext2]))); [cbn; tauto|]. constructor.
    apply (DData (mkData "diffrn" (Some "down") [Item extinction_class ext2]) (Item extinction_class ext2)); [cbn; tauto|]. apply (DItem extinction_class). }
  intros n v [E|[E|[E|[]]]]; injection E as <- <-; eexists extinction_class, _, "radius", _; (split; [eassumption|apply radius_accepts; discriminate]).
Qed.
(** A cell whose type is not given: form_object computes internal attributes only. *)
Definition plain_form (f : list (option value) -> option (list (string * value))) (d : dict) : option dict := option_map (put_all d) (f (six d)).
Lemma plain_form_eq : forall f d, dget d "type_cell" = None -> cell_form f d = plain_form f d.
Proof. intros f d H. unfold cell_form, cell_apply_constraints. rewrite H. reflexivity. Qed.
Lemma put_all_ext : forall l a b k, dget a k = dget b k -> dget (put_all a l) k = dget (put_all b l) k.
Proof.
  unfold put_all. induction l as [|[k0 v0] l IH]; intros a b k H; cbn; [exact H|]. apply IH. destruct (string_dec k k0) as [->|N]; [rewrite !dget_dput_same; reflexivity|rewrite !dget_dput_other by exact N; exact H].
Qed.
(** Every internal attribute is computed. *)
Definition computes_all (f : list (option value) -> option (list (string * value))) : Prop := forall p l k, f p = Some l -> In k cell_internal_names -> In k (map fst l).
Lemma put_all_same : forall l a b k, In k (map fst l) -> dget (put_all a l) k = dget (put_all b l) k.
Proof.
  unfold put_all. induction l as [|[k0 v0] l IH]; intros a b k H; [destruct H|]. cbn. destruct (in_dec string_dec k (map fst l)) as [I|I]; [apply IH; exact I|].
  destruct H as [<-|H]; [|contradiction]. apply put_all_ext. cbn. rewrite !dget_dput_same. reflexivity.
Qed.
Lemma cell_form_ok : forall f, internals_ok f -> computes_all f -> form_ok (cell_class (plain_form f)).
Proof.
  intros f F C. split.
  - intros a b k H K. cbn in H, K. unfold plain_form in H. destruct (f (six a)) as [l|] eqn:E; [|discriminate]. injection H as <-. apply put_all_other. intros v I. apply (cell_names_int k K). eapply F; eassumption.
  - intros a b k D K. cbn [FORM cell_class]. unfold plain_form. assert (S : six a = six b) by (unfold six; apply map_ext_in; exact D). rewrite S. destruct (f (six b)) as [l|] eqn:E; [|reflexivity]. cbn. f_equal. apply put_all_same. eapply C; eassumption.
  - intros k K. exact K.
  - intros k K N. cbn in K, N. repeat (destruct K as [<-|K]; [intuition discriminate|]). destruct K.
Qed.
Definition all_int (p : list (option value)) : option (list (string * value)) :=
  match vol3 p with Some l => Some (map (fun k => (k, VNum 0)) cell_internal_names ++ l) | None => None end.
Lemma all_int_ok : internals_ok all_int /\ computes_all all_int.
Proof.
  split.
  - intros p l H k v I. unfold all_int in H. destruct (vol3 p) as [l0|] eqn:E; [|discriminate]. assert (El : l = map (fun k => (k, VNum 0)) cell_internal_names ++ l0) by congruence. subst l. clear H. apply in_app_or in I as [I|I].
    + apply in_map_iff in I as (k' & E' & I). injection E' as <- <-. exact I.
    + eapply vol3_ok; eassumption.
  - intros p l k H K. unfold all_int in H. destruct (vol3 p) as [l0|]; [|discriminate]. assert (El : l = map (fun k => (k, VNum 0)) cell_internal_names ++ l0) by congruence. subst l. clear H. rewrite map_app, map_map. apply in_or_app. left. cbn [fst]. rewrite map_id. exact K.
Qed.
