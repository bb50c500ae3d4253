From Coq Require Import QArith List String Ascii Bool Arith Lia.
From Verif Require Import Spec.Objects Model.Items Spec.ItemSpec Proofs.ItemsP.
Import ListNotations.
Open Scope string_scope.
Open Scope list_scope.

Lemma put_all_other : forall l d k, (forall v, ~ In (k, v) l) -> dget (put_all d l) k = dget d k.
Proof.
  unfold put_all. induction l as [|[k0 v0] l IH]; intros d k H; cbn; [reflexivity|]. rewrite IH by (intros v I; apply (H v); right; exact I).
  apply dget_dput_other. intros ->. apply (H v0). left. reflexivity.
Qed.
Lemma unconstrain_other : forall d k, ~ In k (suffixed "_constraint" cell_names) -> dget (unconstrain d) k = dget d k.
Proof.
  intros d k H. unfold unconstrain, cell_names. cbn [fold_left]. cbn in H. rewrite !dget_dput_other; [reflexivity|..]; intros ->; apply H; cbn; tauto.
Qed.
Lemma cell_names_int : forall k, In k cell_names -> ~ In k cell_internal_names.
Proof. intros k H I. repeat (destruct H as [<-|H]; [cbn in I; intuition discriminate|]). destruct H. Qed.
(** One step of the constraints changes, among the six parameters, only its own. *)
Lemma one_data : forall d0 d r d' k, constrain_one d0 (Some d) r = Some d' -> In (fst r) cell_names -> In k cell_names ->
  dget d' k = if String.eqb k (fst r) then of_source d0 (snd r) else dget d k.
Proof.
  intros d0 d [p s] d' k H I K. cbn [constrain_one fst snd] in *. destruct (of_source d0 s) as [v|] eqn:E; [|discriminate]. destruct (sigma_source d0 s) as [w|]; [|discriminate].
  injection H as <-.
  assert (N : forall u, In u ["_sigma"; "_refinement"; "_constraint"] -> k <> (p ++ u)%string).
  { intros u Hu E'. subst k. clear - I K Hu. repeat (destruct I as [<-|I]; [repeat (destruct Hu as [<-|Hu]; [cbn in K; intuition discriminate|]); destruct Hu|]). destruct I. }
  rewrite (dget_dput_other _ _ _ _ (N "_constraint" ltac:(cbn; tauto))), (dget_dput_other _ _ _ _ (N "_refinement" ltac:(cbn; tauto))), (dget_dput_other _ _ _ _ (N "_sigma" ltac:(cbn; tauto))).
  destruct (String.eqb_spec k p) as [->|M]; [apply dget_dput_same|apply dget_dput_other; exact M].
Qed.
Lemma fold_none : forall d0 l, fold_left (constrain_one d0) l None = None.
Proof. induction l as [|r l IH]; cbn; [reflexivity|exact IH]. Qed.
Lemma rules_data : forall d0 l d d' k, Forall (fun r => In (fst r) cell_names) l -> NoDup (map fst l) -> fold_left (constrain_one d0) l (Some d) = Some d' -> In k cell_names ->
  (forall s, In (k, s) l -> dget d' k = of_source d0 s) /\ (~ In k (map fst l) -> dget d' k = dget d k).
Proof.
  intros d0 l. induction l as [|r l IH]; intros d d' k F N H K.
  - cbn in H. injection H as <-. split; [intros s []|reflexivity].
  - change (fold_left (constrain_one d0) l (constrain_one d0 (Some d) r) = Some d') in H. destruct (constrain_one d0 (Some d) r) as [d1|] eqn:E; [|rewrite fold_none in H; discriminate].
    inversion F as [|? ? Fr F']; subst. inversion N as [|? ? Nr N']; subst. destruct (IH d1 d' k F' N' H K) as [I1 I2]. pose proof (one_data d0 d r d1 k E Fr K) as O. split.
    + intros s [->|I]; [|apply I1; exact I]. cbn [fst snd] in *. rewrite I2 by exact Nr. rewrite O, String.eqb_refl. reflexivity.
    + intros M. cbn in M. rewrite I2 by tauto. rewrite O. destruct (String.eqb_spec k (fst r)) as [->|]; [tauto|reflexivity].
Qed.
Lemma rule_ok : forall t i, Forall (fun r => In (fst r) cell_names) (cell_rule t i) /\ NoDup (map fst (cell_rule t i)).
Proof.
  intros t i. unfold cell_rule.
  repeat match goal with |- context [if ?b then _ else _] => destruct b end; cbn [map fst]; (split; [repeat constructor; cbn; tauto|repeat (constructor; [cbn; intuition discriminate|]); constructor]).
Qed.
(** Sources of the angles: an angle, 90 or 120; sources of the lengths: a length. *)
Lemma rule_angle : forall t i k s, In (k, s) (cell_rule t i) -> In k angles -> match s with From k' => In k' angles | Fixed x => (0 <= x <= 180)%Q end.
Proof.
  intros t i k s H K. unfold cell_rule in H.
  repeat match goal with H : context [if ?b then _ else _] |- _ => destruct b end; cbn in H; repeat (destruct H as [H|H]; [injection H as <- <-; cbn in *; try tauto; try (intuition discriminate); split; discriminate|]); destruct H.
Qed.
Lemma constraints_data : forall d d' k, cell_apply_constraints d = Some d' -> In k cell_names ->
  dget d' k = dget d k \/ exists t i s, dget d "type_cell" = Some (VStr t) /\ dget d "it_coordinate_system_code" = Some (VStr i) /\ In (k, s) (cell_rule t i) /\ dget d' k = of_source d s.
Proof.
  intros d d' k H K. unfold cell_apply_constraints in H. destruct (dget d "type_cell") as [u|]; [|injection H as <-; left; reflexivity].
  destruct (dget d "it_coordinate_system_code") as [w|]; [|destruct u; injection H as <-; left; reflexivity]. destruct u as [| | | |t|]; try discriminate. destruct w as [| | | |i|]; try discriminate.
  destruct (rule_ok t i) as [R1 R2]. destruct (rules_data d (cell_rule t i) _ d' k R1 R2 H K) as [J1 J2].
  destruct (in_dec string_dec k (map fst (cell_rule t i))) as [I|I].
  - right. apply in_map_iff in I as ([k' s] & E & I). cbn in E. subst k'. exists t, i, s. split; [reflexivity|]. split; [reflexivity|]. split; [exact I|apply J1; exact I].
  - left. rewrite J2 by exact I. apply unconstrain_other. clear - K. intros I. repeat (destruct K as [<-|K]; [cbn in I; intuition discriminate|]). destruct K.
Qed.
Lemma form_data : forall f d d' k, internals_ok f -> cell_form f d = Some d' -> In k cell_names -> exists d1, cell_apply_constraints d = Some d1 /\ dget d' k = dget d1 k.
Proof.
  intros f d d' k F H K. unfold cell_form in H. destruct (cell_apply_constraints d) as [d1|]; [|discriminate]. destruct (f (six d1)) as [l|] eqn:E; [|discriminate]. injection H as <-.
  exists d1. split; [reflexivity|]. apply put_all_other. intros v I. apply (cell_names_int k K). eapply F; eassumption.
Qed.
Lemma angle_name : forall k, In k angles -> In k cell_names.
Proof. intros k H. repeat (destruct H as [<-|H]; [cbn; tauto|]). destruct H. Qed.
Lemma form_angles : forall f d d', internals_ok f -> cell_form f d = Some d' -> angles_ok d -> angles_ok d'.
Proof.
  intros f d d' F H A k v K G. destruct (form_data f d d' k F H (angle_name k K)) as (d1 & H1 & E). rewrite E in G.
  destruct (constraints_data d d1 k H1 (angle_name k K)) as [E1|(t & i & s & _ & _ & I & E1)].
  - rewrite E1 in G. eapply A; eassumption.
  - rewrite E1 in G. pose proof (rule_angle t i k s I K) as S. destruct s as [k'|x]; cbn in G.
    + eapply A; eassumption.
    + injection G as <-. right. right. exists x. split; [reflexivity|exact S].
Qed.
Lemma angles_limits : forall f d, angles_ok d <-> all_in_limits (cell_class f) d.
Proof.
  intros f d. split; intros H.
  - intros k v K L G. assert (J : In k angles).
    { unfold limited in L. cbn in K, L. repeat (destruct K as [<-|K]; [cbn in L; cbn; try tauto; intuition congruence|]). destruct K. }
    destruct (H k v J G) as [->|[->|(x & E & B)]]; [left; reflexivity|right; left; reflexivity|]. right. right. exists x. split; [exact E|].
    repeat (destruct J as [<-|J]; [cbn; split; apply B|]). destruct J.
  - intros k v K G. assert (L : limited (cell_class f) k) by (left; repeat (destruct K as [<-|K]; [cbn; discriminate|]); destruct K).
    destruct (H k v (angle_name k K) L G) as [->|[->|(x & E & B)]]; [left; reflexivity|right; left; reflexivity|]. right. right. exists x. split; [exact E|].
    repeat (destruct K as [<-|K]; [exact B|]). destruct K.
Qed.
Lemma cell_consistent : forall f, limits_consistent (cell_class f).
Proof.
  intros f k m M H1 H2. cbn in H1, H2.
  repeat match type of H1 with (if ?b then _ else _) = _ => destruct b; [injection H1 as <-|] end; try discriminate;
  repeat match type of H2 with (if ?b then _ else _) = _ => destruct b; [injection H2 as <-|] end; try discriminate; try (injection H2 as <-); try discriminate; apply Qle_bool_iff; reflexivity.
Qed.
Theorem cell_angles : forall f h, internals_ok f -> angles_ok (run (cell_class (cell_form f)) [] h).
Proof.
  intros f h F. apply (angles_limits (cell_form f)). apply limits_kept.
  - apply cell_consistent.
  - intros a b H A. apply angles_limits. exact (form_angles f a b F H (proj2 (angles_limits (cell_form f) a) A)).
  - intros k v _ _ G. discriminate.
Qed.
(** A negative length is stored. *)
Theorem cell_negative_length : forall f d x, setattr (cell_class f) d "length_a" (VNum x) = Some (dput (delete_internal_parameters (cell_class f) d) "length_a" (VNum x)).
Proof. intros. reflexivity. Qed.
Lemma rule_source : forall t i k k', In (k, From k') (cell_rule t i) -> In k' cell_names /\ ~ In k' (map fst (cell_rule t i)).
Proof.
  intros t i k k' H. unfold cell_rule in *.
  repeat match goal with H : context [if ?b then _ else _] |- _ => destruct b end; cbn in H; repeat (destruct H as [H|H]; [try discriminate; injection H as <- <-; cbn; intuition discriminate|]); destruct H.
Qed.
Lemma rule_name : forall t i k s, In (k, s) (cell_rule t i) -> In k cell_names.
Proof. intros t i k s H. destruct (rule_ok t i) as [R _]. rewrite Forall_forall in R. apply (R _ H). Qed.
Lemma one_other : forall d0 d r d' k, constrain_one d0 (Some d) r = Some d' -> In (fst r) cell_names -> In k ["type_cell"; "it_coordinate_system_code"] -> dget d' k = dget d k.
Proof.
  intros d0 d [p s] d' k H I K. cbn [constrain_one fst snd] in *. destruct (of_source d0 s) as [v|]; [|discriminate]. destruct (sigma_source d0 s) as [w|]; [|discriminate].
  injection H as <-. rewrite !dget_dput_other; [reflexivity|..]; intros ->; clear - I K; repeat (destruct I as [<-|I]; [cbn in K; intuition discriminate|]); destruct I.
Qed.
Lemma fold_other : forall d0 l d d' k, Forall (fun r => In (fst r) cell_names) l -> fold_left (constrain_one d0) l (Some d) = Some d' -> In k ["type_cell"; "it_coordinate_system_code"] -> dget d' k = dget d k.
Proof.
  intros d0 l. induction l as [|r l IH]; intros d d' k F H K.
  - cbn in H. injection H as <-. reflexivity.
  - change (fold_left (constrain_one d0) l (constrain_one d0 (Some d) r) = Some d') in H. destruct (constrain_one d0 (Some d) r) as [d1|] eqn:E; [|rewrite fold_none in H; discriminate].
    inversion F as [|? ? Fr F']; subst. rewrite (IH d1 d' k F' H K). eapply one_other; eassumption.
Qed.
Lemma form_other : forall f d d' k, internals_ok f -> cell_form f d = Some d' -> In k ["type_cell"; "it_coordinate_system_code"] -> dget d' k = dget d k.
Proof.
  intros f d d' k F H K. unfold cell_form in H. destruct (cell_apply_constraints d) as [d1|] eqn:E; [|discriminate]. destruct (f (six d1)) as [l|] eqn:El; [|discriminate]. injection H as <-.
  rewrite put_all_other.
  - unfold cell_apply_constraints in E. destruct (dget d "type_cell") as [u|] eqn:Eu; [|injection E as <-; reflexivity].
    destruct (dget d "it_coordinate_system_code") as [w|] eqn:Ew; [|destruct u; injection E as <-; reflexivity]. destruct u as [| | | |t|]; try discriminate. destruct w as [| | | |i|]; try discriminate.
    rewrite (fold_other d (cell_rule t i) _ d1 k (proj1 (rule_ok t i)) E K). apply unconstrain_other. clear - K. intros I. repeat (destruct K as [<-|K]; [cbn in I; intuition discriminate|]). destruct K.
  - intros v I. pose proof (F _ _ El _ _ I) as J. clear - K J. repeat (destruct K as [<-|K]; [cbn in J; intuition discriminate|]). destruct K.
Qed.
Definition follows_rule (d : dict) : Prop := forall t i k s, dget d "type_cell" = Some (VStr t) -> dget d "it_coordinate_system_code" = Some (VStr i) -> In (k, s) (cell_rule t i) -> dget d k = of_source d s.
Theorem form_follows : forall f d d', internals_ok f -> cell_form f d = Some d' -> follows_rule d'.
Proof.
  intros f d d' F H t i k s Ht Hi I. rewrite (form_other f d d' _ F H) in Ht by (cbn; tauto). rewrite (form_other f d d' _ F H) in Hi by (cbn; tauto).
  pose proof (rule_name t i k s I) as K. destruct (form_data f d d' k F H K) as (d1 & H1 & E). rewrite E.
  pose proof H1 as H1'. unfold cell_apply_constraints in H1. rewrite Ht, Hi in H1. destruct (rule_ok t i) as [R1 R2].
  destruct (rules_data d (cell_rule t i) _ d1 k R1 R2 H1 K) as [J1 _]. rewrite (J1 s I). destruct s as [k'|x]; [|reflexivity]. cbn.
  destruct (rule_source t i k k' I) as [K' N']. destruct (form_data f d d' k' F H K') as (d2 & H2 & E2). rewrite E2. rewrite H1' in H2. injection H2 as <-.
  destruct (rules_data d (cell_rule t i) _ d1 k' R1 R2 H1 K') as [_ J2]. rewrite (J2 N'). symmetry. apply unconstrain_other.
  clear - K'. intros I. repeat (destruct K' as [<-|K']; [cbn in I; intuition discriminate|]). destruct K'.
Qed.

(** The rule of the program is that of the crystal system. *)
Definition to_rule (r : restriction) : string * source := match r with SameAs k k' => (k, From k') | Equals k x => (k, Fixed x) end.
Lemma prefix_one : forall c r, String.prefix (String c "") (String c r) = true.
Proof. intros c r. cbn. destruct (ascii_dec c c); [destruct r; reflexivity|contradiction]. Qed.
Lemma rule_system : forall t i s, cell_system t i s -> (forall r, t = String "m"%char r -> exists j, i = String "b"%char j) -> (t = "hP" -> i = "h" \/ i = "H") ->
  cell_rule t i = map to_rule (restrictions s).
Proof.
  intros t i s H M P. destruct H as [i|r i|r i|r i|r i|r i|i|i H|i H|r i]; unfold cell_rule; try (destruct r; reflexivity).
  - reflexivity.
  - destruct (M r eq_refl) as [j E]. discriminate.
  - destruct (M r eq_refl) as [j E]. discriminate.
  - destruct (P eq_refl) as [-> | ->]; reflexivity.
  - destruct H as [-> | ->]; reflexivity.
  - destruct H as [-> | ->]; reflexivity.
Qed.
Theorem form_obeys : forall f d d', internals_ok f -> usual_setting d -> cell_form f d = Some d' -> obeys d'.
Proof.
  intros f d d' F [U1 U2] H t i s Ht Hi S r R. pose proof (form_follows f d d' F H) as O.
  pose proof Ht as Ht'. pose proof Hi as Hi'. rewrite (form_other f d d' _ F H) in Ht' by (cbn; tauto). rewrite (form_other f d d' _ F H) in Hi' by (cbn; tauto).
  assert (E : cell_rule t i = map to_rule (restrictions s)).
  { apply rule_system; [exact S| |]; [intros r0 ->; now apply (U1 r0)|intros ->; now apply U2]. }
  assert (I : In (to_rule r) (cell_rule t i)) by (rewrite E; now apply in_map). destruct r as [k k'|k x]; exact (O t i k _ Ht Hi I).
Qed.
(** Flags *)
Lemma cell_suffix_inj : forall k k' u u', In k cell_names -> In k' cell_names -> In u ["_sigma"; "_refinement"; "_constraint"; ""] -> In u' ["_sigma"; "_refinement"; "_constraint"; ""] ->
  (k ++ u)%string = (k' ++ u')%string -> k = k' /\ u = u'.
Proof.
  intros k k' u u' K K' U U' E. cbn in K, K', U, U'.
  repeat (destruct K as [<-|K]; [repeat (destruct U as [<-|U]; [repeat (destruct K' as [<-|K']; [repeat (destruct U' as [<-|U']; [first [split; reflexivity|discriminate E]|]); destruct U'|]); destruct K'|]); destruct U|]). destruct K.
Qed.
Lemma one_flags : forall d0 d r d' k, constrain_one d0 (Some d) r = Some d' -> In (fst r) cell_names -> In k cell_names ->
  dget d' (k ++ "_constraint") = (if String.eqb k (fst r) then Some (VBool true) else dget d (k ++ "_constraint")) /\
  dget d' (k ++ "_refinement") = (if String.eqb k (fst r) then Some (VBool false) else dget d (k ++ "_refinement")).
Proof.
  intros d0 d [p s] d' k H I K. cbn [constrain_one fst snd] in *. destruct (of_source d0 s) as [v|] eqn:E; [|discriminate]. destruct (sigma_source d0 s) as [w|]; [|discriminate].
  injection H as <-.
  assert (N : forall u u', In u ["_sigma"; "_refinement"; "_constraint"; ""] -> In u' ["_sigma"; "_refinement"; "_constraint"; ""] -> (k <> p \/ u <> u') -> (k ++ u)%string <> (p ++ u')%string).
  { intros u u' U U' D E'. destruct (cell_suffix_inj k p u u' K I U U' E') as [A B]. destruct D; contradiction. }
  assert (P0 : p = (p ++ "")%string) by (clear; induction p as [|a p IH]; cbn; congruence).
  destruct (String.eqb_spec k p) as [->|M].
  - split; [apply dget_dput_same|]. rewrite dget_dput_other by (apply N; [cbn; tauto|cbn; tauto|right; discriminate]). apply dget_dput_same.
  - split; rewrite !dget_dput_other; try reflexivity; try (apply N; [cbn; tauto|cbn; tauto|left; exact M]);
      (rewrite P0; apply N; [cbn; tauto|cbn; tauto|left; exact M]).
Qed.
Lemma rules_flags : forall d0 l d d' k, Forall (fun r => In (fst r) cell_names) l -> fold_left (constrain_one d0) l (Some d) = Some d' -> In k cell_names ->
  (In k (map fst l) -> dget d' (k ++ "_constraint") = Some (VBool true) /\ dget d' (k ++ "_refinement") = Some (VBool false)) /\
  (~ In k (map fst l) -> dget d' (k ++ "_constraint") = dget d (k ++ "_constraint") /\ dget d' (k ++ "_refinement") = dget d (k ++ "_refinement")).
Proof.
  intros d0 l. induction l as [|r l IH]; intros d d' k F H K.
  - cbn in H. injection H as <-. split; [intros []|auto].
  - change (fold_left (constrain_one d0) l (constrain_one d0 (Some d) r) = Some d') in H. destruct (constrain_one d0 (Some d) r) as [d1|] eqn:E; [|rewrite fold_none in H; discriminate].
    inversion F as [|? ? Fr F']; subst. destruct (IH d1 d' k F' H K) as [I1 I2]. destruct (one_flags d0 d r d1 k E Fr K) as [O1 O2]. split.
    + intros M. destruct (in_dec string_dec k (map fst l)) as [L|L]; [now apply I1|]. destruct M as [M|M]; [|contradiction]. destruct (I2 L) as [J1 J2]. rewrite J1, J2, O1, O2. subst k. now rewrite String.eqb_refl.
    + intros M. cbn in M. destruct (I2 ltac:(tauto)) as [J1 J2]. rewrite J1, J2, O1, O2. destruct (String.eqb_spec k (fst r)) as [->|]; [tauto|auto].
Qed.
Lemma unconstrain_flag : forall d k, In k cell_names -> dget (unconstrain d) (k ++ "_constraint") = Some (VBool false).
Proof.
  intros d k K. unfold unconstrain, cell_names. cbn [fold_left]. cbn in K.
  repeat (destruct K as [<-|K]; [repeat (rewrite dget_dput_other by discriminate); apply dget_dput_same|]). destruct K.
Qed.
Lemma flag_not_internal : forall k u, In k cell_names -> In u ["_refinement"; "_constraint"] -> ~ In (k ++ u)%string cell_internal_names.
Proof.
  intros k u K U I. cbn in K, U. repeat (destruct K as [<-|K]; [repeat (destruct U as [<-|U]; [cbn in I; intuition discriminate|]); destruct U|]). destruct K.
Qed.
Theorem form_flags : forall f d d', internals_ok f -> usual_setting d -> cell_form f d = Some d' -> flagged d'.
Proof.
  intros f d d' F [U1 U2] H t i s Ht Hi S k K. rewrite (form_other f d d' _ F H) in Ht by (cbn; tauto). rewrite (form_other f d d' _ F H) in Hi by (cbn; tauto).
  assert (E : cell_rule t i = map to_rule (restrictions s)).
  { apply rule_system; [exact S| |]; [intros r0 ->; now apply (U1 r0)|intros ->; now apply U2]. }
  assert (EM : map fst (cell_rule t i) = map restricted (restrictions s)) by (rewrite E, map_map; apply map_ext; intros []; reflexivity).
  unfold cell_form in H. destruct (cell_apply_constraints d) as [d1|] eqn:C; [|discriminate]. destruct (f (six d1)) as [l|] eqn:El; [|discriminate]. injection H as <-.
  assert (PO : forall u, In u ["_refinement"; "_constraint"] -> dget (put_all d1 l) (k ++ u) = dget d1 (k ++ u)).
  { intros u U. apply put_all_other. intros v I. apply (flag_not_internal k u K U). eapply F; eassumption. }
  rewrite !PO by (cbn; tauto). unfold cell_apply_constraints in C. rewrite Ht, Hi in C.
  destruct (rules_flags d (cell_rule t i) _ d1 k (proj1 (rule_ok t i)) C K) as [J1 J2]. rewrite EM in J1, J2. split; [exact J1|]. intros N. rewrite (proj1 (J2 N)). now apply unconstrain_flag.
Qed.
