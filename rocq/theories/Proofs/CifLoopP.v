(** Lemmas: text of a loop, and its way back. *)
From Coq Require Import QArith List String Ascii Bool Arith Lia FinFun.
From Verif Require Import Spec.Objects Spec.ItemSpec Spec.StarSpec Spec.CifSpec Model.Strings Model.Numbers Model.Items Model.CifText Proofs.ItemsP Proofs.CifTextP Proofs.CifItemP Proofs.CifItem2P Proofs.CifValueP.
Import ListNotations.
Open Scope string_scope.
Open Scope list_scope.

(** * Writing *)
Lemma spaces_scans : forall n s l, scans_in s l -> scans (repeat c_space (S n) ++ s) l.
Proof. intros n s l H b r E. rewrite <- app_assoc, scan_spaces. now apply H. Qed.
Lemma rjust_scans_in : forall n s l, scans_in s l -> scans_in (rjust n s) l.
Proof. intros n s l H r E. unfold rjust. rewrite <- app_assoc, scan_spaces. replace (match (n - List.length s)%nat with O => false | _ => false end) with false by (destruct (n - List.length s)%nat; reflexivity). now apply H. Qed.
Lemma max_len_le : forall l s, In s l -> (List.length s <= max_len l)%nat.
Proof. intros l s. induction l as [|x l IH]; intros H; [easy|]. unfold max_len in *. cbn. destruct H as [->|H]; [lia|]. specialize (IH H). lia. Qed.
Lemma cell_scans_in : forall n t, cell_value t -> scans_in (cell_text n t) [TValue t].
Proof.
  intros n t H. unfold cell_value in H. unfold cell_text. destruct (has_space t || starts_with "_"%char t); apply rjust_scans_in.
  - apply scans_scans_in. now apply quoted_scans.
  - now apply bare_scans.
Qed.
Lemma cell_scans : forall n t, cell_value t -> (List.length t < n)%nat -> scans (cell_text n t) [TValue t].
Proof.
  intros n t H L. unfold cell_value in H. unfold cell_text. destruct (has_space t || starts_with "_"%char t).
  - intros b r E. unfold rjust. rewrite <- app_assoc, scan_spaces. now apply quoted_scans.
  - unfold rjust. replace (n - List.length t)%nat with (S (n - List.length t - 1))%nat by lia. apply spaces_scans. now apply bare_scans.
Qed.
(** A row of cells. *)
Lemma row_scans_in : forall l : list (nat * text), l <> [] -> Forall (fun p => cell_value (snd p)) l ->
  scans_in (join_words (map (fun p => cell_text (fst p) (snd p)) l)) (map (fun p => TValue (snd p)) l).
Proof.
  induction l as [|[n t] l IH]; intros NE F; [now destruct NE|]. inversion F as [|? ? H F']; subst. cbn [snd] in H. destruct l as [|p l].
  - cbn. now apply cell_scans_in.
  - intros r E. specialize (IH ltac:(discriminate) F'). remember (p :: l) as q eqn:Q. cbn [map]. 
    assert (J : join_words (cell_text n t :: map (fun p => cell_text (fst p) (snd p)) q) = cell_text n t ++ c_space :: join_words (map (fun p => cell_text (fst p) (snd p)) q)) by (rewrite Q; reflexivity).
    cbn [fst snd]. rewrite J, <- app_assoc. cbn [app]. rewrite cell_scans_in by (assumption || reflexivity). rewrite scan_space, IH by exact E.
    now rewrite <- app_tokens_app.
Qed.
Lemma row_scans : forall l : list (nat * text), l <> [] -> Forall (fun p => cell_value (snd p) /\ (List.length (snd p) < fst p)%nat) l ->
  scans (join_words (map (fun p => cell_text (fst p) (snd p)) l)) (map (fun p => TValue (snd p)) l).
Proof.
  intros [|[n t] l] NE F; [now destruct NE|]. inversion F as [|? ? [H L] F']; subst. cbn [fst snd] in H, L. destruct l as [|p l].
  - cbn. now apply cell_scans.
  - assert (R : scans_in (join_words (map (fun p => cell_text (fst p) (snd p)) (p :: l))) (map (fun p => TValue (snd p)) (p :: l))).
    { apply row_scans_in; [discriminate|]. eapply Forall_impl; [|exact F']. cbn. tauto. }
    remember (p :: l) as q eqn:Q. intros b r E. cbn [map fst snd].
    assert (J : join_words (cell_text n t :: map (fun p => cell_text (fst p) (snd p)) q) = cell_text n t ++ c_space :: join_words (map (fun p => cell_text (fst p) (snd p)) q)) by (rewrite Q; reflexivity).
    rewrite J, <- app_assoc. cbn [app]. rewrite cell_scans by (assumption || reflexivity). rewrite scan_space, R by exact E. now rewrite <- app_tokens_app.
Qed.
(** The columns put side by side. *)
Lemma add_column_map : forall (A : Type) (f : A -> list text) (g : A -> text) l, add_column (map f l) (map g l) = map (fun x => f x ++ [g x]) l.
Proof. induction l as [|x l IH]; [reflexivity|]. cbn. now rewrite IH. Qed.
Lemma add_columns_map : forall (A B : Type) (T : B -> A -> text) (items : list A) (cols : list B), cols <> [] ->
  add_columns (map (fun a => map (T a) items) cols) = map (fun d => map (fun a => T a d) cols) items.
Proof.
  intros A B T items [|a cols] NE; [now destruct NE|]. cbn [map add_columns]. rewrite map_map.
  assert (G : forall (cols : list B) (f : A -> list text), fold_left add_column (map (fun a => map (T a) items) cols) (map f items) = map (fun d => f d ++ map (fun a => T a d) cols) items).
  { clear. induction cols as [|a cols IH]; intros f; cbn; [apply map_ext; intros; now rewrite app_nil_r|]. rewrite add_column_map, IH. apply map_ext. intros d. rewrite <- app_assoc. reflexivity. }
  rewrite G. reflexivity.
Qed.
Lemma all_some_map : forall (A B : Type) (f : A -> option B) (g : A -> B) l, (forall x, In x l -> f x = Some (g x)) -> all_some (map f l) = Some (map g l).
Proof. intros A B f g. induction l as [|x l IH]; intros H; [reflexivity|]. cbn. rewrite (H x) by now left. rewrite IH; [reflexivity|]. intros; apply H; now right. Qed.
Lemma chunk_lines : forall ls l, Forall2 (fun s t => scans s t) ls l -> chunk ls (List.concat l).
Proof.
  intros ls l H. induction H as [|s t ls l S F IH]; [now left|]. cbn. apply (chunk_app [s] t ls); [|exact IH]. right. split; [discriminate|]. exact S.
Qed.
Lemma word_scans : forall x w, (forall b, blank x || Ascii.eqb x "#" || (Ascii.eqb x ";" && b) || is_quote x = false)%char -> word w -> scans (x :: w) [classify (x :: w)].
Proof.
  intros x w X W b r E. specialize (X b). apply orb_false_iff in X as [X X4]. apply orb_false_iff in X as [X X3]. apply orb_false_iff in X as [X1 X2]. cbn [app scan]. rewrite X1, X2, X3, X4. rewrite scan_bare by assumption. apply cons_token_app.
Qed.
Lemma head_scans : forall n, word n -> scans (kw_loop ++ n) [TLoop n].
Proof.
  intros n W. change [TLoop n] with [classify (kw_loop ++ n)]. apply word_scans; [intros []; reflexivity|].
  intros x [<-|[<-|[<-|[<-|X]]]]; try reflexivity. now apply W.
Qed.
Lemma word_full : forall c sep cif, cif_class_ok c -> word sep -> In cif (ATTR_CIF c) -> word (tx (PREFIX (BASE c)) ++ sep ++ tx cif).
Proof.
  intros c sep cif K W IN. apply word_app; [apply (ck_prefix c K)|]. apply word_app; [exact W|]. pose proof (ck_words c K) as F. rewrite Forall_forall in F. now apply F.
Qed.
Lemma loop_columns_in : forall c items a, In a (loop_columns c items) -> In a (columns_of c).
Proof. intros c [|d items] a H; [easy|]. cbn in H. now apply filter_In in H. Qed.

Lemma loop_text : forall c loop_name items sep, cif_class_ok c -> word sep -> items <> [] -> loop_columns c items <> [] ->
  match loop_name with Some n => word n | None => True end -> loop_writable c items ->
  exists s, loop_to_cif c loop_name items sep = Some s /\ contents s = Some (loop_contents c loop_name items sep).
Proof.
  intros c loop_name items sep K WS NE NC WN WR. unfold loop_to_cif. destruct items as [|d0 rest]; [now destruct NE|].
  set (items := d0 :: rest) in *. change (filter (fun a => has d0 (fst a)) (columns_of c)) with (loop_columns c items). set (cols := loop_columns c items) in *.
  set (P := tx (PREFIX (BASE c))).
  set (N := match loop_name with Some n => n | None => [] end).
  set (W := fun a : string * string => (max_len (map (fun d => as_text c d (fst a)) items) + 2)%nat).
  assert (AT : forall d a, In d items -> In a cols -> as_string c d (fst a) = Some (as_text c d (fst a)) /\ cell_value (as_text c d (fst a))).
  { intros d a D A. destruct (WR d a D A) as (t & T & B). unfold as_text. rewrite T. auto. }
  assert (CO : all_some (map (fun a => loop_column c items (fst a)) cols) = Some (map (fun a => map (fun d => cell_text (W a) (as_text c d (fst a))) items) cols)).
  { apply all_some_map. intros a A. unfold loop_column. rewrite (all_some_map _ _ _ (fun d => as_text c d (fst a))) by (intros d D; apply (AT d a D A)).
    cbn [option_map]. rewrite map_map. reflexivity. }
  rewrite CO. cbn [option_map]. eexists. split; [reflexivity|].
  rewrite (add_columns_map _ _ (fun a d => cell_text (W a) (as_text c d (fst a)))) by exact NC.
  apply chunk_contents.
  2:{ constructor; [|constructor]. cbn [entry_ok]. split; [|split].
      - fold cols. destruct cols; [now destruct NC|discriminate].
      - discriminate.
      - fold cols. apply Forall_forall. intros r R. apply in_map_iff in R as (d & <- & _). now rewrite !map_length. }
  unfold loop_contents. cbn [map List.concat entry_tokens]. rewrite app_nil_r. fold cols. fold N.
  replace (TLoop N :: map TName (map (fun a => key_of c sep (snd a)) cols) ++ map TValue (List.concat (map (fun d => map (fun a => as_text c d (fst a)) cols) items)))
    with (List.concat ([TLoop N] :: map (fun a => [TName (key_of c sep (snd a))]) cols ++ map (fun d => map (fun a => TValue (as_text c d (fst a))) cols) items)).
  2:{ cbn [List.concat app]. f_equal. rewrite concat_app. f_equal.
      - rewrite map_map. generalize cols. clear. intros l0; induction l0 as [|a l IH]; cbn; [reflexivity|]. f_equal. exact IH.
      - rewrite concat_map, map_map. f_equal. apply map_ext. intros d. now rewrite map_map. }
  apply chunk_lines. constructor; [|apply Forall2_app].
  - unfold head_line. apply head_scans. unfold N. destruct loop_name; [exact WN|]. intros x [].
  - assert (INC : forall a, In a cols -> In (snd a) (ATTR_CIF c)) by (intros a A; apply loop_columns_in, columns_in in A; apply A).
    revert INC. generalize cols. clear - K WS. intros l0. induction l0 as [|a l IH]; intros INC; cbn [map]; constructor; [|apply IH; intros; apply INC; now right].
    assert (IN : In (snd a) (ATTR_CIF c)) by (apply INC; now left).
    unfold loop_key. destruct (tx (snd a)) as [|x y] eqn:T.
    + exfalso. apply (ck_nonempty c K). rewrite <- (st_tx (snd a)), T in IN. exact IN.
    + rewrite <- T. unfold key_of. unfold full_name. apply name_scans. now apply word_full.
  - assert (SH : Forall2 (fun (s : text) t => scans s t) (map (fun d => join_words (map (fun a => cell_text (W a) (as_text c d (fst a))) cols)) items) (map (fun d => map (fun a => TValue (as_text c d (fst a))) cols) items)).
    { assert (ALL : forall d, In d items -> scans (join_words (map (fun a => cell_text (W a) (as_text c d (fst a))) cols)) (map (fun a => TValue (as_text c d (fst a))) cols)).
      { intros d D. pose proof (row_scans (map (fun a => (W a, as_text c d (fst a))) cols)) as R. rewrite !map_map in R. cbn [fst snd] in R. apply R.
        - destruct cols; [now destruct NC|discriminate].
        - apply Forall_forall. intros p Q. apply in_map_iff in Q as (a & <- & A). cbn [fst snd]. split; [apply (AT d a D A)|].
          unfold W. pose proof (max_len_le (map (fun d => as_text c d (fst a)) items) (as_text c d (fst a))) as L. specialize (L (in_map _ _ _ D)). lia. }
      revert ALL. generalize items. clear. intros l0. induction l0 as [|d l IH]; intros ALL; cbn [map]; constructor; [apply ALL; now left|apply IH; intros; apply ALL; now right]. }
    rewrite map_map. exact SH.
Qed.

(** * Reading *)
Lemma columns_rows : forall (A : Type) (key : A -> text) (T : A -> dict -> text) (items : list dict) (cols : list A),
  columns (map key cols) (map (fun d => map (fun a => T a d) cols) items) = map (fun a => (key a, map (T a) items)) cols.
Proof.
  intros A key T items cols. unfold columns. rewrite map_length.
  assert (C : forall j, column (map (fun d => map (fun a => T a d) cols) items) j = map (fun d => nth j (map (fun a => T a d) cols) []) items).
  { intros j. unfold column. now rewrite map_map. }
  rewrite (map_ext _ _ C). clear C.
  assert (G : forall (cols : list A) (F : dict -> nat -> text) (n : nat), (forall d j, F d (n + j)%nat = nth j (map (fun a => T a d) cols) []) ->
     combine (map key cols) (map (fun j => map (fun d => F d j) items) (seq n (List.length cols))) = map (fun a => (key a, map (T a) items)) cols).
  { clear. induction cols as [|a cols IH]; intros F n H; [reflexivity|]. cbn [map List.length seq combine]. f_equal.
    - f_equal. apply map_ext. intros d. specialize (H d 0%nat). rewrite Nat.add_0_r in H. exact H.
    - apply IH. intros d j. specialize (H d (S j)). rewrite Nat.add_succ_r in H. exact H. }
  apply (G cols (fun d j => nth j (map (fun a => T a d) cols) []) 0%nat). reflexivity.
Qed.
Lemma lower_lower : forall s, lower (lower s) = lower s.
Proof.
  intros s. unfold lower. rewrite map_map. apply map_ext. intros c. unfold lower_char. destruct (Nat.leb 65 (nat_of_ascii c) && Nat.leb (nat_of_ascii c) 90) eqn:E; [|now rewrite E].
  apply andb_prop in E as [E1 E2]. apply Nat.leb_le in E1, E2. rewrite nat_ascii_embedding by lia.
  replace (Nat.leb (nat_of_ascii c + 32) 90) with false by (symmetry; apply Nat.leb_gt; lia). now rewrite andb_false_r.
Qed.
Lemma index_of_nth : forall l i k, NoDup l -> nth_error l i = Some k -> index_of k l = Some i.
Proof.
  induction l as [|x l IH]; intros [|i] k N H; cbn in H; try discriminate; inversion N; subst; cbn.
  - injection H as ->. now rewrite String.eqb_refl.
  - destruct (String.eqb_spec k x) as [->|]; [exfalso; apply H2; eapply nth_error_In; exact H|]. now rewrite (IH i k).
Qed.
Lemma in_columns_nth : forall c a, cif_class_ok c -> In a (columns_of c) -> exists i, nth_error (ATTR_NAMES (BASE c)) i = Some (fst a) /\ nth_error (ATTR_CIF c) i = Some (snd a).
Proof.
  intros c a K IN. apply In_nth_error in IN as (i & H). exists i. rewrite <- (columns_fst c K) at 1. rewrite <- (columns_snd c K).
  rewrite !nth_error_map, H. cbn. auto.
Qed.
Lemma st_inj : forall a b, st a = st b -> a = b.
Proof. intros a b H. rewrite <- (tx_st a), <- (tx_st b). now rewrite H. Qed.
Lemma attr_of_column : forall c a, cif_class_ok c -> plain_names c -> In a (columns_of c) -> attr_of c (lower (tx (snd a))) = Some (fst a).
Proof.
  intros c a K PN IN. destruct (in_columns_nth c a K IN) as (i & H1 & H2). unfold attr_of. rewrite lower_lower.
  rewrite (index_of_nth _ i).
  - rewrite H1. rewrite (PN (fst a)) by (eapply nth_error_In; exact H1).
    replace (isin (fst a) (ATTR_NAMES (BASE c))) with true by (symmetry; apply isin_iff; eapply nth_error_In; exact H1). reflexivity.
  - pose proof (ck_cif c K) as N. rewrite <- (map_map (fun k => lower (tx k)) st). apply FinFun.Injective_map_NoDup; [|exact N]. intros x y. apply st_inj.
  - now rewrite nth_error_map, H2.
Qed.
Lemma skipn_app_len : forall (A : Type) (a b : list A), skipn (List.length a) (a ++ b) = b.
Proof. induction a; intros b; [reflexivity|]. cbn. apply IHa. Qed.
Lemma key_shape : forall c s cif, key_of c [s] cif = ("_"%char :: lower (tx (PREFIX (BASE c))) ++ [lower_char s]) ++ lower (tx cif).
Proof. intros. unfold key_of, full_name. cbn [app lower map]. f_equal. unfold lower. rewrite map_app. cbn [map app]. rewrite <- app_assoc. reflexivity. Qed.
Lemma key_short : forall c s cif, skipn (S (S (List.length (tx (PREFIX (BASE c)))))) (key_of c [s] cif) = lower (tx cif).
Proof.
  intros c s cif. rewrite key_shape.
  replace (S (S (List.length (tx (PREFIX (BASE c)))))) with (List.length ("_"%char :: lower (tx (PREFIX (BASE c))) ++ [lower_char s])).
  - apply skipn_app_len.
  - cbn [List.length]. rewrite app_length. unfold lower. rewrite map_length. cbn. lia.
Qed.
Lemma begins_app : forall a b, begins a (a ++ b) = true.
Proof. induction a as [|x a IH]; intros b; [reflexivity|]. cbn. now rewrite Ascii.eqb_refl, IH. Qed.
Lemma key_begins : forall c s cif, begins ("_"%char :: lower (tx (PREFIX (BASE c)))) (key_of c [s] cif) = true.
Proof.
  intros c s cif. rewrite key_shape. change (("_"%char :: lower (tx (PREFIX (BASE c))) ++ [lower_char s]) ++ lower (tx cif)) with ("_"%char :: (lower (tx (PREFIX (BASE c))) ++ [lower_char s]) ++ lower (tx cif)).
  rewrite <- app_assoc. change ("_"%char :: ?a ++ ?b) with (("_"%char :: a) ++ b). apply begins_app.
Qed.

(** The reading of one item: its row. *)
Definition row_step (c : cif_class) (T : string * string -> text) (o : option dict) (a : string * string) : option dict :=
  match o with None => None | Some b => assign_text (BASE c) b (fst a) (T a) end.
Lemma row_step_none : forall c T cols, fold_left (row_step c T) cols None = None.
Proof. induction cols; auto. Qed.
Lemma assign_column_ok : forall c name (items : list dict) (T : dict -> text) (L R : list dict), Forall2 (fun d p => assign_text c (fst p) name (T d) = Some (snd p)) items (combine L R) ->
  List.length L = List.length items -> List.length R = List.length items -> assign_column c L name (map T items) = Some R.
Proof.
  induction items as [|d items IH]; intros T [|l L] [|r R] F LL LR; cbn in *; try lia; [reflexivity|].
  inversion F; subst. cbn in H2. rewrite H2. rewrite (IH T L R) by (auto; lia). reflexivity.
Qed.
Lemma columns_fold : forall c (key : string * string -> text) (T : string * string -> dict -> text) (items : list dict) cols,
  (forall a, In a cols -> attr_of c (skipn (S (S (List.length (tx (PREFIX (BASE c)))))) (key a)) = Some (fst a)) ->
  forall L R, List.length L = List.length items -> List.length R = List.length items ->
  (forall i d l r, nth_error items i = Some d -> nth_error L i = Some l -> nth_error R i = Some r -> fold_left (row_step c (fun a => T a d)) cols (Some l) = Some r) ->
  fold_left (read_column c) (map (fun a => (key a, map (T a) items)) cols) (Some (Some L)) = Some (Some R).
Proof.
  intros c key T items. induction cols as [|a cols IH]; intros A L R LL LR H.
  - cbn. f_equal. f_equal. clear A. revert L R LL LR H. induction items as [|d items IH]; intros [|l L] [|r R] LL LR H; cbn in *; try lia; [reflexivity|].
    f_equal; [specialize (H 0%nat d l r eq_refl eq_refl eq_refl); cbn in H; congruence|]. apply IH; try lia. intros i. apply (H (S i)).
  - cbn [map fold_left]. unfold read_column at 2. cbn [fst snd]. rewrite (A a) by now left.
    assert (M : exists M, List.length M = List.length items /\ (forall i d l m, nth_error items i = Some d -> nth_error L i = Some l -> nth_error M i = Some m -> assign_text (BASE c) l (fst a) (T a d) = Some m) /\
       assign_column (BASE c) L (fst a) (map (T a) items) = Some M).
    { clear IH A. revert L R LL LR H. induction items as [|d items IH]; intros [|l L] [|r R] LL LR H; cbn in LL, LR; try lia.
      - exists []. repeat split. intros [|i]; discriminate.
      - pose proof (H 0%nat d l r eq_refl eq_refl eq_refl) as H0. cbn [fold_left row_step] in H0.
        destruct (assign_text (BASE c) l (fst a) (T a d)) as [m|] eqn:E; [|rewrite row_step_none in H0; discriminate].
        destruct (IH L R) as (M & LM & HM & AM); try lia. { intros i. apply (H (S i)). }
        exists (m :: M). split; [cbn; lia|]. split; [|cbn [map assign_column]; now rewrite E, AM].
        intros [|i] d' l' m' X Y Z; [cbn in *; congruence|]. exact (HM i d' l' m' X Y Z). }
    destruct M as (M & LM & HM & AM). rewrite AM. cbn [option_map]. apply IH; auto.
    + intros; apply A; now right.
    + intros i d m r X Y Z. assert (exists l, nth_error L i = Some l) as (l & EL).
      { destruct (nth_error L i) eqn:E; [eauto|]. apply nth_error_None in E. assert (i < List.length M)%nat by (apply nth_error_Some; congruence). lia. }
      pose proof (H i d l r X EL Z) as F. cbn [fold_left] in F. unfold row_step at 2 in F. rewrite (HM i d l m X EL Y) in F. exact F.
Qed.

Lemma loop_round_trip : forall c loop_name items s0 , cif_class_ok c -> plain_names c -> s0 = "_"%char \/ s0 = "."%char -> items <> [] -> loop_columns c items <> [] ->
  match loop_name with Some n => word n | None => True end -> loop_writable c items -> uniform c items -> loop_survives c items ->
  (forall d k, In d items -> In k (ATTR_NAMES (BASE c)) -> dget d k = None -> dget (INIT c) k = None) ->
  exists s items', loop_to_cif c loop_name items [s0] = Some s /\ loop_from_cif c s = Object (match loop_name with Some n => n | None => [] end, items') /\ Forall2 (same_data c) items items'.
Proof.
  intros c loop_name items s0 K PN SEP NE NC WN WR UN SV CU.
  assert (WS : word [s0]). { intros x [<-|[]]. destruct SEP as [-> | ->]; reflexivity. }
  destruct (loop_text c loop_name items [s0] K WS NE NC WN WR) as (s & TS & CS). exists s. unfold loop_from_cif. rewrite CS.
  set (cols := loop_columns c items) in *. set (N := match loop_name with Some n => n | None => [] end).
  set (T := fun (a : string * string) (d : dict) => as_text c d (fst a)). set (key := fun a : string * string => key_of c [s0] (snd a)).
  assert (INC : forall a, In a cols -> In a (columns_of c)) by (intros a; apply loop_columns_in).
  (* rows *)
  assert (ROW : forall d, In d items -> exists r, fold_left (row_step c (fun a => T a d)) cols (Some (INIT c)) = Some r /\ same_data c d r).
  { intros d D. 
    set (txt := fun k => if has d k then as_string c d k else None).
    assert (COLS : forall a, In a cols <-> In a (columns_of c) /\ has d (fst a) = true).
    { intros a. unfold cols, loop_columns. destruct items as [|d0 rest]; [easy|]. rewrite filter_In. split; intros [X Y]; (split; [exact X|]); [rewrite <- Y|rewrite <- Y]; apply UN; auto; try (now left); apply columns_in in X; apply X. }
    assert (RB : forall k t, In k (ATTR_NAMES (BASE c)) -> txt k = Some t -> exists v, dget d k = Some v /\ reads_back c d k v t).
    { intros k t IN E. unfold txt, has in E. destruct (dget d k) as [v|] eqn:DK; [|discriminate]. exists v. split; [reflexivity|]. exact (SV d k v D IN DK t E). }
    assert (NDF : NoDup (map fst cols)).
    { assert (G : forall l : list (string * string), NoDup (map fst l) -> forall f, NoDup (map fst (filter f l))).
      { clear. induction l as [|x l IH]; intros H f; [constructor|]. cbn in H. inversion H; subst. cbn. destruct (f x); [|now apply IH]. cbn. constructor; [|now apply IH].
        intro X. apply H2. apply in_map_iff in X as (y & E & Y). apply filter_In in Y as [Y _]. apply in_map_iff. eauto. }
      unfold cols, loop_columns. destruct items; [constructor|]. apply G. rewrite columns_fst by exact K. now apply names_nodup. }
    assert (INN : incl (map fst cols) (ATTR_NAMES (BASE c))).
    { intros x X. apply in_map_iff in X as (a & <- & A). apply INC, columns_in in A. apply A. }
    destruct (read_fold c K d txt (row_step c (fun a => T a d)) cols) with (a := INIT c) as (r & F & R & O); auto.
    - intros o a A. unfold row_step. destruct o as [b|]; [|reflexivity]. unfold txt. apply COLS in A as A'. destruct A' as [_ HA]. rewrite HA.
      destruct (WR d a D A) as (t & E & _). unfold T, as_text. now rewrite E.
    - exists r. split; [exact F|]. apply (fold_same_data c K d txt cols); auto.
      + intros k v IN DK. assert (HK : has d k = true) by (unfold has; now rewrite DK). rewrite <- (columns_fst c K) in IN. apply in_map_iff in IN as (a & E & A). subst k.
        assert (AC : In a cols) by (apply COLS; auto). destruct (WR d a D AC) as (t & E & _). exists t, a. unfold txt. rewrite HK. auto.
      + intros k IN DK. exact (CU d k D IN DK). }
  assert (RS : exists R, List.length R = List.length items /\ (forall i d r, nth_error items i = Some d -> nth_error R i = Some r -> fold_left (row_step c (fun a => T a d)) cols (Some (INIT c)) = Some r) /\ Forall2 (same_data c) items R).
  { revert ROW. generalize cols. clear. intros cols ROW. induction items as [|d l IH]; [exists []; split; [reflexivity|]; split; [intros [|i]; discriminate|constructor]|].
    destruct IH as (R & LR & HR & FR); [intros; apply ROW; now right|]. destruct (ROW d (or_introl eq_refl)) as (r & F & S). exists (r :: R). split; [cbn; lia|]. split.
    - intros [|i] d' r' X Y; [cbn in X, Y; injection X as <-; injection Y as <-; exact F|]. exact (HR i d' r' X Y).
    - now constructor. }
  destruct RS as (R & LR & HR & FR). exists R. split; [exact TS|]. split; [|exact FR].
  unfold loop_from_entries, loop_contents. cbn [find]. unfold is_my_loop. fold cols.
  replace (forallb _ (map (fun a => key_of c [s0] (snd a)) cols)) with true.
  2:{ symmetry. apply forallb_forall. intros x X. apply in_map_iff in X as (a & <- & _). apply key_begins. }
  fold N. change (map (fun d => map (fun a => as_text c d (fst a)) cols) items) with (map (fun d => map (fun a => T a d) cols) items).
  rewrite (columns_rows _ (fun a => key_of c [s0] (snd a)) T).
  assert (AO : forall a, In a cols -> attr_of c (skipn (S (S (List.length (tx (PREFIX (BASE c)))))) (key_of c [s0] (snd a))) = Some (fst a)).
  { intros a A. rewrite key_short. apply attr_of_column; auto. }
  assert (FO : fold_left (read_column c) (map (fun a => (key_of c [s0] (snd a), map (T a) items)) cols) (Some None) =
               fold_left (read_column c) (map (fun a => (key_of c [s0] (snd a), map (T a) items)) cols) (Some (Some (map (fun _ => INIT c) items)))).
  { destruct cols as [|a cs]; [now destruct NC|]. cbn [map fold_left]. f_equal. unfold read_column. cbn [fst snd]. rewrite (AO a) by now left. now rewrite map_map. }
  rewrite FO. rewrite (columns_fold c (fun a => key_of c [s0] (snd a)) T items cols AO (map (fun _ => INIT c) items) R); [reflexivity|apply map_length|exact LR|].
  intros i d l r X Y Z. rewrite nth_error_map, X in Y. cbn in Y. injection Y as <-. exact (HR i d r X Z).
Qed.
