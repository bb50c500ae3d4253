(** Lemmas: the text of a data block and of a global file; prefixes of names. *)
From Coq Require Import NArith QArith List String Ascii Bool Arith Lia Permutation.
From Verif Require Import Spec.Objects Spec.StarSpec Spec.CifSpec Model.Strings Model.Numbers Model.Items Model.CifText Proofs.CifTextP Proofs.CifLoopP.
Import ListNotations.
Open Scope list_scope.

(** * Putting texts one after another, in lines *)
Lemma scan_then_newline : forall s st l r, scan st s = Some l -> scan st (s ++ newline :: r) = app_tokens l (scan (Between true) r).
Proof.
  induction s as [|x s IH]; intros st l r H.
  - cbn [app]. destruct st as [b| |acc|q acc|b acc]; cbn [scan] in H; try discriminate; injection H as <-.
    + rewrite scan_newline. now rewrite app_tokens_nil.
    + cbn [scan]. replace (is_newline newline) with true by reflexivity. now rewrite app_tokens_nil.
    + cbn [scan]. replace (blank newline) with true by reflexivity. apply cons_token_app.
  - cbn [app]. 
    assert (CT : forall t o l, cons_token t o = Some l -> exists l', o = Some l' /\ l = t :: l') by (intros t [o|] l0 E; cbn in E; [injection E as <-; eauto|discriminate]).
    assert (CA : forall t l o, app_tokens (t :: l) o = cons_token t (app_tokens l o)) by (intros t l0 [o|]; reflexivity).
    destruct st as [b| |acc|q acc|b acc]; cbn [scan] in H |- *.
    + destruct (blank x); [now apply IH|]. destruct (Ascii.eqb x "#"); [now apply IH|]. destruct (Ascii.eqb x ";" && b); [now apply IH|]. destruct (is_quote x); now apply IH.
    + destruct (is_newline x); now apply IH.
    + destruct (blank x); [|now apply IH]. apply CT in H as (l' & H & ->). rewrite (IH _ _ _ H). now rewrite CA.
    + destruct (is_newline x); [discriminate|].
      assert (E : (match s ++ newline :: r with [] => true | c' :: _ => blank c' end) = (match s with [] => true | c' :: _ => blank c' end)) by (destruct s; reflexivity).
      rewrite E. destruct (Ascii.eqb x q && _); [|now apply IH]. apply CT in H as (l' & H & ->). rewrite (IH _ _ _ H). now rewrite CA.
    + destruct (Ascii.eqb x ";" && b); [|now apply IH]. apply CT in H as (l' & H & ->). rewrite (IH _ _ _ H). now rewrite CA.
Qed.
(** * Contents determine the tokens *)
Lemma take_names_eq : forall l a b, take_names l = (a, b) -> l = map TName a ++ b.
Proof.
  induction l as [|t l IH]; intros a b H; cbn in H; [injection H as <- <-; reflexivity|].
  destruct t; try (injection H as <- <-; reflexivity). destruct (take_names l) as [a' b'] eqn:E. injection H as <- <-. cbn. f_equal. now apply IH.
Qed.
Lemma take_values_eq : forall l a b, take_values l = (a, b) -> l = map TValue a ++ b.
Proof.
  induction l as [|t l IH]; intros a b H; cbn in H; [injection H as <- <-; reflexivity|].
  destruct t; try (injection H as <- <-; reflexivity). destruct (take_values l) as [a' b'] eqn:E. injection H as <- <-. cbn. f_equal. now apply IH.
Qed.
Lemma rows_of_eq : forall f n l rows, rows_of f n l = Some rows -> List.concat rows = l /\ Forall (fun r => List.length r = n) rows.
Proof.
  induction f as [|f IH]; intros n [|x l] rows H; cbn [rows_of] in H; try discriminate; try (injection H as <-; split; [reflexivity|constructor]).
  set (v := x :: l) in *. destruct (Nat.leb n (List.length v)) eqn:E; [|discriminate]. apply Nat.leb_le in E.
  destruct (rows_of f n (skipn n v)) as [rows'|] eqn:R; [|discriminate]. injection H as <-. apply IH in R as [C F]. split.
  - cbn [List.concat]. rewrite C. apply firstn_skipn.
  - constructor; [|exact F]. rewrite firstn_length. lia.
Qed.
Lemma contents_inv : forall f l es, contents_fuel f l = Some es -> l = List.concat (map entry_tokens es) /\ Forall entry_ok es.
Proof.
  assert (OM : forall (e : entry) o es, option_map (cons e) o = Some es -> exists es', o = Some es' /\ es = e :: es') by (intros e [o|] es E; cbn in E; [injection E as <-; eauto|discriminate]).
  induction f as [|f IH]; intros l es H.
  - destruct l; [|discriminate]. injection H as <-. split; [reflexivity|constructor].
  - destruct l as [|t l]; [injection H as <-; split; [reflexivity|constructor]|]. cbn [contents_fuel] in H. destruct t as [n|n|n|n|n|n]; try discriminate.
    + apply OM in H as (es' & H & ->). apply IH in H as [-> F]. split; [reflexivity|constructor; [exact Logic.I|exact F]].
    + apply OM in H as (es' & H & ->). apply IH in H as [-> F]. split; [reflexivity|constructor; [exact Logic.I|exact F]].
    + destruct (take_names l) as [names r1] eqn:TN. destruct (take_values r1) as [vals r2] eqn:TV. destruct names as [|nm names]; [discriminate|]. destruct vals as [|v vals]; [discriminate|].
      set (nn := nm :: names) in *. set (vv := v :: vals) in *.
      destruct (rows_of (List.length vv) (List.length nn) vv) as [rows|] eqn:R; [|discriminate]. apply OM in H as (es' & H & ->). apply IH in H as [-> F].
      apply take_names_eq in TN. apply take_values_eq in TV. apply rows_of_eq in R as [C FR]. split.
      * cbn [map List.concat entry_tokens]. rewrite TN, TV, C. cbn [app]. now rewrite <- app_assoc.
      * constructor; [|exact F]. cbn [entry_ok]. split; [discriminate|]. split; [|exact FR]. intros ->. discriminate.
    + destruct l as [|[| | | | |v] l]; try discriminate. apply OM in H as (es' & H & ->). apply IH in H as [-> F]. split; [reflexivity|constructor; [exact Logic.I|exact F]].
Qed.
(** Two texts, the second beginning a new line, are read one after the other. *)
Lemma contents_lines : forall a b ea eb, contents a = Some ea -> contents b = Some eb -> contents (a ++ newline :: b) = Some (ea ++ eb).
Proof.
  intros a b ea eb A B. unfold contents in *. destruct (tokens a) as [ta|] eqn:TA; [|discriminate]. destruct (tokens b) as [tb|] eqn:TB; [|discriminate].
  apply contents_inv in A as [-> FA]. apply contents_inv in B as [-> FB]. unfold tokens in *. rewrite (scan_then_newline _ _ _ _ TA). rewrite TB. cbn [app_tokens option_map].
  rewrite <- concat_app, <- map_app. apply contents_tokens; [now apply Forall_app|apply entry_tokens_length].
Qed.
Lemma contents_end_line : forall a ea, contents a = Some ea -> contents (a ++ [newline]) = Some ea.
Proof. intros a ea A. rewrite (contents_lines a [] ea [] A eq_refl). now rewrite app_nil_r. Qed.
Lemma contents_join : forall ls es, Forall2 (fun s e => contents s = Some e) ls es -> contents (join_lines ls) = Some (List.concat es).
Proof.
  intros ls es H. induction H as [|s e ls es S F IH]; [reflexivity|]. destruct ls as [|s' ls].
  - inversion F; subst. cbn. now rewrite app_nil_r.
  - change (join_lines (s :: s' :: ls)) with (s ++ newline :: join_lines (s' :: ls)). cbn [List.concat]. now apply contents_lines.
Qed.
Lemma heading : forall kw n t, kw = kw_data /\ t = EData n \/ kw = kw_global /\ t = EGlobal n -> word n -> contents (kw ++ n ++ [newline]) = Some [t].
Proof.
  intros kw n t H W. rewrite app_assoc. apply contents_end_line.
  assert (S : scans (kw ++ n) [classify (kw ++ n)]).
  { destruct H as [[-> _]|[-> _]]; (apply word_scans; [intros []; reflexivity|]).
    - intros x [<-|[<-|[<-|[<-|X]]]]; try reflexivity. now apply W.
    - intros x [<-|[<-|[<-|[<-|[<-|[<-|X]]]]]]; try reflexivity. now apply W. }
  change (kw ++ n) with (join_lines [kw ++ n]) . apply chunk_contents; [|constructor; [destruct H as [[_ ->]|[_ ->]]; exact Logic.I|constructor]].
  right. split; [discriminate|]. cbn [join_lines map List.concat]. rewrite app_nil_r.
  replace (entry_tokens t) with [classify (kw ++ n)]; [exact S|]. destruct H as [[-> ->]|[-> ->]]; reflexivity.
Qed.
Lemma Forall2_filter : forall (A B : Type) (R : A -> B -> Prop) (f : A -> bool) l m, Forall2 R l m ->
  exists m', Forall2 R (filter f l) m' /\ exists m'', Forall2 R (filter (fun x => negb (f x)) l) m'' /\ Permutation m (m' ++ m'').
Proof.
  intros A B R f l m H. induction H as [|x y l m XY F (m' & F' & m'' & F'' & P)]; [exists []; split; [constructor|exists []; split; [constructor|constructor]]|].
  cbn. destruct (f x); cbn.
  - exists (y :: m'). split; [now constructor|]. exists m''. split; [exact F''|]. now constructor.
  - exists m'. split; [exact F'|]. exists (y :: m''). split; [now constructor|]. now apply Permutation_cons_app.
Qed.
Lemma ordered_contents : forall items loops ei el, Forall2 (fun s e => contents s = Some e) items ei -> Forall2 (fun s e => contents s = Some e) loops el ->
  exists es, Forall2 (fun s e => contents s = Some e) (ordered_texts items loops) es /\ Permutation (ei ++ el) es.
Proof.
  intros items loops ei el FI FL. unfold ordered_texts.
  assert (NL : forall l e, Forall2 (fun s e => contents s = Some e) l e -> Forall2 (fun s e => contents s = Some e) (map (fun s => s ++ [newline]) l) e).
  { intros l e H. induction H; cbn; constructor; auto. now apply contents_end_line. }
  set (n := match map (fun s => s ++ [newline]) loops with [] => _ | _ => _ end).
  destruct (Forall2_filter _ _ _ (fun s => N.leb (N.of_nat (List.length s)) n) _ _ (NL _ _ FI)) as (m' & F' & m'' & F'' & P).
  exists (m' ++ el ++ m''). split.
  - apply Forall2_app; [exact F'|]. apply Forall2_app; [now apply NL|exact F''].
  - rewrite P. rewrite <- app_assoc. apply Permutation_app_head. apply Permutation_app_comm.
Qed.
Lemma concat_permutation : forall (A : Type) (l m : list (list A)), Permutation l m -> Permutation (List.concat l) (List.concat m).
Proof.
  intros A l m H. induction H; cbn; auto.
  - now apply Permutation_app_head.
  - rewrite !app_assoc. apply Permutation_app_tail, Permutation_app_comm.
  - now transitivity (List.concat l').
Qed.
Lemma data_contents : forall name items loops ei el, match name with Some n => word n | None => True end ->
  Forall2 (fun s e => contents s = Some e) items ei -> Forall2 (fun s e => contents s = Some e) loops el ->
  exists es, Permutation (ei ++ el) es /\ contents (data_to_cif name items loops) = Some (EData (match name with Some n => n | None => [] end) :: List.concat es).
Proof.
  intros name items loops ei el W FI FL. destruct (ordered_contents items loops ei el FI FL) as (es & F & P). exists es. split; [exact P|].
  unfold data_to_cif. set (n := match name with Some n => n | None => [] end).
  rewrite (contents_join _ ([EData n] :: es)); [reflexivity|]. constructor; [|exact F]. apply heading; [now left|]. unfold n. destruct name; [exact W|intros x []].
Qed.
Lemma insert_len_perm : forall s l, Permutation (s :: l) (insert_len s l).
Proof.
  intros s l. induction l as [|x l IH]; [reflexivity|]. cbn. destruct (Nat.leb _ _); [|reflexivity]. rewrite perm_swap. now constructor.
Qed.
Lemma sort_len_perm : forall l, Permutation l (sort_len l).
Proof.
  intros l. unfold sort_len. assert (G : forall l acc, Permutation (l ++ acc) (fold_left (fun acc s => insert_len s acc) l acc)).
  { clear. induction l as [|s l IH]; intros acc; [reflexivity|]. cbn. rewrite <- IH. rewrite <- insert_len_perm. now rewrite Permutation_middle. }
  specialize (G l []). now rewrite app_nil_r in G.
Qed.
Lemma Forall2_perm : forall (A B : Type) (R : A -> B -> Prop) l l' m, Permutation l l' -> Forall2 R l m -> exists m', Permutation m m' /\ Forall2 R l' m'.
Proof.
  intros A B R l l' m P. revert m. induction P as [|x l l' P IH|x y l|l l' l'' P IH P' IH']; intros m F.
  - inversion F; subst. exists []. split; constructor.
  - inversion F as [|? y ? m0 XY F0]; subst. destruct (IH m0 F0) as (m' & Q & G). exists (y :: m'). split; now constructor.
  - inversion F as [|? a ? m0 XY F0]; subst. inversion F0 as [|? b ? m1 XY' F1]; subst. exists (b :: a :: m1). split; [constructor|]. now repeat constructor.
  - destruct (IH m F) as (m1 & Q1 & F1). destruct (IH' m1 F1) as (m2 & Q2 & F2). exists m2. split; [now transitivity m1|exact F2].
Qed.
Lemma global_contents : forall name items loops data ei el ed, match name with Some n => word n | None => True end ->
  Forall2 (fun s e => contents s = Some e) items ei -> Forall2 (fun s e => contents s = Some e) loops el -> Forall2 (fun s e => contents s = Some e) data ed ->
  exists es eb, Permutation (ei ++ el) es /\ Permutation ed eb /\ 
    contents (global_to_cif name items loops data) = Some (EGlobal (match name with Some n => n | None => [] end) :: List.concat es ++ List.concat eb).
Proof.
  intros name items loops data ei el ed W FI FL FD. destruct (ordered_contents items loops ei el FI FL) as (es & F & P).
  assert (FN : Forall2 (fun s e => contents s = Some e) (map (fun s => s ++ [newline]) data) ed).
  { clear - FD. induction FD; cbn; constructor; auto. now apply contents_end_line. }
  destruct (Forall2_perm _ _ _ _ _ _ (sort_len_perm (map (fun s => s ++ [newline]) data)) FN) as (eb & PB & FB).
  exists es, eb. split; [exact P|]. split; [exact PB|]. unfold global_to_cif. set (n := match name with Some n => n | None => [] end).
  rewrite (contents_join _ ([EGlobal n] :: es ++ eb)); [cbn [List.concat]; now rewrite concat_app|]. constructor; [|now apply Forall2_app].
  apply heading; [now right|]. unfold n. destruct name; [exact W|intros x []].
Qed.
(** Data blocks are written in the order of their lengths. *)
Fixpoint sorted_len (l : list text) : Prop := match l with a :: ((b :: _) as r) => (List.length a <= List.length b)%nat /\ sorted_len r | _ => True end.
Lemma insert_len_sorted : forall s l, sorted_len l -> sorted_len (insert_len s l).
Proof.
  intros s l. induction l as [|x l IH]; intros H; [exact Logic.I|]. cbn [insert_len]. destruct (Nat.leb _ _) eqn:E.
  - apply Nat.leb_le in E. destruct l as [|y l]; [cbn; auto|]. cbn [insert_len] in IH |- *. destruct H as [H1 H2]. specialize (IH H2). destruct (Nat.leb (List.length y) _) eqn:E2; cbn [sorted_len] in *; auto.
  - apply Nat.leb_gt in E. cbn [sorted_len]. split; [lia|exact H].
Qed.

(** * Prefixes *)
Lemma common2_begins : forall a b, begins (common2 a b) a = true /\ begins (common2 a b) b = true.
Proof.
  induction a as [|x a IH]; intros [|y b]; cbn; auto. destruct (Ascii.eqb_spec x y) as [->|]; cbn; auto. rewrite !Ascii.eqb_refl. apply IH.
Qed.
Lemma begins_trans : forall a b c, begins a b = true -> begins b c = true -> begins a c = true.
Proof.
  induction a as [|x a IH]; intros [|y b] [|z c]; cbn; auto; try discriminate. intros H1 H2. apply andb_prop in H1 as [H1 H1']. apply andb_prop in H2 as [H2 H2'].
  apply Ascii.eqb_eq in H1, H2. subst. rewrite Ascii.eqb_refl. cbn. eauto.
Qed.
Lemma begins_refl : forall a, begins a a = true.
Proof. induction a; cbn; auto. now rewrite Ascii.eqb_refl. Qed.
Lemma common2_most : forall p a b, begins p a = true -> begins p b = true -> begins p (common2 a b) = true.
Proof.
  induction p as [|x p IH]; intros [|y a] [|z b]; cbn; auto; try discriminate. intros H1 H2. apply andb_prop in H1 as [H1 H1']. apply andb_prop in H2 as [H2 H2'].
  apply Ascii.eqb_eq in H1, H2. subst. rewrite Ascii.eqb_refl. cbn. rewrite Ascii.eqb_refl. cbn. auto.
Qed.
Lemma fold_common_begins : forall r x, begins (fold_left common2 r x) x = true /\ (forall s, In s r -> begins (fold_left common2 r x) s = true).
Proof.
  induction r as [|y r IH]; intros x; cbn; [split; [apply begins_refl|easy]|]. destruct (IH (common2 x y)) as [H1 H2]. destruct (common2_begins x y) as [C1 C2].
  split; [now apply begins_trans with (common2 x y)|]. intros s [<-|S]; [now apply begins_trans with (common2 x y)|now apply H2].
Qed.
Lemma fold_common_most : forall r x p, begins p x = true -> (forall s, In s r -> begins p s = true) -> begins p (fold_left common2 r x) = true.
Proof. induction r as [|y r IH]; intros x p X H; cbn; [exact X|]. apply IH; [apply common2_most; auto; apply H; now left|intros; apply H; now right]. Qed.
Lemma common_string_begins : forall l s, In s l -> begins (common_string l) s = true.
Proof. intros [|x r] s H; [easy|]. cbn. destruct (fold_common_begins r x) as [A B]. destruct H as [<-|H]; auto. Qed.
Lemma common_string_most : forall l p, l <> [] -> (forall s, In s l -> begins p s = true) -> begins p (common_string l) = true.
Proof. intros [|x r] p NE H; [now destruct NE|]. cbn. apply fold_common_most; [apply H; now left|intros; apply H; now right]. Qed.
Lemma firstn_begins : forall n a, begins (firstn n a) a = true.
Proof. induction n as [|n IH]; intros [|x a]; cbn; auto. now rewrite Ascii.eqb_refl, IH. Qed.
Lemma removelast_begins : forall a, begins (removelast a) a = true.
Proof. induction a as [|x a IH]; [reflexivity|]. cbn [removelast]. destruct a as [|y a]; [reflexivity|]. cbn [begins]. now rewrite Ascii.eqb_refl, IH. Qed.
Lemma find_prefix_begins : forall l s, In s l -> begins (find_prefix l) s = true.
Proof.
  intros l s H. apply begins_trans with (common_string l); [|now apply common_string_begins]. unfold find_prefix. destruct (rfind c_dot (common_string l)); [apply firstn_begins|].
  destruct (_ && _); [apply begins_refl|]. unfold upto. destruct (rfind _ _); [apply firstn_begins|apply removelast_begins].
Qed.
Lemma begins_skip : forall p s, begins p s = true -> p ++ skipn (List.length p) s = s.
Proof. induction p as [|x p IH]; intros [|y s]; cbn; auto; try discriminate. intros H. apply andb_prop in H as [H H']. apply Ascii.eqb_eq in H. subst. f_equal. auto. Qed.
Lemma prefix_rest : forall l s, In s l -> find_prefix l ++ skipn (List.length (find_prefix l)) s = s.
Proof. intros l s H. apply begins_skip. now apply find_prefix_begins. Qed.
Lemma common_longest : forall l, (forall s, In s l -> begins (common_string l) s = true) /\ (l <> [] -> forall p, (forall s, In s l -> begins p s = true) -> begins p (common_string l) = true).
Proof. intros l. split; [intros; now apply common_string_begins|intros; now apply common_string_most]. Qed.
Lemma find_char_split : forall c s i, find_char c s = Some i -> exists a b, s = a ++ c :: b /\ List.length a = i.
Proof.
  intros c s. induction s as [|x s IH]; intros i H; cbn in H; [discriminate|]. destruct (Ascii.eqb_spec x c) as [->|].
  - injection H as <-. exists [], s. auto.
  - destruct (find_char c s) as [j|]; [|discriminate]. injection H as <-. destruct (IH j eq_refl) as (a & b & -> & L). exists (x :: a), b. cbn. auto.
Qed.
Lemma rfind_split : forall c s i, rfind c s = Some i -> exists b, s = firstn i s ++ c :: b.
Proof.
  intros c s i H. unfold rfind in H. destruct (find_char c (rev s)) as [j|] eqn:E; [|discriminate]. injection H as <-.
  apply find_char_split in E as (a & b & E & L). assert (SE : s = rev b ++ c :: rev a) by (rewrite <- (rev_involutive s), E, rev_app_distr; cbn; now rewrite <- app_assoc).
  exists (rev a). rewrite SE at 1. f_equal. rewrite SE. rewrite app_length. cbn [List.length]. rewrite rev_length, rev_length.
  replace (List.length b + S (List.length a) - 1 - j)%nat with (List.length (rev b)) by (rewrite rev_length; lia). rewrite firstn_app, firstn_all, Nat.sub_diag. cbn. now rewrite app_nil_r.
Qed.
Lemma rfind_none : forall c s, rfind c s = None -> ~ In c s.
Proof.
  intros c s H IN. unfold rfind in H. destruct (find_char c (rev s)) eqn:E; [discriminate|]. apply in_rev in IN. revert IN E. clear H.
  induction (rev s) as [|x l IH]; intros IN E; [easy|]. cbn in E. destruct IN as [->|IN].
  - now rewrite Ascii.eqb_refl in E.
  - destruct (Ascii.eqb x c); [discriminate|]. destruct (find_char c l); [discriminate|]. auto.
Qed.
Lemma prefix_separator : forall l s, In s l -> begins ["_"%char] s = true -> (forall s', In s' l -> begins ["_"%char] s' = true) ->
  (In (find_prefix l) l /\ (1 < List.length l)%nat) \/ (exists r, s = find_prefix l ++ "."%char :: r) \/ (exists r, s = find_prefix l ++ "_"%char :: r).
Proof.
  intros l s IN _ U. pose proof (begins_skip _ _ (common_string_begins l s IN)) as CS. unfold find_prefix.
  destruct (rfind c_dot (common_string l)) as [i|] eqn:R.
  - apply rfind_split in R as (b & E). right. left. exists (b ++ skipn (List.length (common_string l)) s). rewrite <- CS at 1. rewrite E at 1. rewrite <- app_assoc. reflexivity.
  - destruct (_ && _) eqn:Q.
    { left. apply andb_prop in Q as [Q1 Q2]. apply Nat.ltb_lt in Q1. split; [|exact Q1]. apply existsb_exists in Q2 as (y & Y & Z). destruct (list_eq_dec ascii_dec y (common_string l)) as [<-|]; [exact Y|discriminate]. }
    right. right. destruct (rfind "_"%char (common_string l)) as [i|] eqn:R2.
    + apply rfind_split in R2 as (b & E). exists (b ++ skipn (List.length (common_string l)) s). cbn [upto]. rewrite <- CS at 1. rewrite E at 1. rewrite <- app_assoc. reflexivity.
    + exfalso. apply rfind_none in R2. apply R2. assert (B : begins ["_"%char] (common_string l) = true) by (apply common_string_most; [destruct l; [destruct IN|discriminate]|exact U]).
      destruct (common_string l) as [|x y]; [discriminate|]. cbn [begins] in B. apply andb_prop in B as [B _]. apply Ascii.eqb_eq in B. subst. now left.
Qed.
