(** Lemmas: the texts written by to_cif and the STAR grammar. *)
From Coq Require Import QArith List String Ascii Bool Arith Lia.
From Verif Require Import Spec.Objects Spec.StarSpec Model.Strings Model.Numbers Model.Items Model.CifText.
Import ListNotations.
Open Scope string_scope.
Open Scope list_scope.

Definition app_tokens (l : list token) (o : option (list token)) : option (list token) := option_map (app l) o.
Lemma app_tokens_app : forall a b o, app_tokens (a ++ b) o = app_tokens a (app_tokens b o).
Proof. intros a b [x|]; cbn; auto. now rewrite app_assoc. Qed.
Lemma cons_token_app : forall t o, cons_token t o = app_tokens [t] o.
Proof. intros t [x|]; reflexivity. Qed.
Lemma app_tokens_nil : forall o, app_tokens [] o = o.
Proof. intros [x|]; reflexivity. Qed.
Definition ends (r : text) : Prop := match r with [] => True | c :: _ => blank c = true end.
Definition scans (s : text) (l : list token) : Prop := forall b r, ends r -> scan (Between b) (s ++ r) = app_tokens l (scan (Between false) r).
Definition scans_in (s : text) (l : list token) : Prop := forall r, ends r -> scan (Between false) (s ++ r) = app_tokens l (scan (Between false) r).
Lemma scans_scans_in : forall s l, scans s l -> scans_in s l.
Proof. intros s l H r E. apply H, E. Qed.

Lemma scan_bare : forall w acc r, word w -> ends r -> scan (Bare acc) (w ++ r) = cons_token (classify (rev acc ++ w)) (scan (Between false) r).
Proof.
  induction w as [|c w IH]; intros acc r W E; cbn [app].
  - rewrite app_nil_r. destruct r as [|c r]; cbn; [reflexivity|]. cbn in E. now rewrite E.
  - cbn [scan]. rewrite (W c) by now left. rewrite IH; [|intros x X; apply W; now right|exact E].
    cbn [rev]. now rewrite <- app_assoc.
Qed.
Lemma scan_quoted : forall w acc r, quotable_value w -> ends r ->
  scan (Quoted """"%char acc) (w ++ """"%char :: r) = cons_token (TValue (rev acc ++ w)) (scan (Between false) r).
Proof.
  induction w as [|c w IH]; intros acc r [N Q] E; cbn [app].
  - rewrite app_nil_r. cbn [scan]. replace (is_newline """"%char) with false by reflexivity. cbn [Ascii.eqb].
    replace (Ascii.eqb """"%char """"%char) with true by reflexivity. cbn [andb].
    destruct r as [|c' r']; [reflexivity|]. cbn in E. now rewrite E.
  - cbn [scan]. rewrite (N c) by now left.
    assert (K : (Ascii.eqb c """"%char && match w ++ """"%char :: r with [] => true | c' :: _ => blank c' end) = false).
    { destruct w as [|c' w']; cbn [app].
      - now rewrite andb_false_r.
      - cbn [quote_inside] in Q. apply orb_false_iff in Q. apply Q. }
    rewrite K. rewrite IH; [cbn [rev]; now rewrite <- app_assoc| split |exact E].
    + intros x X. apply N. now right.
    + destruct w as [|c' w']; [reflexivity|]. cbn [quote_inside] in Q |- *. apply orb_false_iff in Q. apply Q.
Qed.
Lemma scan_spaces : forall n r b, scan (Between b) (repeat c_space n ++ r) = scan (Between (match n with O => b | _ => false end)) r.
Proof.
  induction n as [|n IH]; intros r b; [reflexivity|]. cbn [repeat app scan].
  replace (blank c_space) with true by reflexivity. replace (is_newline c_space) with false by reflexivity.
  rewrite IH. now destruct n.
Qed.
Lemma scan_space : forall r b, scan (Between b) (c_space :: r) = scan (Between false) r.
Proof. intros r b. apply (scan_spaces 1 r b). Qed.
Lemma scan_newline : forall r b, scan (Between b) (newline :: r) = scan (Between true) r.
Proof. reflexivity. Qed.
Lemma ends_space : forall r, ends (c_space :: r). Proof. reflexivity. Qed.
Lemma ends_newline : forall r, ends (newline :: r). Proof. reflexivity. Qed.

(** A name. *)
Lemma name_scans : forall w, word w -> scans ("_"%char :: w) [TName (lower ("_"%char :: w))].
Proof.
  intros w W b r E. cbn [app scan].
  replace (blank "_"%char) with false by reflexivity. replace (Ascii.eqb "_" "#") with false by reflexivity.
  replace (Ascii.eqb "_" ";" && b) with false by (now destruct b). replace (is_quote "_"%char) with false by reflexivity.
  rewrite scan_bare by assumption. rewrite cons_token_app. reflexivity.
Qed.
(** A value without quotes. *)
Lemma classify_bare : forall w, bare_value w -> classify w = TValue w.
Proof.
  intros [|c w] (W & R & F); [easy|]. destruct F as (U & _). unfold classify.
  unfold reserved in R. repeat apply orb_false_iff in R as [R ?].
  assert (X : forall (A : Type) (x y : A), match c with "_"%char => x | _ => y end = y).
  { intros A x y. destruct c as [[|] [|] [|] [|] [|] [|] [|] [|]]; try reflexivity. now destruct U. }
  rewrite X. rewrite R, H, H0, H1, H2. reflexivity.
Qed.
Lemma bare_scans : forall w, bare_value w -> scans_in w [TValue w].
Proof.
  intros [|c w] B r E; [destruct B as (_ & _ & []) |].
  pose proof (classify_bare _ B) as K. destruct B as (W & R & U & H1 & H2 & H3). cbn [app scan].
  rewrite (W c) by now left.
  destruct (Ascii.eqb_spec c "#"); [contradiction|]. rewrite andb_false_r.
  replace (is_quote c) with false.
  2:{ unfold is_quote. destruct (Ascii.eqb_spec c "'"); [contradiction|]. now destruct (Ascii.eqb_spec c """"). }
  rewrite scan_bare; [|intros x X; apply W; now right | exact E]. cbn [rev app]. rewrite K. apply cons_token_app.
Qed.
Lemma quoted_scans : forall w, quotable_value w -> scans (quoted w) [TValue w].
Proof.
  intros w Q b r E. unfold quoted. cbn [app scan]. rewrite <- app_assoc.
  replace (blank """"%char) with false by reflexivity. replace (Ascii.eqb """" "#") with false by reflexivity.
  replace (Ascii.eqb """" ";" && b) with false by (now destruct b). replace (is_quote """"%char) with true by reflexivity.
  cbn [app]. rewrite scan_quoted by assumption. apply cons_token_app.
Qed.
(** Texts in sequence. *)
Lemma seq_scans : forall s1 l1 sep s2 l2, scans s1 l1 -> (sep = c_space) -> scans_in s2 l2 -> scans (s1 ++ sep :: s2) (l1 ++ l2).
Proof.
  intros s1 l1 sep s2 l2 H1 -> H2 b r E. rewrite <- app_assoc. cbn [app]. rewrite H1 by reflexivity.
  rewrite scan_space, H2 by exact E. now rewrite app_tokens_app.
Qed.
Lemma lines_scans : forall s1 l1 s2 l2, scans s1 l1 -> scans s2 l2 -> scans (s1 ++ newline :: s2) (l1 ++ l2).
Proof.
  intros s1 l1 s2 l2 H1 H2 b r E. rewrite <- app_assoc. cbn [app]. rewrite H1 by reflexivity.
  rewrite scan_newline, H2 by exact E. now rewrite app_tokens_app.
Qed.
(** A text block. *)
Lemma scan_block : forall s bol acc r, block_value bol s = true ->
  scan (Block bol acc) (s ++ newline :: ";"%char :: r) = cons_token (TValue (rev acc ++ s)) (scan (Between false) r).
Proof.
  induction s as [|c s IH]; intros bol acc r B.
  - cbn [app scan]. replace (Ascii.eqb newline ";" && bol) with false by (now destruct bol).
    replace (is_newline newline) with true by reflexivity. replace (Ascii.eqb ";" ";" && true) with true by reflexivity.
    cbn [tl]. now rewrite app_nil_r.
  - cbn [block_value] in B. apply andb_prop in B as [B1 B2]. apply negb_true_iff in B1. cbn [app scan]. rewrite B1.
    rewrite IH by exact B2. cbn [rev]. now rewrite <- app_assoc.
Qed.
Lemma block_scans : forall key s, word key -> block_value true s = true ->
  scans (join_lines ["_"%char :: key; [";"%char]; s; [";"%char]]) [TName (lower ("_"%char :: key)); TValue (newline :: s)].
Proof.
  intros key s W B b r E. cbn [join_lines]. rewrite <- app_assoc. rewrite name_scans by (assumption || reflexivity).
  cbn [app]. rewrite scan_newline. cbn [scan]. replace (blank ";") with false by reflexivity. replace (Ascii.eqb ";" "#") with false by reflexivity.
  replace (Ascii.eqb ";" ";" && true) with true by reflexivity.
  rewrite <- app_assoc. cbn [app].
  pose proof (scan_block (newline :: s) false [] r) as H. cbn [rev app] in H.
  cbn [scan] in H |- *. replace (Ascii.eqb newline ";" && false) with false in H |- * by reflexivity. rewrite H.
  - rewrite cons_token_app, <- app_tokens_app. reflexivity.
  - cbn [block_value]. replace (is_newline newline) with true by reflexivity. now rewrite B, andb_false_r.
Qed.

Lemma join_lines_app : forall a b, a <> [] -> b <> [] -> join_lines (a ++ b) = join_lines a ++ newline :: join_lines b.
Proof.
  induction a as [|x a IH]; intros b A B; [now destruct A|]. destruct a as [|y a].
  - cbn. destruct b; [now destruct B|reflexivity].
  - change ((x :: y :: a) ++ b) with (x :: ((y :: a) ++ b)).
    assert (J : forall u v l, join_lines (u :: v :: l) = u ++ newline :: join_lines (v :: l)) by reflexivity.
    change ((y :: a) ++ b) with (y :: (a ++ b)) at 1. rewrite J. change (y :: a ++ b) with ((y :: a) ++ b). rewrite IH by (exact B || discriminate).
    rewrite J. rewrite <- app_assoc. reflexivity.
Qed.
(** Groups of lines one after another. *)
Definition chunk (ls : list text) (l : list token) : Prop := (ls = [] /\ l = []) \/ (ls <> [] /\ scans (join_lines ls) l).
Lemma chunk_app : forall a la b lb, chunk a la -> chunk b lb -> chunk (a ++ b) (la ++ lb).
Proof.
  intros a la b lb [[-> ->]|[A SA]] [[-> ->]|[B SB]]; cbn.
  - now left.
  - now right.
  - rewrite !app_nil_r. now right.
  - right. split; [destruct a; [now destruct A|discriminate]|]. rewrite join_lines_app by assumption. now apply lines_scans.
Qed.
Lemma chunks_concat : forall ls l, Forall2 chunk ls l -> chunk (List.concat ls) (List.concat l).
Proof. intros ls l H. induction H; [now left|]. cbn. now apply chunk_app. Qed.
Lemma chunk_tokens : forall ls l, chunk ls l -> tokens (join_lines ls) = Some l.
Proof.
  intros ls l [[-> ->]|[_ S]]; [reflexivity|]. unfold tokens. rewrite <- (app_nil_r (join_lines ls)). rewrite S by exact Logic.I. cbn. now rewrite app_nil_r.
Qed.

(** * Tokens of contents *)
Definition entry_tokens (e : entry) : list token :=
  match e with
  | EGlobal n => [TGlobal n]
  | EData n => [TData n]
  | EItem n v => [TName n; TValue v]
  | ELoop n names rows => TLoop n :: map TName names ++ map TValue (List.concat rows)
  end.
Definition entry_ok (e : entry) : Prop :=
  match e with ELoop _ names rows => names <> [] /\ rows <> [] /\ Forall (fun r => List.length r = List.length names) rows | _ => True end.
Lemma take_names_map : forall l r, match r with TName _ :: _ => False | _ => True end -> take_names (map TName l ++ r) = (l, r).
Proof.
  induction l as [|x l IH]; intros r R; cbn.
  - destruct r as [|[] ?]; try reflexivity. contradiction.
  - now rewrite IH.
Qed.
Lemma take_values_map : forall l r, match r with TValue _ :: _ => False | _ => True end -> take_values (map TValue l ++ r) = (l, r).
Proof.
  induction l as [|x l IH]; intros r R; cbn.
  - destruct r as [|[] ?]; try reflexivity. contradiction.
  - now rewrite IH.
Qed.
Lemma rows_of_concat : forall rows n f, (0 < n)%nat -> Forall (fun r => List.length r = n) rows -> (List.length rows <= f)%nat ->
  rows_of f n (List.concat rows) = Some rows.
Proof.
  induction rows as [|r rows IH]; intros n f N F L; [destruct f; reflexivity|].
  inversion F; subst. destruct r as [|x r]; [cbn in N; lia|]. destruct f as [|f]; [cbn in L; lia|].
  set (u := x :: r) in *. cbn [List.concat]. assert (E : exists y z, u ++ List.concat rows = y :: z) by (eexists; eexists; reflexivity).
  destruct E as (y & z & E). rewrite E. cbn [rows_of]. rewrite <- E.
  replace (Nat.leb (List.length u) (List.length (u ++ List.concat rows))) with true by (symmetry; apply Nat.leb_le; rewrite app_length; lia).
  rewrite firstn_app, firstn_all, Nat.sub_diag, firstn_O, app_nil_r. rewrite skipn_app, skipn_all, Nat.sub_diag. cbn [app skipn].
  rewrite IH; [reflexivity|exact N|assumption|cbn in L; lia].
Qed.
Lemma entry_tokens_start : forall es, match List.concat (map entry_tokens es) with TValue _ :: _ => False | _ => True end.
Proof. intros [|[] ?]; cbn; exact Logic.I. Qed.
Lemma length_concat_rows : forall rows (n : nat), (0 < n)%nat -> Forall (fun r : list text => List.length r = n) rows -> (List.length rows <= List.length (List.concat rows))%nat.
Proof. intros rows n N F. induction F; cbn; [lia|]. rewrite app_length. lia. Qed.
Lemma contents_tokens : forall es f, Forall entry_ok es -> (List.length es <= f)%nat -> contents_fuel f (List.concat (map entry_tokens es)) = Some es.
Proof.
  induction es as [|e es IH]; intros f F L; [destruct f; reflexivity|].
  inversion F as [|? ? E F']; subst. destruct f as [|f]; [cbn in L; lia|]. cbn in L.
  pose proof (entry_tokens_start es) as ST. set (rest := List.concat (map entry_tokens es)) in *. 
  assert (X : contents_fuel f rest = Some es) by (apply IH; [assumption|lia]).
  cbn [map List.concat]. fold rest. destruct e as [n|n|n v|n names rows]; cbn [entry_tokens app contents_fuel]; try (now rewrite X).
  destruct E as (E1 & E2 & E3). rewrite <- app_assoc.
  rewrite take_names_map; cbv beta iota zeta.
  2:{ destruct rows as [|r rows]; [now destruct E2|]. inversion E3; subst. destruct r; [destruct names; [now destruct E1|discriminate]|exact Logic.I]. }
  rewrite take_values_map by exact ST. cbv beta iota zeta.
  assert (P : (0 < List.length names)%nat) by (destruct names; [now destruct E1|cbn; lia]).
  pose proof (rows_of_concat rows (List.length names) (List.length (List.concat rows)) P E3 (length_concat_rows rows _ P E3)) as RO.
  destruct names as [|n0 names]; [now destruct E1|]. destruct (List.concat rows) as [|v0 vs] eqn:C.
  - exfalso. destruct rows as [|r rows]; [now destruct E2|]. inversion E3; subst. destruct r; discriminate.
  - rewrite RO, X. reflexivity.
Qed.
Lemma entry_tokens_length : forall es, (List.length es <= List.length (List.concat (map entry_tokens es)))%nat.
Proof. induction es as [|e es IH]; cbn; [lia|]. rewrite app_length. destruct e; cbn; lia. Qed.
(** A text made of groups of lines, each the text of entries, has these contents. *)
Lemma chunk_contents : forall ls es, chunk ls (List.concat (map entry_tokens es)) -> Forall entry_ok es -> contents (join_lines ls) = Some es.
Proof.
  intros ls es C F. unfold contents. rewrite (chunk_tokens _ _ C). apply contents_tokens; [exact F|apply entry_tokens_length].
Qed.
