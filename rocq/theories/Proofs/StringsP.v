(** Round trip of symmetry-operation strings (C21). *)
From Coq Require Import ZArith NArith QArith Qabs List Ascii Bool Lia.
From Verif Require Import Spec.Text Model.Strings.
Import ListNotations.

(** characters of printed texts that are neither separators nor signs *)
Definition plain (c : ascii) : bool := (negb (is_ws c) && negb (Ascii.eqb c c_plus) && negb (Ascii.eqb c c_minus))%bool.

Lemma eqb_iff : forall a b, Ascii.eqb a b = true <-> a = b. Proof. exact Ascii.eqb_eq. Qed.
Lemma code_ch : forall n, (n < 256)%nat -> code (ch n) = n.
Proof. intros. unfold code, ch. apply nat_ascii_embedding. assumption. Qed.
Lemma code_inj : forall a b, code a = code b -> a = b.
Proof. intros a b H. unfold code in H. rewrite <- (ascii_nat_embedding a), <- (ascii_nat_embedding b), H. reflexivity. Qed.
Lemma neq_code : forall a b, code a <> code b -> Ascii.eqb a b = false.
Proof. intros a b H. apply Ascii.eqb_neq. intros ->. apply H. reflexivity. Qed.
Lemma digit_codes : forall c, is_digit c = true -> (48 <= code c <= 57)%nat.
Proof. intros c H. unfold is_digit in H. apply andb_true_iff in H. destruct H as [A B]. apply Nat.leb_le in A. apply Nat.leb_le in B. lia. Qed.
Lemma letter_codes : forall c, is_letter c = true -> (97 <= code c <= 122 \/ 65 <= code c <= 90)%nat.
Proof.
  intros c H. unfold is_letter in H; fold (code c) in H. apply orb_true_iff in H. destruct H as [H|H]; apply andb_true_iff in H; destruct H as [A B]; apply Nat.leb_le in A; apply Nat.leb_le in B; lia.
Qed.
Lemma code_plus : code c_plus = 43%nat. Proof. reflexivity. Qed.
Lemma code_minus : code c_minus = 45%nat. Proof. reflexivity. Qed.
Lemma code_slash : code c_slash = 47%nat. Proof. reflexivity. Qed.
Lemma code_comma : code c_comma = 44%nat. Proof. reflexivity. Qed.
Lemma code_lpar : code c_lpar = 40%nat. Proof. reflexivity. Qed.
Lemma code_rpar : code c_rpar = 41%nat. Proof. reflexivity. Qed.
Lemma code_space : code c_space = 32%nat. Proof. reflexivity. Qed.
Ltac codes := rewrite ?code_plus, ?code_minus, ?code_slash, ?code_comma, ?code_lpar, ?code_rpar, ?code_space.
Lemma ws_false : forall c, (33 <= code c)%nat -> is_ws c = false.
Proof.
  intros c H. unfold is_ws. apply orb_false_iff. split; [apply Nat.eqb_neq; lia|]. apply andb_false_iff. right. apply Nat.leb_gt. lia.
Qed.
Lemma digit_plain : forall c, is_digit c = true -> plain c = true.
Proof.
  intros c H. apply digit_codes in H. unfold plain. rewrite ws_false by lia. rewrite !neq_code by (codes; lia). reflexivity.
Qed.
Lemma letter_plain : forall c, is_letter c = true -> plain c = true.
Proof.
  intros c H. apply letter_codes in H. unfold plain. rewrite ws_false by lia. rewrite !neq_code by (codes; lia). reflexivity.
Qed.
Lemma slash_plain : plain c_slash = true. Proof. reflexivity. Qed.

(** * decimal numbers *)
Lemma num_value_app : forall s c, num_value (s ++ [c]) = (10 * num_value s + digit_value c)%N.
Proof. intros. unfold num_value. rewrite fold_left_app. reflexivity. Qed.
Lemma digit_char_value : forall n, (n < 10)%N -> digit_value (digit_char n) = n /\ is_digit (digit_char n) = true.
Proof.
  intros n H. unfold digit_value, digit_char, is_digit. rewrite code_ch by lia. split; [lia|].
  apply andb_true_iff. split; apply Nat.leb_le; lia.
Qed.
Lemma dec_digits_ok : forall fuel n, (n < 2 ^ N.of_nat fuel)%N -> (0 < fuel)%nat ->
  num_value (dec_digits fuel n) = n /\ forallb is_digit (dec_digits fuel n) = true /\ dec_digits fuel n <> [].
Proof.
  induction fuel as [|f IH]; intros n Hn Hf; [lia|].
  cbn [dec_digits]. destruct (n <? 10)%N eqn:E.
  - apply N.ltb_lt in E. destruct (digit_char_value n E) as [V D]. split; [|split].
    + unfold num_value. cbn [fold_left]. rewrite V. lia.
    + cbn [forallb]. rewrite D. reflexivity.
    + discriminate.
  - apply N.ltb_ge in E. assert (M : (n mod 10 < 10)%N) by (apply N.mod_lt; lia).
    destruct (digit_char_value _ M) as [V D].
    assert (L : (n / 10 < 2 ^ N.of_nat f)%N).
    { apply N.div_lt_upper_bound; [lia|]. replace (N.of_nat (S f)) with (N.succ (N.of_nat f)) in Hn by lia. rewrite N.pow_succ_r' in Hn. lia. }
    destruct f as [|f']; [cbn in Hn; lia|].
    destruct (IH (n / 10)%N L) as (V' & D' & _); [lia|].
    split; [|split].
    + rewrite num_value_app, V', V. pose proof (N.div_mod n 10). lia.
    + rewrite forallb_app, D'. cbn [forallb]. rewrite D. reflexivity.
    + intros H. apply app_eq_nil in H. destruct H as [_ H]. discriminate.
Qed.
Lemma pos_size_lt : forall p, (N.pos p < 2 ^ N.of_nat (Pos.size_nat p))%N.
Proof.
  induction p as [p IH|p IH|]; cbn [Pos.size_nat]; [| |reflexivity];
  rewrite Nnat.Nat2N.inj_succ, N.pow_succ_r'; lia.
Qed.
Lemma print_N_ok : forall n, num_value (print_N n) = n /\ forallb is_digit (print_N n) = true /\ print_N n <> [].
Proof.
  intros n. unfold print_N. apply dec_digits_ok; [|lia]. destruct n as [|p]; [reflexivity|].
  rewrite Nnat.Nat2N.inj_succ, N.pow_succ_r'. pose proof (pos_size_lt p). cbn [N.size_nat]. lia.
Qed.
(** * lists of characters *)
Lemma all_in : forall (p : ascii -> bool) s, forallb p s = true <-> forall c, In c s -> p c = true.
Proof. intros. apply forallb_forall. Qed.
Lemma lstrip_id : forall p s, forallb (fun c => negb (p c)) s = true -> lstrip_by p s = s.
Proof. intros p [|c r] H; [reflexivity|]. cbn in *. apply andb_true_iff in H. destruct H as [H _]. apply negb_true_iff in H. rewrite H. reflexivity. Qed.
Lemma forallb_rev : forall (p : ascii -> bool) s, forallb p s = true -> forallb p (rev s) = true.
Proof. intros p s H. apply all_in. intros c Hc. apply in_rev in Hc. rewrite all_in in H. auto. Qed.
Lemma rstrip_id : forall p s, forallb (fun c => negb (p c)) s = true -> rstrip_by p s = s.
Proof. intros p s H. unfold rstrip_by. rewrite lstrip_id by (apply forallb_rev; exact H). apply rev_involutive. Qed.
Lemma strip_id : forall s, forallb (fun c => negb (is_ws c)) s = true -> strip s = s.
Proof. intros s H. unfold strip. rewrite (lstrip_id is_ws s H). apply rstrip_id. exact H. Qed.
Lemma replace1_absent : forall c rep s, (forall x, In x s -> x <> c) -> replace1 c rep s = s.
Proof.
  intros c rep s. induction s as [|x s IH]; intros H; [reflexivity|]. unfold replace1 in *. cbn [flat_map].
  destruct (Ascii.eqb x c) eqn:E; [apply Ascii.eqb_eq in E; exfalso; apply (H x); [left; reflexivity|exact E]|].
  rewrite IH; [reflexivity|]. intros y Hy. apply H. right. exact Hy.
Qed.
Lemma replace1_app : forall c rep s t, replace1 c rep (s ++ t) = replace1 c rep s ++ replace1 c rep t.
Proof. intros. unfold replace1. apply flat_map_app. Qed.
Lemma replace2_absent : forall a b rep s, (forall x, In x s -> x <> a) -> replace2 a b rep s = s.
Proof.
  intros a b rep s. induction s as [|x s IH]; intros H; [reflexivity|].
  assert (Hx : Ascii.eqb x a = false) by (apply Ascii.eqb_neq, H; left; reflexivity).
  assert (Hs : replace2 a b rep s = s) by (apply IH; intros y Hy; apply H; right; exact Hy).
  destruct s as [|y s']; [reflexivity|]. cbn [replace2]. rewrite Hx. cbn [andb]. f_equal. exact Hs.
Qed.
Lemma replace2_head : forall a b rep x s, (forall y, In y s -> y <> a) -> (x <> a \/ match s with y :: _ => y <> b | [] => True end) -> replace2 a b rep (x :: s) = x :: s.
Proof.
  intros a b rep x s H D. destruct s as [|y s']; [reflexivity|].
  assert (E : replace2 a b rep (x :: y :: s') = if (Ascii.eqb x a && Ascii.eqb y b)%bool then rep ++ replace2 a b rep s' else x :: replace2 a b rep (y :: s')) by reflexivity.
  rewrite E. assert (F : (Ascii.eqb x a && Ascii.eqb y b)%bool = false).
  { destruct D as [D|D]; apply andb_false_iff; [left|right]; apply Ascii.eqb_neq; exact D. }
  rewrite F, (replace2_absent a b rep (y :: s') H). reflexivity.
Qed.
Lemma contains_app : forall c s t, contains c (s ++ t) = (contains c s || contains c t)%bool.
Proof. intros. unfold contains. apply existsb_app. Qed.
Lemma contains_false : forall c s, (forall x, In x s -> x <> c) -> contains c s = false.
Proof.
  intros c s H. unfold contains. apply not_true_iff_false. intros E. apply existsb_exists in E. destruct E as (x & Hx & E).
  apply Ascii.eqb_eq in E. apply (H x Hx). symmetry. exact E.
Qed.
(** * splitting into terms *)
Definition sep (s : str) : str := replace1 c_minus [c_space; c_minus] (replace1 c_plus [c_space; c_plus] s).
Lemma sep_app : forall s t, sep (s ++ t) = sep s ++ sep t.
Proof. intros. unfold sep. rewrite !replace1_app. reflexivity. Qed.
Lemma plain_facts : forall c, plain c = true -> is_ws c = false /\ c <> c_plus /\ c <> c_minus.
Proof.
  intros c H. unfold plain in H. apply andb_true_iff in H. destruct H as [H H3]. apply andb_true_iff in H. destruct H as [H1 H2].
  apply negb_true_iff in H1, H2, H3. repeat split; [exact H1|apply Ascii.eqb_neq, H2|apply Ascii.eqb_neq, H3].
Qed.
Lemma sep_plain : forall s, forallb plain s = true -> sep s = s.
Proof.
  intros s H. rewrite all_in in H. unfold sep. rewrite (replace1_absent c_plus).
  - apply replace1_absent. intros x Hx. apply (plain_facts x (H x Hx)).
  - intros x Hx. apply (plain_facts x (H x Hx)).
Qed.
Lemma split_plain : forall s cur rest, forallb plain s = true -> split_ws cur (s ++ rest) = split_ws (rev s ++ cur) rest.
Proof.
  induction s as [|c s IH]; intros cur rest H; [reflexivity|]. cbn [forallb] in H. apply andb_true_iff in H. destruct H as [Hc Hs].
  cbn [app split_ws rev]. rewrite (proj1 (plain_facts c Hc)). rewrite IH by exact Hs. rewrite <- app_assoc. reflexivity.
Qed.
(** a term: sign or plain character, then plain characters *)
Definition sgn_char (c : ascii) : bool := (Ascii.eqb c c_plus || Ascii.eqb c c_minus)%bool.
Definition term_ok (s : str) : bool := match s with c :: r => ((plain c || sgn_char c) && forallb plain r)%bool | [] => false end.
Definition term_signed (s : str) : bool := match s with c :: _ => sgn_char c | [] => false end.
Lemma sep_signed : forall c r, sgn_char c = true -> forallb plain r = true -> sep (c :: r) = c_space :: c :: r.
Proof.
  intros c r Hc Hr. change (c :: r) with ([c] ++ r). rewrite sep_app, (sep_plain r Hr). unfold sgn_char in Hc. apply orb_true_iff in Hc.
  destruct Hc as [E|E]; apply Ascii.eqb_eq in E; subst c; reflexivity.
Qed.
Lemma split_terms_rest : forall ps cur, cur <> [] -> forallb term_ok ps = true -> forallb term_signed ps = true ->
  split_ws cur (sep (concat ps)) = rev cur :: ps.
Proof.
  induction ps as [|p ps IH]; intros cur Hc Ho Hs.
  - cbn. destruct cur; [contradiction|reflexivity].
  - cbn [forallb] in Ho, Hs. apply andb_true_iff in Ho. apply andb_true_iff in Hs. destruct Ho as [Po Ho], Hs as [Ps Hs].
    destruct p as [|c r]; [discriminate|]. cbn [term_ok term_signed] in Po, Ps. apply andb_true_iff in Po. destruct Po as [_ Pr].
    cbn [concat]. rewrite sep_app, (sep_signed c r Ps Pr). cbn [app split_ws].
    change (is_ws c_space) with true. cbn iota. destruct cur as [|x cur']; [contradiction|]. f_equal.
    assert (W : is_ws c = false).
    { unfold sgn_char in Ps. apply orb_true_iff in Ps. destruct Ps as [E|E]; apply Ascii.eqb_eq in E; subst c; reflexivity. }
    rewrite W, (split_plain r [c] _ Pr). rewrite IH; [|intros H; apply app_eq_nil in H; destruct H; discriminate|exact Ho|exact Hs].
    rewrite rev_app_distr, rev_involutive. reflexivity.
Qed.
Lemma term_no_ws : forall s, term_ok s = true -> forallb (fun c => negb (is_ws c)) s = true.
Proof.
  intros [|c r] H; [discriminate|]. cbn [term_ok] in H. apply andb_true_iff in H. destruct H as [H1 H2]. cbn [forallb]. apply andb_true_iff. split.
  - apply orb_true_iff in H1. destruct H1 as [H1|H1]; [rewrite (proj1 (plain_facts c H1)); reflexivity|].
    unfold sgn_char in H1. apply orb_true_iff in H1. destruct H1 as [E|E]; apply Ascii.eqb_eq in E; subst c; reflexivity.
  - apply all_in. intros x Hx. rewrite all_in in H2. rewrite (proj1 (plain_facts x (H2 x Hx))). reflexivity.
Qed.
Lemma concat_no_ws : forall ps, forallb term_ok ps = true -> forallb (fun c => negb (is_ws c)) (concat ps) = true.
Proof.
  induction ps as [|p ps IH]; intros H; [reflexivity|]. cbn [forallb] in H. apply andb_true_iff in H. destruct H as [H1 H2].
  cbn [concat]. rewrite forallb_app, (term_no_ws p H1), (IH H2). reflexivity.
Qed.
Lemma terms_concat : forall p ps, term_ok p = true -> forallb term_ok ps = true -> forallb term_signed ps = true ->
  terms (concat (p :: ps)) = p :: ps.
Proof.
  intros p ps Hp Ho Hs. unfold terms.
  assert (W : forallb (fun c => negb (is_ws c)) (concat (p :: ps)) = true) by (apply concat_no_ws; cbn [forallb]; rewrite Hp, Ho; reflexivity).
  rewrite strip_id by exact W. rewrite (replace1_absent c_space).
  2:{ intros x Hx ->. rewrite all_in in W. specialize (W _ Hx). discriminate. }
  fold (sep (concat (p :: ps))). destruct p as [|c r]; [discriminate|]. cbn [term_ok] in Hp. apply andb_true_iff in Hp. destruct Hp as [Pc Pr].
  cbn [concat]. rewrite sep_app.
  assert (E : split_ws [] (sep (c :: r) ++ sep (concat ps)) = split_ws (rev r ++ [c]) (sep (concat ps))).
  { destruct (sgn_char c) eqn:Sc.
    - rewrite (sep_signed c r Sc Pr). cbn [app split_ws]. change (is_ws c_space) with true. cbn iota.
      assert (Wc : is_ws c = false).
      { unfold sgn_char in Sc. apply orb_true_iff in Sc. destruct Sc as [E|E]; apply Ascii.eqb_eq in E; subst c; reflexivity. }
      rewrite Wc. apply split_plain. exact Pr.
    - rewrite orb_false_r in Pc. rewrite (sep_plain (c :: r)) by (cbn [forallb]; rewrite Pc, Pr; reflexivity).
      rewrite (split_plain (c :: r)) by (cbn [forallb]; rewrite Pc, Pr; reflexivity). rewrite app_nil_r. reflexivity. }
  rewrite E, split_terms_rest; [|intros H; apply app_eq_nil in H; destruct H; discriminate|exact Ho|exact Hs].
  rewrite rev_app_distr, rev_involutive. reflexivity.
Qed.
(** * reading numbers *)
Definition sign_text (sg : Z) (s : str) : Prop := (s = [] /\ sg = 1%Z) \/ (s = [c_plus] /\ sg = 1%Z) \/ (s = [c_minus] /\ sg = (-1)%Z).
Lemma span_digits : forall s rest, forallb is_digit s = true -> match rest with c :: _ => is_digit c = false | [] => True end ->
  span is_digit (s ++ rest) = (s, rest).
Proof.
  induction s as [|c s IH]; intros rest H R.
  - destruct rest as [|c r]; [reflexivity|]. cbn. rewrite R. reflexivity.
  - cbn [forallb] in H. apply andb_true_iff in H. destruct H as [Hc Hs]. cbn [app span]. rewrite Hc, (IH rest Hs R). reflexivity.
Qed.
Lemma digits_no_ws : forall s, forallb is_digit s = true -> forallb (fun c => negb (is_ws c)) s = true.
Proof. intros s H. rewrite all_in in *. intros c Hc. rewrite (proj1 (plain_facts c (digit_plain c (H c Hc)))). reflexivity. Qed.
Definition body (num rest : str) (sg : Z) : option Q :=
  match rest with
  | [] => match num with [] => None | _ => Some (inject_Z (sg * Z.of_N (num_value num))) end
  | c :: r =>
      if Ascii.eqb c c_slash then
        match num, r with
        | [], _ => None | _, [] => None
        | _, _ => if forallb is_digit r then
                    match num_value r with N0 => None | Npos p => Some (Qred (Qmake (sg * Z.of_N (num_value num)) p)) end
                  else None end
      else if Ascii.eqb c c_dot then
        if (forallb is_digit r && negb (match num, r with [], [] => true | _, _ => false end))%bool
        then Some (Qred (Qmake (sg * Z.of_N (num_value (num ++ r))) (Pos.of_nat (Nat.pow 10 (length r)))))
        else None
      else None
  end.
Lemma parse_body : forall sg st num rest, sign_text sg st -> forallb is_digit num = true -> num <> [] ->
  match rest with c :: _ => is_digit c = false | [] => True end -> forallb (fun c => negb (is_ws c)) rest = true ->
  parse_fraction (st ++ num ++ rest) = body num rest sg.
Proof.
  intros sg st num rest Hst Hn Nn Hr Wr. unfold parse_fraction.
  assert (W : forallb (fun c => negb (is_ws c)) (st ++ num ++ rest) = true).
  { rewrite !forallb_app, (digits_no_ws num Hn), Wr. destruct Hst as [[-> _]|[[-> _]|[-> _]]]; reflexivity. }
  rewrite (strip_id _ W).
  destruct Hst as [[-> ->]|[[-> ->]|[-> ->]]].
  - destruct num as [|c r]; [contradiction|]. pose proof Hn as Hn'. cbn [forallb] in Hn'. apply andb_true_iff in Hn'. destruct Hn' as [Hc _].
    destruct (plain_facts c (digit_plain c Hc)) as (_ & P & M). apply Ascii.eqb_neq in P, M. cbv zeta. cbn [app]. rewrite P, M.
    pose proof (span_digits (c :: r) rest Hn Hr) as E. cbn [app] in E. rewrite E. reflexivity.
  - cbv zeta. cbn [app]. change (Ascii.eqb c_plus c_plus) with true. cbn iota. rewrite (span_digits num rest Hn Hr). reflexivity.
  - cbv zeta. cbn [app]. change (Ascii.eqb c_minus c_plus) with false. change (Ascii.eqb c_minus c_minus) with true. cbn iota. rewrite (span_digits num rest Hn Hr). reflexivity.
Qed.
Lemma parse_int : forall sg st n, sign_text sg st -> parse_fraction (st ++ print_N n) = Some (inject_Z (sg * Z.of_N n)).
Proof.
  intros sg st n Hst. destruct (print_N_ok n) as (V & D & NE). 
  rewrite <- (app_nil_r (print_N n)). rewrite (parse_body sg st (print_N n) [] Hst D NE I eq_refl). unfold body.
  destruct (print_N n) as [|c r]; [contradiction|]. rewrite V. reflexivity.
Qed.
Lemma parse_quot : forall sg st n p, sign_text sg st -> parse_fraction (st ++ print_N n ++ c_slash :: print_N (Npos p)) = Some (Qred (Qmake (sg * Z.of_N n) p)).
Proof.
  intros sg st n p Hst. destruct (print_N_ok n) as (V & D & NE). destruct (print_N_ok (Npos p)) as (V' & D' & NE').
  rewrite (parse_body sg st (print_N n) (c_slash :: print_N (Npos p)) Hst D NE eq_refl).
  - unfold body. change (Ascii.eqb c_slash c_slash) with true. cbn iota. destruct (print_N n) as [|c r]; [contradiction|].
    destruct (print_N (N.pos p)) as [|c' r']; [contradiction|]. rewrite D', V', V. reflexivity.
  - cbn [forallb]. rewrite (digits_no_ws _ D'). reflexivity.
Qed.

(** * terms of a printed row *)
Definition canonical (q : Q) : Prop := Qred q = q.
Inductive item := Coef (q : Q) (l : ascii) | Off (q : Q).
Definition text (it : item) : str := match it with Coef q l => transform_fraction_with_label_to_string q l | Off q => print_Q q end.
Definition item_ok (it : item) : Prop :=
  match it with
  | Coef q l => Qnum q <> 0%Z /\ canonical q /\ (Zpos (Qden q) <= 10)%Z /\ is_letter l = true
  | Off q => canonical q /\ (Zpos (Qden q) <= 10)%Z end.
Definition signed_text (it : item) : str := if starts_with c_minus (text it) then text it else c_plus :: text it.
Definition num_part (n : Z) : str := print_N (Z.to_N (Z.abs n)).
Definition sgn_part (n : Z) : str := if (n <? 0)%Z then [c_minus] else [].
Lemma print_Z_parts : forall n, print_Z n = sgn_part n ++ num_part n.
Proof.
  intros n. unfold print_Z, sgn_part, num_part. destruct (n <? 0)%Z eqn:E.
  - apply Z.ltb_lt in E. rewrite Z.abs_neq by lia. reflexivity.
  - apply Z.ltb_ge in E. rewrite Z.abs_eq by lia. reflexivity.
Qed.
Lemma sgn_part_sign : forall n, sign_text (if (n <? 0)%Z then (-1) else 1)%Z (sgn_part n).
Proof. intros n. unfold sgn_part, sign_text. destruct (n <? 0)%Z; tauto. Qed.
Lemma sgn_abs : forall n, ((if (n <? 0)%Z then (-1) else 1) * Z.of_N (Z.to_N (Z.abs n)) = n)%Z.
Proof. intros n. rewrite Z2N.id by lia. destruct (n <? 0)%Z eqn:E; [apply Z.ltb_lt in E|apply Z.ltb_ge in E]; lia. Qed.
Lemma num_part_digits : forall n, forallb is_digit (num_part n) = true /\ num_part n <> [].
Proof. intros n. unfold num_part. destruct (print_N_ok (Z.to_N (Z.abs n))) as (_ & D & N). auto. Qed.
(** the shapes of a term: sign, digits, label?, /digits? *)
Inductive shape : item -> str -> str -> str -> Prop :=
| Sh1 : forall l, shape (Coef 1 l) [] [l] []
| Shm1 : forall l, shape (Coef (-1) l) [c_minus] [l] []
| Shn : forall n l, n <> 1%Z -> n <> (-1)%Z -> n <> 0%Z -> shape (Coef (inject_Z n) l) (sgn_part n) (num_part n ++ [l]) []
| Sh1d : forall p l, p <> 1%positive -> shape (Coef (1 # p) l) [] [l] (c_slash :: print_N (Npos p))
| Shq : forall n p l, n <> 1%Z -> n <> 0%Z -> p <> 1%positive -> shape (Coef (n # p) l) (sgn_part n) (num_part n ++ [l]) (c_slash :: print_N (Npos p))
| Sho : forall n, shape (Off (inject_Z n)) (sgn_part n) (num_part n) []
| Shoq : forall n p, p <> 1%positive -> shape (Off (n # p)) (sgn_part n) (num_part n) (c_slash :: print_N (Npos p)).
Lemma text_shape : forall it, item_ok it -> exists a b c, shape it a b c /\ text it = a ++ b ++ c.
Proof.
  intros [[n p] l|[n p]] H; cbn [item_ok] in H.
  - destruct H as (N0 & _ & _ & _). cbn [Qnum] in N0. cbn [text]. unfold transform_fraction_with_label_to_string. cbn [Qnum Qden].
    destruct (Z.eqb_spec n 0) as [E|_]; [contradiction|].
    destruct (Z.eqb_spec n 1) as [->|N1].
    + destruct (Z.eqb_spec (Z.pos p) 1) as [E|P1].
      * injection E as ->. exists [], [l], []. split; [apply Sh1|reflexivity].
      * cbn [andb]. rewrite (proj2 (Z.eqb_neq 1 (-1))) by lia. cbn [andb].
        exists [], [l], (c_slash :: print_N (Npos p)). split; [apply Sh1d; congruence|reflexivity].
    + cbn [andb]. destruct (Z.eqb_spec n (-1)) as [->|M1].
      * destruct (Z.eqb_spec (Z.pos p) 1) as [E|P1].
        -- injection E as ->. exists [c_minus], [l], []. split; [apply Shm1|reflexivity].
        -- cbn [andb]. exists (sgn_part (-1)), (num_part (-1) ++ [l]), (c_slash :: print_N (Npos p)). split; [apply Shq; congruence|].
           rewrite print_Z_parts, <- !app_assoc. reflexivity.
      * cbn [andb]. destruct (Z.eqb_spec (Z.pos p) 1) as [E|P1].
        -- injection E as ->. exists (sgn_part n), (num_part n ++ [l]), []. split; [apply (Shn n); assumption|].
           rewrite print_Z_parts, app_nil_r, <- !app_assoc. reflexivity.
        -- exists (sgn_part n), (num_part n ++ [l]), (c_slash :: print_N (Npos p)). split; [apply Shq; congruence|].
           rewrite print_Z_parts, <- !app_assoc. reflexivity.
  - cbn [text]. unfold print_Q. cbn [Qnum Qden]. destruct (Z.eqb_spec (Z.pos p) 1) as [E|P1].
    + injection E as ->. exists (sgn_part n), (num_part n), []. split; [apply (Sho n)|]. rewrite app_nil_r. apply print_Z_parts.
    + exists (sgn_part n), (num_part n), (c_slash :: print_N (Npos p)). split; [apply Shoq; congruence|]. rewrite print_Z_parts, <- app_assoc. reflexivity.
Qed.
Lemma letter_digit : forall l c, is_letter l = true -> is_digit c = true -> c <> l.
Proof. intros l c Hl Hc ->. apply letter_codes in Hl. apply digit_codes in Hc. lia. Qed.
Lemma letter_neq : forall l c, is_letter l = true -> (code c < 65)%nat -> c <> l.
Proof. intros l c Hl Hc ->. apply letter_codes in Hl. lia. Qed.
Lemma digits_plain : forall s, forallb is_digit s = true -> forallb plain s = true.
Proof. intros s H. rewrite all_in in *. intros. apply digit_plain. auto. Qed.
Lemma forallb_cons : forall (p : ascii -> bool) c s, p c = true -> forallb p s = true -> forallb p (c :: s) = true.
Proof. intros p c s H1 H2. cbn [forallb]. rewrite H1, H2. reflexivity. Qed.
Lemma shape_plain : forall it a b c, item_ok it -> shape it a b c -> forallb plain (b ++ c) = true /\ b ++ c <> [] /\ (a = [] \/ a = [c_minus]).
Proof.
  intros it a b c Hok S.
  assert (SP : forall n, sgn_part n = [] \/ sgn_part n = [c_minus]) by (intros n; unfold sgn_part; destruct (n <? 0)%Z; tauto).
  assert (PD : forall p, forallb plain (c_slash :: print_N (N.pos p)) = true).
  { intros p. apply forallb_cons; [reflexivity|]. apply digits_plain. apply print_N_ok. }
  assert (ND : forall n, forallb plain (num_part n) = true) by (intros n; apply digits_plain, num_part_digits).
  assert (LP : forall l, is_letter l = true -> forallb plain [l] = true) by (intros l Hl; cbn; rewrite (letter_plain l Hl); reflexivity).
  destruct S; cbn [item_ok] in Hok; try (destruct Hok as (_ & _ & _ & Hl)); rewrite ?forallb_app, ?ND, ?PD, ?(LP l Hl), ?app_nil_r; cbn [andb];
  (split; [try reflexivity; try (apply ND)|split; [|try (apply SP); auto]]).
  all: try discriminate.
  all: intros HH; repeat (apply app_eq_nil in HH; destruct HH as [? HH]); try discriminate;
       repeat match goal with [ HX : _ ++ _ = [] |- _ ] => apply app_eq_nil in HX; destruct HX end; try discriminate;
       try (exact (proj2 (num_part_digits _) HH)).
Qed.
(** * reading back one term *)
Definition finish (s : str) : str :=
  let s_1 := replace2 c_minus c_slash [c_minus; c_one; c_slash] (replace2 c_plus c_slash [c_plus; c_one; c_slash] s) in
  let s_1 := match s_1 with [] => [c_one] | _ => s_1 end in
  let s_1 := if starts_with c_slash s_1 then c_one :: s_1 else s_1 in
  let s_1 := if ends_with c_plus s_1 then s_1 ++ [c_one] else s_1 in
  let s_1 := if ends_with c_minus s_1 then s_1 ++ [c_one] else s_1 in
  s_1.
Lemma coefficient_text_finish : forall l s, coefficient_text l s = finish (replace1 l [] s).
Proof. reflexivity. Qed.
Definition tail_ok (s : str) : Prop := s = [] \/ exists p, s = c_slash :: print_N (Npos p).
Lemma ends_with_last : forall c s x, is_digit x = true -> code c <> code x -> ends_with c (s ++ [x]) = false.
Proof. intros c s x Hx Hc. unfold ends_with. rewrite rev_app_distr. cbn. apply neq_code. congruence. Qed.
Lemma last_digit : forall s, forallb is_digit s = true -> s <> [] -> exists s' x, s = s' ++ [x] /\ is_digit x = true.
Proof.
  intros s H N. destruct (exists_last N) as (s' & x & ->). exists s', x. split; [reflexivity|]. rewrite all_in in H. apply H. apply in_or_app. right. left. reflexivity.
Qed.
Lemma tail_last : forall num rest, forallb is_digit num = true -> num <> [] -> tail_ok rest -> exists s' x, num ++ rest = s' ++ [x] /\ is_digit x = true.
Proof.
  intros num rest D N [->|(p & ->)].
  - rewrite app_nil_r. apply last_digit; assumption.
  - destruct (print_N_ok (N.pos p)) as (_ & D' & N'). destruct (last_digit _ D' N') as (s' & x & E & Hx). rewrite E.
    exists (num ++ c_slash :: s'), x. split; [rewrite <- app_assoc; reflexivity|exact Hx].
Qed.
Lemma tail_nosign : forall num rest, forallb is_digit num = true -> tail_ok rest -> forall y, In y (num ++ rest) -> y <> c_plus /\ y <> c_minus.
Proof.
  intros num rest D T y Hy. apply in_app_or in Hy. destruct Hy as [Hy|Hy].
  - rewrite all_in in D. destruct (plain_facts y (digit_plain y (D y Hy))) as (_ & P & M). auto.
  - destruct T as [->|(p & ->)]; [destruct Hy|]. destruct Hy as [<-|Hy]; [split; discriminate|].
    destruct (print_N_ok (N.pos p)) as (_ & D' & _). rewrite all_in in D'. destruct (plain_facts y (digit_plain y (D' y Hy))) as (_ & P & M). auto.
Qed.
Lemma finish_number : forall sg st num rest, sign_text sg st -> forallb is_digit num = true -> num <> [] -> tail_ok rest ->
  finish (st ++ num ++ rest) = st ++ num ++ rest.
Proof.
  intros sg st num rest Hst D N T. pose proof (tail_nosign num rest D T) as NS. destruct (tail_last num rest D N T) as (s' & x & E & Hx).
  assert (HD : exists c r, num ++ rest = c :: r /\ is_digit c = true).
  { destruct num as [|c r]; [contradiction|]. exists c, (r ++ rest). split; [reflexivity|]. cbn [forallb] in D. apply andb_true_iff in D. apply D. }
  destruct HD as (c & r & Ec & Hc).
  assert (R1 : forall a b rep, (a = c_plus \/ a = c_minus) -> replace2 a b rep (num ++ rest) = num ++ rest).
  { intros a b rep [->| ->]; apply replace2_absent; intros y Hy; apply NS; exact Hy. }
  assert (R2 : forall a rep z, (a = c_plus \/ a = c_minus) -> replace2 a c_slash rep (z :: num ++ rest) = z :: num ++ rest).
  { intros a rep z Ha. apply replace2_head.
    - destruct Ha as [->| ->]; intros y Hy; apply NS; exact Hy.
    - right. rewrite Ec. intros ->. discriminate. }
  assert (Code : (48 <= code x <= 57)%nat) by (apply digit_codes; exact Hx).
  assert (Codec : (48 <= code c <= 57)%nat) by (apply digit_codes; exact Hc).
  unfold finish.
  destruct Hst as [[-> _]|[[-> _]|[-> _]]]; cbn [app].
  - rewrite (R1 c_plus) by auto. rewrite (R1 c_minus) by auto. rewrite Ec. cbn [starts_with].
    rewrite (neq_code c c_slash) by (codes; lia). rewrite <- Ec, E.
    rewrite (ends_with_last c_plus) by (try exact Hx; codes; lia). rewrite (ends_with_last c_minus) by (try exact Hx; codes; lia). reflexivity.
  - rewrite (R2 c_plus) by auto. rewrite (R2 c_minus) by auto. cbn [starts_with]. change (Ascii.eqb c_plus c_slash) with false. cbn iota.
    rewrite E. rewrite !app_comm_cons. rewrite (ends_with_last c_plus) by (try exact Hx; codes; lia). rewrite (ends_with_last c_minus) by (try exact Hx; codes; lia). reflexivity.
  - rewrite (R2 c_plus) by auto. rewrite (R2 c_minus) by auto. cbn [starts_with]. change (Ascii.eqb c_minus c_slash) with false. cbn iota.
    rewrite E. rewrite !app_comm_cons. rewrite (ends_with_last c_plus) by (try exact Hx; codes; lia). rewrite (ends_with_last c_minus) by (try exact Hx; codes; lia). reflexivity.
Qed.
Lemma finish_slash : forall st p, st = [] \/ st = [c_plus] -> finish (st ++ c_slash :: print_N (Npos p)) = st ++ print_N 1 ++ c_slash :: print_N (Npos p).
Proof.
  intros st p Hst. destruct (print_N_ok (N.pos p)) as (_ & D & N). destruct (last_digit _ D N) as (s' & x & E & Hx).
  assert (Code : (48 <= code x <= 57)%nat) by (apply digit_codes; exact Hx).
  assert (NS : forall y, In y (print_N (N.pos p)) -> y <> c_plus /\ y <> c_minus).
  { intros y Hy. rewrite all_in in D. destruct (plain_facts y (digit_plain y (D y Hy))) as (_ & P & M). auto. }
  unfold finish. change (print_N 1) with [c_one]. destruct Hst as [->| ->]; cbn [app].
  - rewrite (replace2_absent c_plus) by (intros y [<-|Hy]; [discriminate|apply NS; exact Hy]).
    rewrite (replace2_absent c_minus) by (intros y [<-|Hy]; [discriminate|apply NS; exact Hy]).
    cbn [starts_with]. change (Ascii.eqb c_slash c_slash) with true. cbn iota. rewrite E, !app_comm_cons.
    rewrite (ends_with_last c_plus) by (try exact Hx; codes; lia). rewrite (ends_with_last c_minus) by (try exact Hx; codes; lia). reflexivity.
  - assert (R : replace2 c_plus c_slash [c_plus; c_one; c_slash] (c_plus :: c_slash :: print_N (N.pos p)) = c_plus :: c_one :: c_slash :: print_N (N.pos p)).
    { cbn [replace2]. change (Ascii.eqb c_plus c_plus) with true. change (Ascii.eqb c_slash c_slash) with true. cbn [andb app].
      rewrite replace2_absent by (intros y Hy; apply NS; exact Hy). reflexivity. }
    rewrite R. rewrite (replace2_absent c_minus) by (intros y [<-|[<-|[<-|Hy]]]; try discriminate; apply NS; exact Hy).
    cbn [starts_with]. change (Ascii.eqb c_plus c_slash) with false. cbn iota. rewrite E, !app_comm_cons.
    rewrite (ends_with_last c_plus) by (try exact Hx; codes; lia). rewrite (ends_with_last c_minus) by (try exact Hx; codes; lia). reflexivity.
Qed.
Lemma tail_head : forall rest, tail_ok rest -> match rest with c :: _ => is_digit c = false | [] => True end /\ forallb (fun c => negb (is_ws c)) rest = true.
Proof.
  intros rest [->|(p & ->)]; [split; [exact I|reflexivity]|]. split; [reflexivity|]. cbn [forallb]. destruct (print_N_ok (N.pos p)) as (_ & D & _).
  rewrite (digits_no_ws _ D). reflexivity.
Qed.
Lemma remove_label : forall l st num rest, is_letter l = true -> (st = [] \/ st = [c_plus] \/ st = [c_minus]) -> forallb is_digit num = true -> tail_ok rest ->
  replace1 l [] (st ++ (num ++ [l]) ++ rest) = st ++ num ++ rest.
Proof.
  intros l st num rest Hl Hst D T. rewrite !replace1_app.
  assert (E1 : replace1 l [] st = st).
  { apply replace1_absent. intros x Hx. apply letter_neq; [exact Hl|]. destruct Hst as [->|[->| ->]]; [destruct Hx|destruct Hx as [<-|[]]; codes; lia|destruct Hx as [<-|[]]; codes; lia]. }
  assert (E2 : replace1 l [] num = num) by (apply replace1_absent; intros x Hx; rewrite all_in in D; apply letter_digit; auto).
  assert (E3 : replace1 l [] rest = rest).
  { apply replace1_absent. intros x Hx. destruct T as [->|(p & ->)]; [destruct Hx|]. destruct Hx as [<-|Hx]; [apply letter_neq; [exact Hl|codes; lia]|].
    destruct (print_N_ok (N.pos p)) as (_ & D' & _). rewrite all_in in D'. apply letter_digit; auto. }
  assert (E4 : replace1 l [] [l] = []) by (unfold replace1; cbn [flat_map]; rewrite Ascii.eqb_refl; reflexivity).
  rewrite E1, E2, E3, E4, app_nil_r. reflexivity.
Qed.
(** a token of an item: its text, or its text with an explicit plus *)
Definition token (it : item) (t : str) : Prop := t = text it \/ t = signed_text it.
Lemma token_shape : forall it t, item_ok it -> token it t -> exists a b c st, shape it a b c /\ t = st ++ b ++ c /\ (st = a \/ (a = [] /\ st = [c_plus])).
Proof.
  intros it t Hok Ht. destruct (text_shape it Hok) as (a & b & c & S & E). destruct (shape_plain it a b c Hok S) as (P & N & A).
  exists a, b, c. destruct Ht as [->| ->].
  - exists a. rewrite E. auto.
  - unfold signed_text. rewrite E. destruct A as [->| ->].
    + cbn [app]. destruct (b ++ c) as [|x r] eqn:EB; [contradiction|]. cbn [starts_with]. cbn [forallb] in P. apply andb_true_iff in P. destruct P as [Px _].
      destruct (plain_facts x Px) as (_ & _ & M). apply Ascii.eqb_neq in M. rewrite M. exists [c_plus]. auto.
    + cbn [app starts_with]. change (Ascii.eqb c_minus c_minus) with true. cbn iota. exists [c_minus]. auto.
Qed.
Lemma token_ok : forall it t, item_ok it -> token it t -> term_ok t = true.
Proof.
  intros it t Hok Ht. destruct (token_shape it t Hok Ht) as (a & b & c & st & S & -> & D). destruct (shape_plain it a b c Hok S) as (P & N & A).
  assert (st = [] \/ st = [c_plus] \/ st = [c_minus]) as [->|[->| ->]] by (destruct D as [->|[_ ->]]; [destruct A as [->| ->]; auto|auto]).
  - cbn [app]. destruct (b ++ c) as [|x r]; [contradiction|]. cbn [term_ok]. cbn [forallb] in P. apply andb_true_iff in P. destruct P as [P1 P2]. rewrite P1, P2. reflexivity.
  - cbn [app term_ok]. rewrite P. reflexivity.
  - cbn [app term_ok]. rewrite P. reflexivity.
Qed.
Lemma sgn_sign : forall n st, (st = sgn_part n \/ (sgn_part n = [] /\ st = [c_plus])) -> sign_text (if (n <? 0)%Z then (-1) else 1)%Z st.
Proof.
  intros n st. unfold sgn_part, sign_text. destruct (n <? 0)%Z; intros [->|[H ->]]; try discriminate; tauto.
Qed.
Lemma sign_3 : forall sg st, sign_text sg st -> st = [] \/ st = [c_plus] \/ st = [c_minus].
Proof. unfold sign_text. tauto. Qed.
Lemma token_coef : forall q l t, item_ok (Coef q l) -> token (Coef q l) t -> parse_fraction (coefficient_text l t) = Some q.
Proof.
  intros q l t Hok Ht. destruct (token_shape _ t Hok Ht) as (a & b & c & st & S & -> & D). destruct Hok as (_ & Can & _ & Hl).
  rewrite coefficient_text_finish. inversion S; subst.
  - assert (E : replace1 l [] (st ++ [l] ++ []) = st).
    { destruct D as [->|[_ ->]].
      - exact (remove_label l [] [] [] Hl (or_introl eq_refl) eq_refl (or_introl eq_refl)).
      - exact (remove_label l [c_plus] [] [] Hl (or_intror (or_introl eq_refl)) eq_refl (or_introl eq_refl)). }
    rewrite E. destruct D as [->|[_ ->]]; reflexivity.
  - assert (E : replace1 l [] (st ++ [l] ++ []) = [c_minus]).
    { destruct D as [->|[X _]]; [|discriminate]. exact (remove_label l [c_minus] [] [] Hl (or_intror (or_intror eq_refl)) eq_refl (or_introl eq_refl)). }
    rewrite E. reflexivity.
  - pose proof (sgn_sign n st D) as SG. destruct (num_part_digits n) as [ND NN].
    rewrite (remove_label l st (num_part n) [] Hl (sign_3 _ _ SG) ND (or_introl eq_refl)).
    rewrite (finish_number _ st (num_part n) [] SG ND NN (or_introl eq_refl)). rewrite app_nil_r. unfold num_part.
    rewrite (parse_int _ st _ SG). rewrite sgn_abs. reflexivity.
  - assert (T : tail_ok (c_slash :: print_N (N.pos p))) by (right; exists p; reflexivity).
    assert (Hst : st = [] \/ st = [c_plus]) by (destruct D as [->|[_ ->]]; auto).
    assert (E : replace1 l [] (st ++ [l] ++ c_slash :: print_N (N.pos p)) = st ++ c_slash :: print_N (N.pos p)).
    { apply (remove_label l st [] _ Hl); [tauto|reflexivity|exact T]. }
    rewrite E, (finish_slash st p Hst). assert (SG : sign_text 1 st) by (unfold sign_text; tauto).
    rewrite (parse_quot 1 st 1 p SG). unfold canonical in Can. change (1 * Z.of_N 1)%Z with 1%Z. rewrite Can. reflexivity.
  - assert (T : tail_ok (c_slash :: print_N (N.pos p))) by (right; exists p; reflexivity).
    pose proof (sgn_sign n st D) as SG. destruct (num_part_digits n) as [ND NN].
    rewrite (remove_label l st (num_part n) _ Hl (sign_3 _ _ SG) ND T). rewrite (finish_number _ st (num_part n) _ SG ND NN T).
    unfold num_part. rewrite (parse_quot _ st _ p SG), sgn_abs. unfold canonical in Can. rewrite Can. reflexivity.
Qed.
Lemma token_off : forall q t, item_ok (Off q) -> token (Off q) t -> parse_fraction t = Some q.
Proof.
  intros q t Hok Ht. destruct (token_shape _ t Hok Ht) as (a & b & c & st & S & -> & D). destruct Hok as (Can & _). inversion S; subst.
  - pose proof (sgn_sign n st D) as SG. rewrite app_nil_r. unfold num_part. rewrite (parse_int _ st _ SG), sgn_abs. reflexivity.
  - pose proof (sgn_sign n st D) as SG. unfold num_part. rewrite (parse_quot _ st _ p SG), sgn_abs. unfold canonical in Can. rewrite Can. reflexivity.
Qed.
(** which labels a token contains *)
Definition item_label (it : item) (l : ascii) : bool := match it with Coef _ l' => Ascii.eqb l l' | Off _ => false end.
Lemma digits_no_letter : forall l s, is_letter l = true -> forallb is_digit s = true -> contains l s = false.
Proof. intros l s Hl D. apply contains_false. intros x Hx. rewrite all_in in D. apply letter_digit; auto. Qed.
Lemma tail_no_letter : forall l s, is_letter l = true -> tail_ok s -> contains l s = false.
Proof.
  intros l s Hl [->|(p & ->)]; [reflexivity|]. change (c_slash :: print_N (N.pos p)) with ([c_slash] ++ print_N (N.pos p)). rewrite contains_app.
  rewrite (digits_no_letter l (print_N (N.pos p)) Hl) by apply print_N_ok. rewrite orb_false_r. apply contains_false. intros x [<-|[]]. apply letter_neq; [exact Hl|codes; lia].
Qed.
Lemma sign_no_letter : forall l st, is_letter l = true -> (st = [] \/ st = [c_plus] \/ st = [c_minus]) -> contains l st = false.
Proof.
  intros l st Hl H. apply contains_false. intros x Hx. apply letter_neq; [exact Hl|].
  destruct H as [->|[->| ->]]; [destruct Hx|destruct Hx as [<-|[]]; codes; lia|destruct Hx as [<-|[]]; codes; lia].
Qed.
Lemma contains_one : forall l c, contains l [c] = Ascii.eqb l c.
Proof. intros. unfold contains. cbn. apply orb_false_r. Qed.
Lemma token_contains : forall it t l, item_ok it -> token it t -> is_letter l = true -> contains l t = item_label it l.
Proof.
  intros it t l Hok Ht Hl. destruct (token_shape _ t Hok Ht) as (a & b & c & st & S & -> & D). destruct (shape_plain it a b c Hok S) as (_ & _ & A).
  assert (Hst : st = [] \/ st = [c_plus] \/ st = [c_minus]) by (destruct D as [->|[_ ->]]; [destruct A as [->| ->]; auto|auto]).
  rewrite !contains_app, (sign_no_letter l st Hl Hst). 
  assert (T : forall p, contains l (c_slash :: print_N (N.pos p)) = false) by (intros p; apply tail_no_letter; [exact Hl|right; exists p; reflexivity]).
  assert (ND : forall n, contains l (num_part n) = false) by (intros n; apply digits_no_letter; [exact Hl|apply num_part_digits]).
  inversion S; subst; cbn [item_label]; rewrite ?contains_app, ?ND, ?T, ?contains_one; cbn [contains existsb orb]; rewrite ?orb_false_r; reflexivity.
Qed.
(** * a whole row *)
Definition coef_items (cl : list (Q * ascii)) : list item := flat_map (fun p => if (Qnum (fst p) =? 0)%Z then [] else [Coef (fst p) (snd p)]) cl.
Definition render (its : list item) : list str := match its with [] => [] | i :: r => text i :: map signed_text r end.
Lemma text_nonempty : forall it, item_ok it -> text it <> [].
Proof.
  intros it H. destruct (text_shape it H) as (a & b & c & S & E). destruct (shape_plain it a b c H S) as (_ & N & _). rewrite E.
  intros X. apply app_eq_nil in X. destruct X as [_ X]. contradiction.
Qed.
Lemma push_render : forall its it, item_ok it -> push_term (render its) (text it) = render (its ++ [it]).
Proof.
  intros its it H. pose proof (text_nonempty it H) as N. unfold push_term.
  assert (S : signed_text it = if starts_with c_minus (text it) then text it else c_plus :: text it) by reflexivity.
  destruct (text it) as [|x r] eqn:E; [contradiction|].
  destruct its as [|i its]; cbn [render app]; [rewrite E; destruct (starts_with c_minus (x :: r)); reflexivity|].
  rewrite map_app. cbn [map]. rewrite S. destruct (starts_with c_minus (x :: r)); reflexivity.
Qed.
Notation frac_ok := small_fraction.
Lemma fold_push : forall cl its, (forall q l, In (q, l) cl -> frac_ok q /\ is_letter l = true) ->
  fold_left (fun l cl => push_term l (transform_fraction_with_label_to_string (fst cl) (snd cl))) cl (render its) = render (its ++ coef_items cl).
Proof.
  induction cl as [|[q l] cl IH]; intros its H; [cbn; rewrite app_nil_r; reflexivity|].
  cbn [fold_left fst snd]. assert (H' : forall q l, In (q, l) cl -> frac_ok q /\ is_letter l = true) by (intros; apply H; right; assumption).
  unfold coef_items. cbn [flat_map fst snd]. fold (coef_items cl). destruct (Qnum q =? 0)%Z eqn:E.
  - assert (T : transform_fraction_with_label_to_string q l = []) by (unfold transform_fraction_with_label_to_string; rewrite E; reflexivity).
    rewrite T. cbn [push_term app]. apply IH. exact H'.
  - change (transform_fraction_with_label_to_string q l) with (text (Coef q l)). rewrite push_render.
    + rewrite IH by exact H'. rewrite <- app_assoc. reflexivity.
    + destruct (H q l (or_introl eq_refl)) as [[C B] L]. repeat split; try assumption. apply Z.eqb_neq. exact E.
Qed.
Definition row_items (cl : list (Q * ascii)) (off : Q) : list item :=
  match coef_items cl with [] => [Off off] | its => if (Qnum off =? 0)%Z then its else its ++ [Off off] end.
Lemma limit_id : forall q, frac_ok q -> limit_denominator 10 q = q.
Proof.
  intros q [C B]. unfold limit_denominator. unfold canonical in C. rewrite C. destruct (Z.leb_spec (Z.pos (Qden q)) 10); [reflexivity|lia].
Qed.
Lemma row_text : forall labels coeffs off, (forall q l, In (q, l) (combine coeffs labels) -> frac_ok q /\ is_letter l = true) -> frac_ok off ->
  transform_digits_to_string labels coeffs off = concat (render (row_items (combine coeffs labels) off)).
Proof.
  intros labels coeffs off H Ho. unfold transform_digits_to_string. rewrite (limit_id off Ho).
  pose proof (fold_push _ [] H) as FP. cbn [app render] in FP. rewrite FP. unfold row_items.
  assert (Io : item_ok (Off off)) by exact Ho.
  pose proof (push_render (coef_items (combine coeffs labels)) (Off off) Io) as P. unfold push_term in P. cbn [text] in P.
  pose proof (text_nonempty _ Io) as N. cbn [text] in N. destruct (print_Q off) as [|x r] eqn:E; [contradiction|].
  destruct (coef_items (combine coeffs labels)) as [|i its] eqn:EI.
  - cbn [render app] in *. cbn [text map]. rewrite E. cbn [orb]. destruct (Qnum off =? 0)%Z; reflexivity.
  - destruct (Qnum off =? 0)%Z; [reflexivity|]. rewrite <- P. cbn [render app orb]. destruct (starts_with c_minus (x :: r)); reflexivity.
Qed.
Lemma row_items_ok : forall cl off, (forall q l, In (q, l) cl -> frac_ok q /\ is_letter l = true) -> frac_ok off -> Forall item_ok (row_items cl off) /\ row_items cl off <> [].
Proof.
  intros cl off H Ho. assert (C : Forall item_ok (coef_items cl)).
  { apply Forall_forall. intros it Hin. unfold coef_items in Hin. apply in_flat_map in Hin. destruct Hin as ([q l] & Hp & Hi). cbn [fst snd] in Hi.
    destruct (Qnum q =? 0)%Z eqn:E; [destruct Hi|]. destruct Hi as [<-|[]]. destruct (H q l Hp) as [[C B] L]. repeat split; try assumption. apply Z.eqb_neq. exact E. }
  assert (Io : item_ok (Off off)) by exact Ho. unfold row_items. destruct (coef_items cl) as [|i its].
  - split; [constructor; [exact Io|constructor]|discriminate].
  - destruct (Qnum off =? 0)%Z; [split; [exact C|discriminate]|]. split; [|discriminate]. apply (Forall_app item_ok (i :: its)). split; [exact C|]. constructor; [exact Io|constructor].
Qed.
Lemma render_tokens : forall its, Forall2 token its (render its).
Proof.
  intros [|i r]; [constructor|]. cbn [render]. constructor; [left; reflexivity|]. induction r as [|j r IH]; cbn [map]; constructor; [right; reflexivity|exact IH].
Qed.
Lemma signed_signed : forall it, term_signed (signed_text it) = true.
Proof.
  intros it. unfold signed_text. destruct (starts_with c_minus (text it)) eqn:E; [|reflexivity]. destruct (text it) as [|x r]; [discriminate|].
  cbn in *. unfold sgn_char. rewrite E. apply orb_true_r.
Qed.
Lemma render_terms : forall its, Forall item_ok its -> its <> [] -> terms (concat (render its)) = render its.
Proof.
  intros [|i r] H N; [contradiction|]. inversion H; subst. apply terms_concat.
  - apply (token_ok i); [assumption|left; reflexivity].
  - apply forallb_forall. intros t Ht. apply in_map_iff in Ht. destruct Ht as (j & <- & Hj). apply (token_ok j); [|right; reflexivity].
    rewrite Forall_forall in H3. auto.
  - apply forallb_forall. intros t Ht. apply in_map_iff in Ht. destruct Ht as (j & <- & Hj). apply signed_signed.
Qed.
Definition add_coef (l : ascii) (r : Q) (it : item) : Q := match it with Coef q l' => if Ascii.eqb l l' then frac_add r q else r | Off _ => r end.
Definition add_off (r : Q) (it : item) : Q := match it with Coef _ _ => r | Off q => frac_add r q end.
Lemma fold_coefficient : forall l, is_letter l = true -> forall its ts r, Forall item_ok its -> Forall2 token its ts ->
  fold_left (fun res n => if contains l n then add_text res (coefficient_text l n) else res) ts (Some r) = Some (fold_left (add_coef l) its r).
Proof.
  intros l Hl. induction its as [|it its IH]; intros ts r Ho Ht; inversion Ht; subst; [reflexivity|]. inversion Ho; subst. cbn [fold_left].
  rewrite (token_contains it y l) by assumption. destruct it as [q lb|q]; cbn [item_label add_coef].
  - destruct (Ascii.eqb l lb) eqn:E; [|apply IH; assumption]. apply Ascii.eqb_eq in E. subst lb. unfold add_text.
    rewrite (token_coef q l y) by assumption. rewrite limit_id; [apply IH; assumption|].
    match goal with [ HI : item_ok (Coef q l) |- _ ] => destruct HI as (_ & C & B & _) end. split; assumption.
  - apply IH; assumption.
Qed.
Lemma fold_offset : forall labels, Forall (fun l => is_letter l = true) labels -> forall its ts r, Forall item_ok its ->
  (forall q l, In (Coef q l) its -> In l labels) -> Forall2 token its ts ->
  fold_left (fun res n => if forallb (fun l => negb (contains l n)) labels then add_text res n else res) ts (Some r) = Some (fold_left add_off its r).
Proof.
  intros labels Hl. induction its as [|it its IH]; intros ts r Ho Hin Ht; inversion Ht; subst; [reflexivity|]. inversion Ho; subst. cbn [fold_left].
  assert (Hin' : forall q l, In (Coef q l) its -> In l labels) by (intros; eapply Hin; right; eassumption).
  destruct it as [q lb|q]; cbn [add_off].
  - assert (Hlb : In lb labels) by (eapply Hin; left; reflexivity). assert (F : forallb (fun l => negb (contains l y)) labels = false).
    { apply not_true_iff_false. intros X. rewrite forallb_forall in X. specialize (X lb Hlb). rewrite (token_contains (Coef q lb) y lb) in X; [|assumption|assumption|].
      - cbn [item_label] in X. rewrite Ascii.eqb_refl in X. discriminate.
      - rewrite Forall_forall in Hl. auto. }
    rewrite F. apply IH; assumption.
  - assert (F : forallb (fun l => negb (contains l y)) labels = true).
    { apply forallb_forall. intros l Hin0. rewrite (token_contains (Off q) y l); [reflexivity|assumption|assumption|]. rewrite Forall_forall in Hl. auto. }
    rewrite F. unfold add_text. rewrite (token_off q y) by assumption. rewrite limit_id by (match goal with [ HI : item_ok (Off q) |- _ ] => exact HI end). apply IH; assumption.
Qed.
Lemma frac_add_0 : forall q, canonical q -> frac_add 0 q = q.
Proof. intros q C. unfold frac_add. unfold canonical in C. transitivity (Qred q); [apply Qred_complete; ring|exact C]. Qed.
Lemma canonical_zero : forall q, canonical q -> Qnum q = 0%Z -> q = 0.
Proof. intros [n p] C H. cbn in H. subst n. unfold canonical in C. rewrite <- C. reflexivity. Qed.
Lemma add_coef_absent : forall l cl r, ~ In l (map snd cl) -> fold_left (add_coef l) (coef_items cl) r = r.
Proof.
  intros l. induction cl as [|[q l'] cl IH]; intros r H; [reflexivity|]. cbn [map snd] in H. unfold coef_items. cbn [flat_map fst snd]. fold (coef_items cl).
  destruct (Qnum q =? 0)%Z; cbn [app fold_left].
  - apply IH. intros X. apply H. right. exact X.
  - cbn [add_coef]. assert (E : Ascii.eqb l l' = false) by (apply Ascii.eqb_neq; intros ->; apply H; left; reflexivity). rewrite E. apply IH. intros X. apply H. right. exact X.
Qed.
Lemma add_coef_present : forall cl q l, NoDup (map snd cl) -> In (q, l) cl -> (forall q l, In (q, l) cl -> canonical q) ->
  fold_left (add_coef l) (coef_items cl) 0 = q.
Proof.
  induction cl as [|[q' l'] cl IH]; intros q l ND Hin C; [destruct Hin|]. cbn [map snd] in ND. inversion ND; subst.
  unfold coef_items. cbn [flat_map fst snd]. fold (coef_items cl). destruct Hin as [E|Hin].
  - injection E as -> ->. pose proof (C q l (or_introl eq_refl)) as Cq. destruct (Z.eqb_spec (Qnum q) 0) as [E|E]; cbn [app fold_left].
    + rewrite add_coef_absent by assumption. symmetry. apply canonical_zero; assumption.
    + cbn [add_coef]. rewrite Ascii.eqb_refl, (frac_add_0 q Cq). apply add_coef_absent. assumption.
  - assert (l <> l') by (intros ->; apply H1; apply (in_map snd) in Hin; exact Hin).
    assert (R : fold_left (add_coef l) (coef_items cl) 0 = q) by (apply IH; [assumption|assumption|intros; eapply C; right; eassumption]).
    destruct (Qnum q' =? 0)%Z; cbn [app fold_left]; [exact R|]. cbn [add_coef]. rewrite (proj2 (Ascii.eqb_neq l l')) by assumption. exact R.
Qed.
Lemma row_coef : forall cl off q l, NoDup (map snd cl) -> In (q, l) cl -> (forall q l, In (q, l) cl -> canonical q) -> fold_left (add_coef l) (row_items cl off) 0 = q.
Proof.
  intros cl off q l ND Hin C. pose proof (add_coef_present cl q l ND Hin C) as P. unfold row_items. destruct (coef_items cl) as [|i its]; [exact P|].
  destruct (Qnum off =? 0)%Z; [exact P|]. rewrite fold_left_app, P. reflexivity.
Qed.
Lemma add_off_coefs : forall cl r, fold_left add_off (coef_items cl) r = r.
Proof.
  induction cl as [|[q l] cl IH]; intros r; [reflexivity|]. unfold coef_items. cbn [flat_map fst snd]. fold (coef_items cl). destruct (Qnum q =? 0)%Z; cbn [app fold_left add_off]; apply IH.
Qed.
Lemma row_off : forall cl off, canonical off -> fold_left add_off (row_items cl off) 0 = off.
Proof.
  intros cl off C. pose proof (add_off_coefs cl 0) as P. unfold row_items. destruct (coef_items cl) as [|i its].
  - cbn. apply frac_add_0. exact C.
  - destruct (Z.eqb_spec (Qnum off) 0) as [E|E].
    + rewrite P. symmetry. apply canonical_zero; assumption.
    + rewrite fold_left_app, P. cbn. apply frac_add_0. exact C.
Qed.
Lemma opt_list_all : forall (A B : Type) (f : A -> option B) l m, Forall2 (fun a b => f a = Some b) l m -> opt_list (map f l) = Some m.
Proof. intros A B f l m H. induction H; [reflexivity|]. cbn [map opt_list]. rewrite H, IHForall2. reflexivity. Qed.
Lemma F2_impl : forall (A B : Type) (P Q : A -> B -> Prop), (forall a b, P a b -> Q a b) -> forall l m, Forall2 P l m -> Forall2 Q l m.
Proof. intros A B P Q H l m F. induction F; constructor; auto. Qed.
Lemma combine_in : forall (A B : Type) (l : list A) (m : list B), length l = length m -> Forall2 (fun b a => In (a, b) (combine l m)) m l /\ map snd (combine l m) = m.
Proof.
  induction l as [|a l IH]; intros [|b m] H; try discriminate; [split; [constructor|reflexivity]|]. cbn [combine map snd].
  injection H as H. destruct (IH m H) as [F E]. rewrite E. split; [|reflexivity]. constructor; [left; reflexivity|].
  clear -F. assert (G : forall l', Forall2 (fun b a => In (a, b) (combine l m)) l' l -> Forall2 (fun b0 a0 => In (a0, b0) ((a, b) :: combine l m)) l' l).
  { intros l' H. eapply F2_impl; [|exact H]. intros; right; assumption. }
  apply G. exact F.
Qed.
Theorem row_round_trip : forall labels coeffs off, NoDup labels -> Forall (fun l => is_letter l = true) labels -> length coeffs = length labels ->
  Forall frac_ok coeffs -> frac_ok off ->
  transform_string_to_digits (transform_digits_to_string labels coeffs off) labels = Some (coeffs, off).
Proof.
  intros labels coeffs off ND HL EL HC Ho. set (cl := combine coeffs labels).
  assert (H : forall q l, In (q, l) cl -> frac_ok q /\ is_letter l = true).
  { intros q l Hin. unfold cl in Hin. rewrite Forall_forall in HC, HL. split; [apply HC; eapply in_combine_l; exact Hin|apply HL; eapply in_combine_r; exact Hin]. }
  destruct (combine_in _ _ coeffs labels EL) as [F ES]. fold cl in F, ES.
  destruct (row_items_ok cl off H Ho) as [IO IN]. unfold transform_string_to_digits. rewrite (row_text labels coeffs off H Ho). fold cl.
  rewrite (render_terms _ IO IN). pose proof (render_tokens (row_items cl off)) as T.
  rewrite (opt_list_all _ _ _ labels coeffs).
  - unfold offset_of. rewrite (fold_offset labels HL (row_items cl off) _ 0 IO); [rewrite row_off by apply Ho; reflexivity| |exact T].
    intros q l Hin. assert (Hc : In (Coef q l) (coef_items cl)).
    { unfold row_items in Hin. destruct (coef_items cl) as [|i its]; [destruct Hin as [X|[]]; discriminate|]. destruct (Qnum off =? 0)%Z; [exact Hin|].
      apply (in_app_or (i :: its)) in Hin. destruct Hin as [Hin|[X|[]]]; [exact Hin|discriminate]. }
    unfold coef_items in Hc. apply in_flat_map in Hc. destruct Hc as ([q' l'] & Hp & Hi). cbn [fst snd] in Hi. destruct (Qnum q' =? 0)%Z; [destruct Hi|].
    destruct Hi as [X|[]]. injection X as -> ->. unfold cl in Hp. eapply in_combine_r; exact Hp.
  - assert (G : forall l q, In (q, l) cl -> coefficient (render (row_items cl off)) l = Some q).
    { intros l q Hin. unfold coefficient. rewrite (fold_coefficient l) with (its := row_items cl off); [|apply (H q l Hin)|exact IO|exact T]. f_equal.
      apply row_coef; [rewrite ES; exact ND|exact Hin|]. intros q0 l0 H0. apply (H q0 l0 H0). }
    eapply F2_impl; [|exact F]. intros l q Hin. apply G. exact Hin.
Qed.
(** * operations *)
Definition safe (c : ascii) : bool := (negb (is_ws c) && negb (Ascii.eqb c c_comma) && negb (Ascii.eqb c c_lpar) && negb (Ascii.eqb c c_rpar))%bool.
Lemma safe_of_code : forall c, (33 <= code c)%nat -> code c <> 44%nat -> code c <> 40%nat -> code c <> 41%nat -> safe c = true.
Proof. intros c H1 H2 H3 H4. unfold safe. rewrite ws_false by exact H1. rewrite !neq_code by (codes; assumption). reflexivity. Qed.
Lemma digit_safe : forall s, forallb is_digit s = true -> forallb safe s = true.
Proof. intros s H. rewrite all_in in *. intros c Hc. apply H, digit_codes in Hc. apply safe_of_code; lia. Qed.
Lemma text_safe : forall it, item_ok it -> forallb safe (text it) = true.
Proof.
  intros it Hok. destruct (text_shape it Hok) as (a & b & c & S & ->). destruct (shape_plain it a b c Hok S) as (_ & _ & A).
  assert (Sa : forallb safe a = true) by (destruct A as [->| ->]; reflexivity).
  assert (PD : forall p, forallb safe (c_slash :: print_N (N.pos p)) = true) by (intros p; cbn [forallb]; rewrite digit_safe by apply print_N_ok; reflexivity).
  assert (ND : forall n, forallb safe (num_part n) = true) by (intros n; apply digit_safe, num_part_digits).
  rewrite !forallb_app, Sa. inversion S; subst; rewrite ?forallb_app, ?ND, ?PD; cbn [forallb andb]; try reflexivity;
  destruct Hok as (_ & _ & _ & Hl); apply letter_codes in Hl; rewrite safe_of_code by lia; reflexivity.
Qed.
Lemma row_safe : forall labels coeffs off, Forall (fun l => is_letter l = true) labels -> Forall frac_ok coeffs -> frac_ok off ->
  forallb safe (transform_digits_to_string labels coeffs off) = true.
Proof.
  intros labels coeffs off HL HC Ho. set (cl := combine coeffs labels).
  assert (H : forall q l, In (q, l) cl -> frac_ok q /\ is_letter l = true).
  { intros q l Hin. unfold cl in Hin. rewrite Forall_forall in HC, HL. split; [apply HC; eapply in_combine_l; exact Hin|apply HL; eapply in_combine_r; exact Hin]. }
  rewrite (row_text labels coeffs off H Ho). fold cl. destruct (row_items_ok cl off H Ho) as [IO _].
  apply all_in. intros c Hc. apply in_concat in Hc. destruct Hc as (t & Ht & Hc).
  assert (X : forall it, In it (row_items cl off) -> forallb safe (text it) = true) by (intros it Hi; apply text_safe; rewrite Forall_forall in IO; auto).
  assert (Y : exists it, In it (row_items cl off) /\ (t = text it \/ t = signed_text it)).
  { destruct (row_items cl off) as [|i r]; [destruct Ht|]. cbn [render] in Ht. destruct Ht as [<-|Ht]; [exists i; split; [left; reflexivity|left; reflexivity]|].
    apply in_map_iff in Ht. destruct Ht as (j & <- & Hj). exists j. split; [right; exact Hj|right; reflexivity]. }
  destruct Y as (it & Hi & [->| ->]); specialize (X it Hi); rewrite all_in in X; [apply X; exact Hc|].
  unfold signed_text in Hc. destruct (starts_with c_minus (text it)); [apply X; exact Hc|]. destruct Hc as [<-|Hc]; [reflexivity|apply X; exact Hc].
Qed.
Lemma split_on_safe : forall s cur rest, forallb safe s = true -> split_on c_comma cur (s ++ rest) = split_on c_comma (rev s ++ cur) rest.
Proof.
  induction s as [|c s IH]; intros cur rest H; [reflexivity|]. cbn [forallb] in H. apply andb_true_iff in H. destruct H as [Hc Hs].
  cbn [app split_on]. assert (E : Ascii.eqb c c_comma = false).
  { unfold safe in Hc. destruct (Ascii.eqb c c_comma); [|reflexivity]. cbn in Hc. rewrite !andb_false_r in Hc. discriminate. }
  rewrite E, IH by exact Hs. cbn [rev]. rewrite <- app_assoc. reflexivity.
Qed.
Lemma split_join : forall l, l <> [] -> Forall (fun s => forallb safe s = true) l -> split_on c_comma [] (join c_comma l) = l.
Proof.
  induction l as [|s l IH]; intros N H; [contradiction|]. inversion H; subst. destruct l as [|t l].
  - cbn [join]. rewrite <- (app_nil_r s) at 1. rewrite split_on_safe by assumption. cbn [split_on]. rewrite app_nil_r, rev_involutive. reflexivity.
  - change (join c_comma (s :: t :: l)) with (s ++ c_comma :: join c_comma (t :: l)). rewrite split_on_safe by assumption.
    cbn [split_on]. change (Ascii.eqb c_comma c_comma) with true. cbn iota. rewrite app_nil_r, rev_involutive, IH; [reflexivity|discriminate|assumption].
Qed.
Lemma join_chars : forall l c, In c (join c_comma l) -> c = c_comma \/ exists s, In s l /\ In c s.
Proof.
  induction l as [|s l IH]; intros c H; [destruct H|]. destruct l as [|t l].
  - cbn [join] in H. right. exists s. split; [left; reflexivity|exact H].
  - change (join c_comma (s :: t :: l)) with (s ++ c_comma :: join c_comma (t :: l)) in H. apply in_app_or in H. destruct H as [H|[H|H]].
    + right. exists s. split; [left; reflexivity|exact H].
    + left. symmetry. exact H.
    + destruct (IH c H) as [E|(u & Hu & Hc)]; [left; exact E|]. right. exists u. split; [right; exact Hu|exact Hc].
Qed.
Lemma filter_id : forall (p : ascii -> bool) s, forallb p s = true -> filter p s = s.
Proof. induction s as [|c s IH]; intros H; [reflexivity|]. cbn in *. apply andb_true_iff in H. destruct H as [H1 H2]. rewrite H1, IH by exact H2. reflexivity. Qed.
Theorem operation_round_trip : forall labels r b, NoDup labels -> Forall (fun l => is_letter l = true) labels ->
  r <> [] -> length r = length b -> Forall (fun row => length row = length labels /\ Forall frac_ok row) r -> Forall frac_ok b ->
  transform_string_to_r_b (transform_r_b_to_string r b labels) labels = Some (r, b).
Proof.
  intros labels r b ND HL NE EL HR HB. set (rows := map (fun rb => transform_digits_to_string labels (fst rb) (snd rb)) (combine r b)).
  assert (P : forall row off, In (row, off) (combine r b) -> length row = length labels /\ Forall frac_ok row /\ frac_ok off).
  { intros row off Hin. rewrite Forall_forall in HR, HB. destruct (HR row (in_combine_l _ _ _ _ Hin)) as [L F]. split; [exact L|]. split; [exact F|].
    apply HB. eapply in_combine_r. exact Hin. }
  assert (SF : Forall (fun s => forallb safe s = true) rows).
  { apply Forall_forall. intros s Hs. unfold rows in Hs. apply in_map_iff in Hs. destruct Hs as ([row off] & <- & Hin). destruct (P row off Hin) as (_ & F & Fo).
    cbn [fst snd]. apply row_safe; assumption. }
  assert (RN : rows <> []) by (unfold rows; destruct r as [|x r]; [contradiction|]; destruct b as [|y b]; [discriminate|]; discriminate).
  assert (CH : forall c, In c (join c_comma rows) -> c = c_comma \/ safe c = true).
  { intros c Hc. destruct (join_chars rows c Hc) as [E|(s & Hs & Hc')]; [left; exact E|]. right. rewrite Forall_forall in SF. specialize (SF s Hs). rewrite all_in in SF. auto. }
  assert (CF : forall (p : ascii -> bool), p c_comma = true -> (forall c, safe c = true -> p c = true) -> forallb p (join c_comma rows) = true).
  { intros p H1 H2. apply all_in. intros c Hc. destruct (CH c Hc) as [->|S]; auto. }
  unfold transform_string_to_r_b, transform_r_b_to_string. fold rows.
  rewrite filter_id.
  2:{ apply CF; [reflexivity|]. intros c S. unfold safe in S. destruct (is_ws c); [discriminate|reflexivity]. }
  rewrite lstrip_id.
  2:{ apply CF; [reflexivity|]. intros c S. unfold safe in S. rewrite Ascii.eqb_sym. destruct (Ascii.eqb c c_lpar); [|reflexivity]. cbn in S. rewrite !andb_false_r in S. discriminate. }
  rewrite rstrip_id.
  2:{ apply CF; [reflexivity|]. intros c S. unfold safe in S. rewrite Ascii.eqb_sym. destruct (Ascii.eqb c c_rpar); [|reflexivity]. cbn in S. rewrite !andb_false_r in S. discriminate. }
  rewrite (split_join rows RN SF).
  rewrite (opt_list_all _ _ _ rows (combine r b)).
  - f_equal. clear - EL. revert b EL. induction r as [|x r IH]; intros [|y b] H; try discriminate; [reflexivity|]. injection H as H. specialize (IH b H). injection IH as E1 E2.
    cbn [combine map fst snd]. rewrite E1, E2. reflexivity.
  - unfold rows. assert (G : forall l, (forall x, In x l -> In x (combine r b)) ->
      Forall2 (fun a p => transform_string_to_digits a labels = Some p) (map (fun rb => transform_digits_to_string labels (fst rb) (snd rb)) l) l).
    { induction l as [|[row off] l IH]; intros HI; cbn [map fst snd]; [constructor|]. constructor; [|apply IH; intros; apply HI; right; assumption].
      destruct (P row off (HI _ (or_introl eq_refl))) as (L & F & Fo). apply row_round_trip; assumption. }
    apply G. auto.
Qed.
(** * expressions with terms in any order *)
Definition as_item (t : Q * option ascii) : item := match snd t with Some l => Coef (fst t) l | None => Off (fst t) end.
Definition term_string (t : Q * option ascii) : str := match snd t with Some l => transform_fraction_with_label_to_string (fst t) l | None => print_Q (fst t) end.
Lemma text_as_item : forall t, text (as_item t) = term_string t.
Proof. intros [q [l|]]; reflexivity. Qed.
Definition good_term (labels : list ascii) (t : Q * option ascii) : Prop :=
  small_fraction (fst t) /\ match snd t with Some l => ~ (fst t == 0)%Q /\ In l labels | None => True end.
Lemma frac_add_eq : forall a b, (frac_add a b == a + b)%Q.
Proof. intros. unfold frac_add. apply Qred_correct. Qed.
Lemma total_coef : forall ts l r, (fold_left (add_coef l) (map as_item ts) r == r + total (Some l) ts)%Q.
Proof.
  induction ts as [|[q [a|]] ts IH]; intros l r; cbn [map as_item snd fst fold_left add_coef total fold_right].
  - ring.
  - rewrite IH. rewrite Ascii.eqb_sym. fold (total (Some l) ts). destruct (Ascii.eqb a l); [rewrite frac_add_eq; ring|reflexivity].
  - rewrite IH. reflexivity.
Qed.
Lemma total_off : forall ts r, (fold_left add_off (map as_item ts) r == r + total None ts)%Q.
Proof.
  induction ts as [|[q [a|]] ts IH]; intros r; cbn [map as_item snd fst fold_left add_off total fold_right].
  - ring.
  - rewrite IH. reflexivity.
  - rewrite IH, frac_add_eq. fold (total None ts). ring.
Qed.
Lemma as_item_ok : forall labels t, Forall (fun l => is_letter l = true) labels -> good_term labels t -> item_ok (as_item t).
Proof.
  intros labels [[n p] [l|]] HL [[C B] H]; cbn [as_item snd fst item_ok] in *; [|split; assumption].
  destruct H as [N I]. repeat split; try assumption.
  - cbn. intros ->. apply N. reflexivity.
  - rewrite Forall_forall in HL. auto.
Qed.
Lemma any_order : forall labels t ts, Forall (fun l => is_letter l = true) labels -> Forall (good_term labels) (t :: ts) ->
  exists c o, transform_string_to_digits (term_string t ++ concat (map (fun u => if starts_with c_minus (term_string u) then term_string u else c_plus :: term_string u) ts)) labels = Some (c, o) /\
    Forall2 (fun l q => (q == total (Some l) (t :: ts))%Q) labels c /\ (o == total None (t :: ts))%Q.
Proof.
  intros labels t ts HL HG. set (its := map as_item (t :: ts)).
  assert (IO : Forall item_ok its).
  { apply Forall_forall. intros it Hi. apply in_map_iff in Hi. destruct Hi as (u & <- & Hu). rewrite Forall_forall in HG. eapply as_item_ok; [exact HL|auto]. }
  assert (E : term_string t ++ concat (map (fun u => if starts_with c_minus (term_string u) then term_string u else c_plus :: term_string u) ts) = concat (render its)).
  { unfold its. cbn [map render concat]. rewrite text_as_item. f_equal. f_equal. rewrite map_map. apply map_ext. intros u. unfold signed_text. rewrite text_as_item. reflexivity. }
  rewrite E. unfold transform_string_to_digits. rewrite (render_terms its IO) by discriminate. pose proof (render_tokens its) as T.
  exists (map (fun l => fold_left (add_coef l) its 0) labels), (fold_left add_off its 0). split; [|split].
  - rewrite (opt_list_all _ _ _ labels (map (fun l => fold_left (add_coef l) its 0) labels)).
    + unfold offset_of. rewrite (fold_offset labels HL its _ 0 IO); [reflexivity| |exact T].
      intros q l Hin. apply in_map_iff in Hin. destruct Hin as ([q' [l'|]] & X & Hu); [|discriminate]. injection X as -> ->.
      rewrite Forall_forall in HG. destruct (HG _ Hu) as [_ [_ I]]. exact I.
    + clear - HL IO T. induction labels as [|l labels IH]; cbn [map]; constructor; inversion HL; subst; [|apply IH; assumption].
      unfold coefficient. rewrite (fold_coefficient l) with (its := its); [reflexivity|assumption|exact IO|exact T].
  - clear - ts. induction labels as [|l labels IH]; cbn [map]; constructor; [|exact IH]. unfold its. rewrite total_coef. ring.
  - unfold its. rewrite total_off. ring.
Qed.
