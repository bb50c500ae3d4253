(** Lemmas: which attribute values survive being written and read. *)
From Coq Require Import ZArith QArith Qabs List String Ascii Bool Arith Lia Lqa.
From Verif Require Import Spec.Objects Spec.ItemSpec Spec.StarSpec Spec.CifSpec Model.Strings Model.Numbers Model.Items Model.CifText Proofs.StringsP Proofs.NumbersP Proofs.ItemsP Proofs.CifTextP Proofs.CifItemP.
Import ListNotations.
Open Scope string_scope.
Open Scope list_scope.

Lemma st_tx : forall s, st (tx s) = s.
Proof. apply string_of_list_ascii_of_string. Qed.
Lemma tx_st : forall s, tx (st s) = s.
Proof. apply list_ascii_of_string_of_list_ascii. Qed.
Lemma word_no_newline : forall s, word s -> has_newline s = false.
Proof.
  intros s W. apply not_true_iff_false. intro H. apply existsb_exists in H as (c & IN & N). specialize (W c IN).
  unfold is_newline, blank in *. apply Nat.eqb_eq in N. rewrite N in W. discriminate.
Qed.
Lemma word_no_space : forall s, word s -> has_space s = false.
Proof.
  intros s W. apply not_true_iff_false. intro H. apply existsb_exists in H as (c & IN & N). apply Ascii.eqb_eq in N. subst c. specialize (W _ IN). discriminate.
Qed.
Lemma no_newline_in : forall s, (forall c, In c s -> is_newline c = false) -> has_newline s = false.
Proof. intros s H. apply not_true_iff_false. intro X. apply existsb_exists in X as (c & IN & N). rewrite (H c IN) in N. discriminate. Qed.
Definition flag_ref (d : dict) (k : string) : bool :=
  match dget d (k ++ "_refinement"), dget d (k ++ "_sigma") with Some f, Some _ => truthy f | _, _ => false end.
Lemma flag_ref_iff : forall d k, flag_ref d k = true <-> refined d k.
Proof.
  intros d k. unfold flag_ref, refined. split.
  - destruct (dget d (k ++ "_refinement")) as [f|]; [|discriminate]. destruct (dget d (k ++ "_sigma")) as [s|]; [|discriminate]. intros T. exists f, s. auto.
  - intros (f & s & F & T & S). now rewrite F, S.
Qed.
Lemma flag_ref_false : forall d k, ~ refined d k -> flag_ref d k = false.
Proof. intros d k H. apply not_true_iff_false. now rewrite flag_ref_iff. Qed.

(** A text attribute. *)
Lemma string_survives : forall c d k s, In k (ATTR_NAMES (BASE c)) -> ~ In k (ATTR_REF (BASE c)) -> dget d k = Some (VStr s) -> ~ refined d k ->
  format_of (D_FORMATS c) k = None -> accepts c k (VStr s) (VStr s) -> bare_value (tx s) \/ (has_space (tx s) = true /\ quotable_value (tx s)) ->
  writable_attr c d k (VStr s) /\ survives_attr c d k (VStr s).
Proof.
  intros c d k s IN NR D RF FO AC H.
  assert (AS : as_string c d k = Some (tx s)).
  { unfold as_string. rewrite D. fold (flag_ref d k). rewrite flag_ref_false by exact RF. now rewrite FO. }
  assert (NN : has_newline (tx s) = false).
  { destruct H as [(W & _)|(_ & Q & _)]; [now apply word_no_newline|now apply no_newline_in]. }
  split.
  - exists (tx s). split; [reflexivity|]. rewrite NN. destruct H as [B|(SP & Q)].
    + rewrite word_no_space by exact (proj1 B). exists (tx s). auto.
    + now rewrite SP.
  - intros t T. unfold reads_back. apply isin_false in NR. rewrite NR.
    assert (t = tx s).
    { unfold shown in T. rewrite D in T. cbn [py_text] in T. rewrite NN, AS in T. destruct (has_space (tx s)); congruence. }
    subst t. rewrite st_tx. exact AC.
Qed.
(** An attribute that is not defined but was set to None. *)
Lemma none_survives : forall c d k, In k (ATTR_NAMES (BASE c)) -> dget d k = Some VNone -> ~ refined d k -> writable_attr c d k VNone /\ survives_attr c d k VNone.
Proof.
  intros c d k IN D RF. assert (AS : as_string c d k = Some (tx ".")) by (unfold as_string; now rewrite D).
  assert (B : bare_value (tx ".")). { repeat split; try discriminate. intros x [<-|[]]; reflexivity. }
  split.
  - exists (tx "None"). split; [reflexivity|]. cbn [has_newline has_space]. exists (tx "."). auto.
  - intros t T. unfold shown in T. rewrite D in T. cbn [py_text] in T. change (has_newline (tx "None")) with false in T. change (has_space (tx "None")) with false in T.
    cbv iota in T. rewrite AS in T. injection T as <-. unfold reads_back. destruct (isin k (ATTR_REF (BASE c))).
    + exists None. split; [reflexivity|]. right. split; [exact RF|]. exists []. reflexivity.
    + reflexivity.
Qed.
(** A number: the text in the file is [t]. *)
Lemma number_shown : forall c d k x t, dget d k = Some (VNum x) -> word (REPR c k x) -> as_string c d k = Some t -> bare_value t ->
  writable_attr c d k (VNum x) /\ forall u, shown c d k = Some u -> u = t.
Proof.
  intros c d k x t D W AS B. split.
  - exists (REPR c k x). split; [reflexivity|]. rewrite word_no_newline, word_no_space by exact W. exists t. auto.
  - intros u U. unfold shown in U. rewrite D in U. cbn [py_text] in U. rewrite word_no_newline, word_no_space in U by exact W. congruence.
Qed.
(** Refinable parameter, not refined, written without a format. *)
Lemma free_survives : forall c d k x, In k (ATTR_REF (BASE c)) -> dget d k = Some (VNum x) -> ~ refined d k -> format_of (D_FORMATS c) k = None ->
  bare_value (REPR c k x) -> (forall a, In a (REPR c k x) -> a <> "("%char /\ a <> ")"%char) -> REPR c k x <> [c_dot] -> parse_float (REPR c k x) = Some x ->
  accepts c k (VNum x) (VNum x) -> writable_attr c d k (VNum x) /\ survives_attr c d k (VNum x).
Proof.
  intros c d k x R D RF FO B NP ND PF AC.
  assert (AS : as_string c d k = Some (REPR c k x)).
  { unfold as_string. rewrite D. fold (flag_ref d k). rewrite flag_ref_false by exact RF. now rewrite FO. }
  destruct (number_shown c d k x _ D (proj1 B) AS B) as (W & U). split; [exact W|]. intros t T. apply U in T. subst t.
  unfold reads_back. apply isin_iff in R. rewrite R. exists (Some x). split; [exact AC|]. right. split; [exact RF|].
  exists []. exact (no_error_round_trip (REPR c k) x [] NP PF).
Qed.
(** Numbers with a fixed number of decimals. *)
Lemma decimal_text_read' : forall neg N d, (0 < d)%nat -> parse_float (decimal_text neg N d) = Some (scaled (if neg then - Z.abs N else Z.abs N) d).
Proof.
  intros neg N d Hd. unfold decimal_text. pose proof (pow10_pos d) as PP.
  destruct (print_N_ok (Z.to_N (Z.abs N / pow10 d))) as (V1 & D1 & N1). destruct (print_N_ok (Z.to_N (Z.abs N mod pow10 d))) as (V2 & D2 & N2).
  pose proof (Z.mod_pos_bound (Z.abs N) (pow10 d) PP) as MB.
  assert (L : List.length (rjust0 d (print_N (Z.to_N (Z.abs N mod pow10 d)))) = d) by (apply rjust_length, print_length; [exact Hd|apply N_of_Z_lt; exact MB]).
  assert (SG : sign_text (if neg then (-1) else 1)%Z (if neg then [c_minus] else [])) by (unfold sign_text; destruct neg; tauto).
  rewrite (parse_float_decimal _ _ _ _ SG D1 N1 (rjust_digits _ _ D2)). rewrite L. f_equal. f_equal.
  rewrite num_value_app', rjust_value, L, V1, V2. rewrite N2Z.inj_add, N2Z.inj_mul, N2Z.inj_pow, nat_N_Z.
  rewrite !Z2N.id by (try lia; apply Z.div_pos; lia). change (Z.of_N 10) with 10%Z. fold (pow10 d).
  assert (EQ : (Z.abs N / pow10 d * pow10 d + Z.abs N mod pow10 d = Z.abs N)%Z) by (pose proof (Z.div_mod (Z.abs N) (pow10 d)); lia).
  rewrite EQ. destruct neg; lia.
Qed.
Lemma round_neg : forall q, (q <= 0)%Q -> (round_half_even q <= 0)%Z.
Proof. intros q H. apply (round_le q 0). exact H. Qed.
Lemma fixed_text_read : forall n x, (0 < n)%nat -> parse_float (fixed_text n x) = Some (decimal (round_half_even (x * inject_Z (pow10 n))) n).
Proof.
  intros n x H. unfold fixed_text. rewrite decimal_text_read' by exact H. unfold decimal, scaled. f_equal. f_equal. f_equal.
  pose proof (pow10_pos n) as PP. assert (PQ : (0 < inject_Z (pow10 n))%Q) by (change 0%Q with (inject_Z 0); rewrite <- Zlt_Qlt; exact PP).
  destruct (Qle_bool 0 x) eqn:E; cbn [negb].
  - apply Qle_bool_iff in E. apply Z.abs_eq, round_nonneg. apply Qmult_le_0_compat; lra.
  - assert (L : (x < 0)%Q). { apply not_true_iff_false in E. rewrite Qle_bool_iff in E. lra. }
    rewrite Z.abs_neq; [lia|]. apply round_neg. assert (P : (0 <= (- x) * inject_Z (pow10 n))%Q) by (apply Qmult_le_0_compat; lra). lra.
Qed.
Lemma round_integer : forall q (z : Z), (q == inject_Z z)%Q -> round_half_even q = z.
Proof.
  intros q z H. pose proof (round_bounds q) as B. set (r := round_half_even q) in *. apply Qabs_Qle_condition in B. rewrite H in B.
  assert (B' : (-(1 # 2) <= inject_Z r - inject_Z z <= 1 # 2)%Q) by exact B. unfold inject_Z, Qle, Qminus, Qplus, Qopp in B'. cbn in B'. lia.
Qed.
Lemma decimal_scaled : forall N n, (decimal N n * inject_Z (pow10 n) == inject_Z N)%Q.
Proof.
  intros N n. unfold decimal. rewrite Qred_correct. unfold Qeq, Qmult, inject_Z. cbn [Qnum Qden]. rewrite Pos.mul_1_r, of_nat_pow. ring.
Qed.
Lemma fixed_exact : forall n N, (0 < n)%nat -> parse_float (fixed_text n (decimal N n)) = Some (decimal N n).
Proof. intros n N H. rewrite fixed_text_read by exact H. now rewrite (round_integer _ N (decimal_scaled N n)). Qed.
Lemma fixed_close : forall n x, (0 < n)%nat -> exists y, parse_float (fixed_text n x) = Some y /\ (Qabs (y - x) * inject_Z (pow10 n) <= 1 # 2)%Q.
Proof.
  intros n x H. eexists. split; [apply fixed_text_read; exact H|]. pose proof (scaled_close x n) as S. unfold decimal.
  assert (E : (Qabs (Qred (round_half_even (x * inject_Z (pow10 n)) # Pos.of_nat (Nat.pow 10 n)) - x) == Qabs ((round_half_even (x * inject_Z (pow10 n)) # Pos.of_nat (Nat.pow 10 n)) - x))%Q) by (rewrite Qred_correct; reflexivity).
  rewrite E. exact S.
Qed.
(** Digits, signs and points make a value. *)
Definition num_char (c : ascii) : bool := is_digit c || Ascii.eqb c c_dot || Ascii.eqb c c_minus.
Lemma digit_ok : forall c, num_char c = true -> blank c = false /\ c <> "_"%char /\ c <> "#"%char /\ c <> "'"%char /\ c <> """"%char /\ lower_char c = c /\
  c <> "l"%char /\ c <> "d"%char /\ c <> "s"%char /\ c <> "g"%char /\ c <> "("%char /\ c <> ")"%char.
Proof.
  intros c H. destruct c as [[|] [|] [|] [|] [|] [|] [|] [|]]; vm_compute in H; try discriminate H; repeat split; try reflexivity; discriminate.
Qed.
Lemma num_bare : forall c w, forallb num_char (c :: w) = true -> bare_value (c :: w).
Proof.
  intros c w H. assert (A : forall x, In x (c :: w) -> num_char x = true) by (now apply forallb_forall).
  split; [intros x X; now apply digit_ok, A|]. destruct (digit_ok c (A c (or_introl eq_refl))) as (_ & H1 & H2 & H3 & H4 & L & Hl & Hd & Hs & Hg & _).
  split; [|tauto]. unfold reserved. cbn [lower map begins kw_loop kw_data kw_save kw_stop kw_global]. rewrite L.
  rewrite (proj2 (Ascii.eqb_neq "l"%char c)) by congruence. rewrite (proj2 (Ascii.eqb_neq "d"%char c)) by congruence.
  rewrite (proj2 (Ascii.eqb_neq "s"%char c)) by congruence. rewrite (proj2 (Ascii.eqb_neq "g"%char c)) by congruence. reflexivity.
Qed.
Lemma digits_num : forall s, forallb is_digit s = true -> forallb num_char s = true.
Proof. intros s H. apply forallb_forall. intros x X. rewrite forallb_forall in H. unfold num_char. now rewrite (H x X). Qed.
Lemma decimal_num : forall b N d, forallb num_char (decimal_text b N d) = true.
Proof.
  intros b N d. unfold decimal_text. destruct (print_N_ok (Z.to_N (Z.abs N / pow10 d))) as (_ & D1 & _). destruct (print_N_ok (Z.to_N (Z.abs N mod pow10 d))) as (_ & D2 & _).
  rewrite !forallb_app. cbn [forallb]. rewrite (digits_num _ D1), (digits_num _ (rjust_digits d _ D2)). destruct b; reflexivity.
Qed.
Lemma decimal_bare : forall b N d, bare_value (decimal_text b N d).
Proof.
  intros b N d. pose proof (decimal_num b N d) as H. destruct (decimal_text b N d) as [|c w] eqn:E; [|now apply num_bare].
  exfalso. unfold decimal_text in E. apply app_eq_nil in E as [_ E]. apply app_eq_nil in E as [_ E]. discriminate.
Qed.
Lemma fixed_survives : forall c d k N n, In k (ATTR_REF (BASE c)) -> dget d k = Some (VNum (decimal N n)) -> ~ refined d k -> format_of (D_FORMATS c) k = Some n -> (0 < n)%nat ->
  word (REPR c k (decimal N n)) -> accepts c k (VNum (decimal N n)) (VNum (decimal N n)) ->
  writable_attr c d k (VNum (decimal N n)) /\ survives_attr c d k (VNum (decimal N n)).
Proof.
  intros c d k N n R D RF FO POS WR AC.
  assert (AS : as_string c d k = Some (fixed_text n (decimal N n))).
  { unfold as_string. rewrite D. fold (flag_ref d k). rewrite flag_ref_false by exact RF. now rewrite FO. }
  destruct (number_shown c d k _ _ D WR AS (decimal_bare _ _ _)) as (W & U). split; [exact W|]. intros t T. apply U in T. subst t.
  unfold reads_back. apply isin_iff in R. rewrite R. exists (Some (decimal N n)). split; [exact AC|]. right. split; [exact RF|]. exists [].
  assert (NP : forall x, In x (fixed_text n (decimal N n)) -> x <> "("%char /\ x <> ")"%char).
  { intros x X. pose proof (decimal_num (negb (Qle_bool 0 (decimal N n))) (round_half_even (decimal N n * inject_Z (pow10 n))) n) as DN. rewrite forallb_forall in DN. specialize (DN x X).
    apply digit_ok in DN. tauto. }
  exact (no_error_round_trip (fun _ => fixed_text n (decimal N n)) (decimal N n) [] NP (fixed_exact n N POS)).
Qed.
(** A refined parameter. *)
Lemma refined_survives : forall c d k x e m, In k (ATTR_REF (BASE c)) -> dget d k = Some (VNum x) ->
  dget d (k ++ "_refinement") = Some (VBool true) -> dget d (k ++ "_sigma") = Some (VNum e) -> dget d (k ++ "_mark") = Some (VStr m) ->
  word (REPR c k x) -> bare_value (value_error_mark_to_string (REPR c k) x (Some e) (tx m)) ->
  string_to_value_error_mark (value_error_mark_to_string (REPR c k) x (Some e) (tx m)) = Some (Some x, Some e, tx m) ->
  accepts c k (VNum x) (VNum x) -> accepts c (k ++ "_mark") (VStr m) (VStr m) ->
  writable_attr c d k (VNum x) /\ survives_attr c d k (VNum x).
Proof.
  intros c d k x e m R D DF DS DM WR B RT AC AM.
  assert (RF : refined d k) by (exists (VBool true), (VNum e); auto).
  assert (AS : as_string c d k = Some (value_error_mark_to_string (REPR c k) x (Some e) (tx m))).
  { unfold as_string. rewrite D. fold (flag_ref d k). rewrite (proj2 (flag_ref_iff d k) RF). now rewrite DS, DM. }
  destruct (number_shown c d k _ _ D WR AS B) as (W & U). split; [exact W|]. intros t T. apply U in T. subst t.
  unfold reads_back. apply isin_iff in R. rewrite R. exists (Some x). split; [exact AC|]. left. split; [exact RF|]. exists e, (tx m), (VStr m).
  rewrite st_tx. repeat split; auto.
Qed.
