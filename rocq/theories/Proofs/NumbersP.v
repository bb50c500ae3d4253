(** Printing and reading numbers with errors (C31). *)
From Coq Require Import ZArith NArith QArith Qabs List Ascii Bool Lia Lqa.
From Verif Require Import Spec.Text Model.Strings Model.Numbers Proofs.StringsP.
Import ListNotations.

(** * digit strings *)
Lemma num_value_gen : forall s a, fold_left (fun acc c => (10 * acc + digit_value c)%N) s a = (a * 10 ^ N.of_nat (length s) + num_value s)%N.
Proof.
  induction s as [|c s IH]; intros a; [cbn; lia|]. unfold num_value. cbn [fold_left length]. rewrite !IH. rewrite Nnat.Nat2N.inj_succ, N.pow_succ_r'. lia.
Qed.
Lemma num_value_app' : forall s t, num_value (s ++ t) = (num_value s * 10 ^ N.of_nat (length t) + num_value t)%N.
Proof. intros. unfold num_value at 1. rewrite fold_left_app. apply num_value_gen. Qed.
Lemma num_value_zeros : forall n, num_value (repeat c_zero n) = 0%N.
Proof.
  induction n as [|n IH]; [reflexivity|]. change (repeat c_zero (S n)) with ([c_zero] ++ repeat c_zero n). rewrite num_value_app', IH. reflexivity.
Qed.
Lemma dec_length : forall fuel n k, (0 < k)%nat -> (n < 10 ^ N.of_nat k)%N -> (length (dec_digits fuel n) <= k)%nat.
Proof.
  induction fuel as [|f IH]; intros n k Hk Hn; [cbn; lia|]. cbn [dec_digits]. destruct (N.ltb_spec n 10) as [L|L]; [cbn; lia|].
  rewrite app_length. cbn [length]. destruct k as [|k]; [lia|]. destruct k as [|k].
  - change (N.of_nat 1) with 1%N in Hn. rewrite N.pow_1_r in Hn. lia.
  - specialize (IH (n / 10)%N (S k)). assert (n / 10 < 10 ^ N.of_nat (S k))%N.
    { apply N.div_lt_upper_bound; [lia|]. rewrite <- N.pow_succ_r'. rewrite <- Nnat.Nat2N.inj_succ. exact Hn. }
    specialize (IH ltac:(lia) H). lia.
Qed.
Lemma print_length : forall n k, (0 < k)%nat -> (n < 10 ^ N.of_nat k)%N -> (length (print_N n) <= k)%nat.
Proof. intros. unfold print_N. apply dec_length; assumption. Qed.
Lemma rjust_length : forall w s, (length s <= w)%nat -> length (rjust0 w s) = w.
Proof. intros. unfold rjust0. rewrite app_length, repeat_length. lia. Qed.
Lemma zeros_digits : forall n, forallb is_digit (repeat c_zero n) = true.
Proof. induction n; [reflexivity|]. cbn [repeat forallb]. rewrite IHn. reflexivity. Qed.
Lemma rjust_digits : forall w s, forallb is_digit s = true -> forallb is_digit (rjust0 w s) = true.
Proof. intros. unfold rjust0. rewrite forallb_app, zeros_digits, H. reflexivity. Qed.
Lemma rjust_value : forall w s, num_value (rjust0 w s) = num_value s.
Proof. intros. unfold rjust0. rewrite num_value_app', num_value_zeros. lia. Qed.
Lemma zero_of_digits : forall s, forallb is_digit s = true -> zero_digits s = repeat c_zero (length s).
Proof.
  induction s as [|c s IH]; intros H; [reflexivity|]. cbn [forallb] in H. apply andb_true_iff in H. destruct H as [H1 H2].
  unfold zero_digits. cbn [map length repeat]. rewrite H1. f_equal. apply IH. exact H2.
Qed.
Lemma zero_app : forall s t, zero_digits (s ++ t) = zero_digits s ++ zero_digits t.
Proof. intros. apply map_app. Qed.
(** * reading decimals *)
Lemma pow10_pos : forall n, (0 < pow10 n)%Z. Proof. intros. unfold pow10. apply Z.pow_pos_nonneg; lia. Qed.
Lemma of_nat_pow : forall n, Zpos (Pos.of_nat (Nat.pow 10 n)) = pow10 n.
Proof.
  intros n. unfold pow10. assert (Nat.pow 10 n <> 0)%nat by (apply Nat.pow_nonzero; lia).
  rewrite <- (Znat.positive_nat_Z (Pos.of_nat (Nat.pow 10 n))). rewrite Nat2Pos.id by assumption. rewrite Nat2Z.inj_pow. reflexivity.
Qed.
Definition scaled (n : Z) (d : nat) : Q := Qred (n # Pos.of_nat (Nat.pow 10 d)).
Lemma contains_digits_slash : forall s, forallb is_digit s = true -> contains c_slash s = false.
Proof. intros s H. apply contains_false. intros x Hx ->. rewrite all_in in H. specialize (H _ Hx). discriminate. Qed.
Lemma sign_slash : forall sg st, sign_text sg st -> contains c_slash st = false.
Proof. intros sg st [[-> _]|[[-> _]|[-> _]]]; reflexivity. Qed.
Lemma parse_float_decimal : forall sg st num r, sign_text sg st -> forallb is_digit num = true -> num <> [] -> forallb is_digit r = true ->
  parse_float (st ++ num ++ c_dot :: r) = Some (scaled (sg * Z.of_N (num_value (num ++ r))) (length r)).
Proof.
  intros sg st num r Hst D N R. unfold parse_float. change (c_dot :: r) with ([c_dot] ++ r).
  rewrite !contains_app, (sign_slash sg st Hst), (contains_digits_slash num D), (contains_digits_slash r R). change (contains c_slash [c_dot]) with false. cbn [orb app].
  rewrite (parse_body sg st num (c_dot :: r) Hst D N eq_refl).
  - unfold body. change (Ascii.eqb c_dot c_slash) with false. change (Ascii.eqb c_dot c_dot) with true. cbn iota. rewrite R.
    destruct num as [|c num]; [contradiction|]. reflexivity.
  - cbn [forallb]. rewrite (digits_no_ws r R). reflexivity.
Qed.
Lemma parse_float_int : forall sg st num, sign_text sg st -> forallb is_digit num = true -> num <> [] ->
  parse_float (st ++ num) = Some (inject_Z (sg * Z.of_N (num_value num))).
Proof.
  intros sg st num Hst D N. unfold parse_float. rewrite contains_app, (sign_slash sg st Hst), (contains_digits_slash num D). cbn [orb].
  rewrite <- (app_nil_r num) at 1. rewrite (parse_body sg st num [] Hst D N I eq_refl). unfold body. destruct num; [contradiction|reflexivity].
Qed.
(** * brackets *)
Lemma find_skip : forall c s t, (forall x, In x s -> x <> c) -> find_char c (s ++ c :: t) = Some (length s).
Proof.
  intros c s t. induction s as [|x s IH]; intros H.
  - cbn. rewrite Ascii.eqb_refl. reflexivity.
  - cbn [app find_char length]. rewrite (proj2 (Ascii.eqb_neq x c)) by (apply H; left; reflexivity). rewrite IH by (intros; apply H; right; assumption). reflexivity.
Qed.
Lemma find_absent : forall c s, (forall x, In x s -> x <> c) -> find_char c s = None.
Proof.
  intros c s. induction s as [|x s IH]; intros H; [reflexivity|]. cbn [find_char]. rewrite (proj2 (Ascii.eqb_neq x c)) by (apply H; left; reflexivity).
  rewrite IH by (intros; apply H; right; assumption). reflexivity.
Qed.
Definition no_par (s : str) : Prop := forall x, In x s -> x <> c_lpar /\ x <> c_rpar.
Lemma no_par_digits : forall s, forallb is_digit s = true -> no_par s.
Proof. intros s H x Hx. rewrite all_in in H. specialize (H x Hx). split; intros ->; discriminate. Qed.
Lemma no_par_app : forall s t, no_par s -> no_par t -> no_par (s ++ t).
Proof. intros s t Hs Ht x Hx. apply in_app_or in Hx. destruct Hx; [apply Hs|apply Ht]; assumption. Qed.
Lemma firstn_app_exact : forall (A : Type) (s t : list A), firstn (length s) (s ++ t) = s.
Proof. intros. rewrite firstn_app, firstn_all, Nat.sub_diag. cbn. apply app_nil_r. Qed.
Lemma skipn_app_exact : forall (A : Type) (s t : list A), skipn (length s) (s ++ t) = t.
Proof. intros. rewrite skipn_app, skipn_all, Nat.sub_diag. reflexivity. Qed.
Lemma read_bracket : forall A B mk, no_par A -> no_par B -> A <> [] ->
  string_to_value_error_mark (A ++ c_lpar :: B ++ c_rpar :: mk) =
  match parse_float A with
  | None => None
  | Some value =>
      let s := if (forallb is_digit B && negb (match B with [] => true | _ => false end))%bool then B else [] in
      match s with
      | [] => Some (Some value, Some 0, strip mk)
      | _ => match parse_float (zero_digits (drop_last (length s) A) ++ s) with
             | Some e => Some (Some value, Some (Qabs e), strip mk)
             | None => None end end
  end.
Proof.
  intros A B mk HA HB NA. unfold string_to_value_error_mark.
  assert (N1 : (match A ++ c_lpar :: B ++ c_rpar :: mk with [c] => Ascii.eqb c c_dot | _ => false end) = false).
  { destruct A as [|a A]; [contradiction|]. destruct A as [|b A]; reflexivity. }
  rewrite N1. rewrite (find_skip c_lpar A) by (intros x Hx; apply (HA x Hx)).
  assert (E : A ++ c_lpar :: B ++ c_rpar :: mk = (A ++ c_lpar :: B) ++ c_rpar :: mk) by (rewrite <- app_assoc; reflexivity).
  assert (F : find_char c_rpar (A ++ c_lpar :: B ++ c_rpar :: mk) = Some (length (A ++ c_lpar :: B))).
  { rewrite E. apply find_skip. intros x Hx. apply in_app_or in Hx. destruct Hx as [Hx|[<-|Hx]]; [apply (HA x Hx)|discriminate|apply (HB x Hx)]. }
  rewrite F, firstn_app_exact.
  assert (L : length (A ++ c_lpar :: B) = (S (length A) + length B)%nat) by (rewrite app_length; cbn; lia).
  rewrite (proj2 (Nat.ltb_lt (length A) (length (A ++ c_lpar :: B)))) by lia.
  assert (SL : slice (S (length A)) (length (A ++ c_lpar :: B)) (A ++ c_lpar :: B ++ c_rpar :: mk) = B).
  { unfold slice. rewrite L. replace (S (length A) + length B - S (length A))%nat with (length B) by lia.
    assert (K : skipn (S (length A)) (A ++ c_lpar :: B ++ c_rpar :: mk) = B ++ c_rpar :: mk).
    { change (A ++ c_lpar :: B ++ c_rpar :: mk) with (A ++ [c_lpar] ++ (B ++ c_rpar :: mk)). rewrite app_assoc.
      replace (S (length A)) with (length (A ++ [c_lpar])) by (rewrite app_length; cbn; lia). apply skipn_app_exact. }
    rewrite K. apply firstn_app_exact. }
  assert (SK : skipn (S (length (A ++ c_lpar :: B))) (A ++ c_lpar :: B ++ c_rpar :: mk) = mk).
  { change (A ++ c_lpar :: B ++ c_rpar :: mk) with (A ++ (c_lpar :: B) ++ [c_rpar] ++ mk). rewrite app_assoc, app_assoc.
    replace (S (length (A ++ c_lpar :: B))) with (length ((A ++ c_lpar :: B) ++ [c_rpar])) by (rewrite app_length; cbn; lia). apply skipn_app_exact. }
  rewrite SL, SK. reflexivity.
Qed.
Lemma lstrip_idem : forall p s, lstrip_by p (lstrip_by p s) = lstrip_by p s.
Proof. intros p. induction s as [|c s IH]; [reflexivity|]. cbn [lstrip_by]. destruct (p c) eqn:E; [exact IH|]. cbn [lstrip_by]. rewrite E. reflexivity. Qed.
Lemma lstrip_suffix : forall p s, exists pre, s = pre ++ lstrip_by p s.
Proof. intros p. induction s as [|c s [pre IH]]; [exists []; reflexivity|]. cbn [lstrip_by]. destruct (p c); [exists (c :: pre); cbn; f_equal; exact IH|exists []; reflexivity]. Qed.
Lemma lstrip_head : forall (p : ascii -> bool) c s, p c = false -> lstrip_by p (c :: s) = c :: s.
Proof. intros. cbn. rewrite H. reflexivity. Qed.
Lemma strip_strip : forall s, strip (strip s) = strip s.
Proof.
  intros s. unfold strip. set (u := lstrip_by is_ws s).
  assert (U : lstrip_by is_ws u = u) by (unfold u; apply lstrip_idem).
  assert (V : lstrip_by is_ws (rstrip_by is_ws u) = rstrip_by is_ws u).
  { destruct (lstrip_suffix is_ws (rev u)) as [pre Hp]. unfold rstrip_by. set (v := lstrip_by is_ws (rev u)) in *.
    assert (E : u = rev v ++ rev pre) by (rewrite <- rev_app_distr, <- Hp, rev_involutive; reflexivity).
    destruct (rev v) as [|c r]; [reflexivity|]. apply lstrip_head.
    rewrite E in U. cbn [app lstrip_by] in U. destruct (is_ws c) eqn:W; [|reflexivity]. exfalso.
    destruct (lstrip_suffix is_ws (r ++ rev pre)) as [q Hq]. rewrite U in Hq. apply (f_equal (@length ascii)) in Hq. rewrite !app_length in Hq. cbn [length] in Hq. rewrite app_length in Hq. lia. }
  rewrite V. unfold rstrip_by. rewrite rev_involutive, lstrip_idem. reflexivity.
Qed.
(** * rounding *)
Lemma round_bounds : forall q, (Qabs (inject_Z (round_half_even q) - q) <= 1 # 2)%Q.
Proof.
  intros [n d]. unfold round_half_even. cbn [Qnum Qden]. pose proof (Z.div_mod n (Zpos d) ltac:(lia)) as E. pose proof (Z.mod_pos_bound n (Zpos d) ltac:(lia)) as B.
  set (f := (n / Zpos d)%Z) in *. set (r := (n mod Zpos d)%Z) in *.
  assert (G : forall k, (2 * Z.abs (k * Zpos d - n) <= Zpos d)%Z -> (Qabs (inject_Z k - (n # d)) <= 1 # 2)%Q).
  { intros k Hk. apply Qabs_Qle_condition. unfold Qle, Qminus, Qplus, Qopp, inject_Z. cbn [Qnum Qden]. rewrite !Pos2Z.inj_mul. lia. }
  destruct (Z.ltb_spec (2 * r) (Zpos d)); [apply G; lia|]. destruct (Z.ltb_spec (Zpos d) (2 * r)); [apply G; lia|]. destruct (Z.even f); apply G; lia.
Qed.
Lemma round_le : forall q (k : Z), (q <= inject_Z k)%Q -> (round_half_even q <= k)%Z.
Proof.
  intros [n d] k H. unfold Qle, inject_Z in H. cbn [Qnum Qden] in H. unfold round_half_even. cbn [Qnum Qden].
  pose proof (Z.div_mod n (Zpos d) ltac:(lia)) as E. pose proof (Z.mod_pos_bound n (Zpos d) ltac:(lia)) as B.
  set (f := (n / Zpos d)%Z) in *. set (r := (n mod Zpos d)%Z) in *. destruct (Z.ltb_spec (2 * r) (Zpos d)); [nia|]. assert (0 < r)%Z by lia.
  destruct (Z.ltb_spec (Zpos d) (2 * r)); [nia|]. destruct (Z.even f); nia.
Qed.
Lemma round_lt : forall q (k : Z), (q < inject_Z k - (1 # 2))%Q -> (round_half_even q < k)%Z.
Proof.
  intros [n d] k H. unfold Qlt, inject_Z, Qminus, Qplus, Qopp in H. cbn [Qnum Qden] in H. rewrite !Pos2Z.inj_mul in H. unfold round_half_even. cbn [Qnum Qden].
  pose proof (Z.div_mod n (Zpos d) ltac:(lia)) as E. pose proof (Z.mod_pos_bound n (Zpos d) ltac:(lia)) as B.
  set (f := (n / Zpos d)%Z) in *. set (r := (n mod Zpos d)%Z) in *. destruct (Z.ltb_spec (2 * r) (Zpos d)); [nia|].
  destruct (Z.ltb_spec (Zpos d) (2 * r)); [nia|]. destruct (Z.even f); nia.
Qed.
Lemma round_nonneg : forall q, (0 <= q)%Q -> (0 <= round_half_even q)%Z.
Proof.
  intros [n d] H. unfold Qle in H. cbn in H. unfold round_half_even. cbn [Qnum Qden].
  assert (0 <= n / Zpos d)%Z by (apply Z.div_pos; lia). destruct (_ <? _)%Z; [lia|]. destruct (_ <? _)%Z; [lia|]. destruct (Z.even _); lia.
Qed.
(** * the number of decimals *)
Lemma neg_power_spec : forall fuel e, (0 < e)%Q -> (e <= 1)%Q -> (1 < 10 * (e * inject_Z (2 ^ Z.of_nat fuel)))%Q ->
  (e * inject_Z (pow10 (neg_power fuel e)) <= 1)%Q /\ (1 < 10 * (e * inject_Z (pow10 (neg_power fuel e))))%Q.
Proof.
  induction fuel as [|f IH]; intros e H0 H1 HF.
  - cbn [neg_power]. change (pow10 0) with 1%Z. change (2 ^ Z.of_nat 0)%Z with 1%Z in HF. split; [|exact HF]. setoid_replace (e * inject_Z 1)%Q with e by (unfold inject_Z; ring). exact H1.
  - cbn [neg_power]. destruct (Qle_bool (10 * e) 1) eqn:E.
    + apply Qle_bool_iff in E. destruct (IH (10 * e)%Q) as [A B].
      * lra.
      * exact E.
      * rewrite Nat2Z.inj_succ, Z.pow_succ_r in HF by lia. rewrite inject_Z_mult in HF.
        assert (P : (0 <= e * inject_Z (2 ^ Z.of_nat f))%Q). { apply Qmult_le_0_compat; [lra|]. change 0%Q with (inject_Z 0). rewrite <- Zle_Qle. lia. }
        setoid_replace (10 * (10 * e * inject_Z (2 ^ Z.of_nat f)))%Q with (100 * (e * inject_Z (2 ^ Z.of_nat f)))%Q by ring.
        setoid_replace (10 * (e * (inject_Z 2 * inject_Z (2 ^ Z.of_nat f))))%Q with (20 * (e * inject_Z (2 ^ Z.of_nat f)))%Q in HF by (unfold inject_Z; ring). lra.
      * assert (S : (e * inject_Z (pow10 (S (neg_power f (10 * e)))) == 10 * e * inject_Z (pow10 (neg_power f (10 * e))))%Q).
        { unfold pow10. rewrite Nat2Z.inj_succ, Z.pow_succ_r, inject_Z_mult by lia. change (inject_Z 10) with (10%Q). ring. }
        rewrite S. split; [exact A|exact B].
    + assert (N : ~ (10 * e <= 1)%Q) by (intros X; apply Qle_bool_iff in X; congruence). change (pow10 0) with 1%Z.
      setoid_replace (e * inject_Z 1)%Q with e by (unfold inject_Z; ring). split; [exact H1|]. lra.
Qed.
Lemma power_spec : forall e, (0 < e)%Q -> (e <= 1)%Q ->
  (e * inject_Z (pow10 (power_of e)) <= 1)%Q /\ (1 < 10 * (e * inject_Z (pow10 (power_of e))))%Q.
Proof.
  intros e H0 H1. unfold power_of. apply neg_power_spec; [exact H0|exact H1|]. destruct e as [n d]. unfold Qlt in H0. cbn in H0.
  cbn [Qden]. pose proof (pos_size_lt d) as P. assert (P2 : (Zpos d < 2 ^ Z.of_nat (Pos.size_nat d))%Z).
  { apply N2Z.inj_lt in P. rewrite N2Z.inj_pow in P. rewrite nat_N_Z in P. exact P. }
  unfold Qlt, Qmult, inject_Z. cbn [Qnum Qden]. rewrite ?Pos.mul_1_r, ?Pos.mul_1_l. change (1 * Z.pos d < 10 * (n * 2 ^ Z.of_nat (Pos.size_nat d)) * 1)%Z.
  nia.
Qed.
(** * the round trips *)
Lemma sign_of_flag : forall N : Z, sign_text (if (N <? 0)%Z then (-1) else 1)%Z (if (N <? 0)%Z then [c_minus] else []).
Proof. intros N. unfold sign_text. destruct (N <? 0)%Z; tauto. Qed.
Lemma scaled_value : forall n d, (scaled n d == n # Pos.of_nat (Nat.pow 10 d))%Q.
Proof. intros. unfold scaled. apply Qred_correct. Qed.
Lemma N_of_Z_lt : forall a k, (0 <= a < pow10 k)%Z -> (Z.to_N a < 10 ^ N.of_nat k)%N.
Proof. intros a k H. apply N2Z.inj_lt. rewrite Z2N.id by lia. rewrite N2Z.inj_pow, nat_N_Z. apply H. Qed.
Lemma decimal_text_read : forall N d, (0 < d)%nat -> parse_float (decimal_text (N <? 0)%Z N d) = Some (scaled N d).
Proof.
  intros N d Hd. unfold decimal_text. pose proof (pow10_pos d) as PP.
  destruct (print_N_ok (Z.to_N (Z.abs N / pow10 d))) as (V1 & D1 & N1). destruct (print_N_ok (Z.to_N (Z.abs N mod pow10 d))) as (V2 & D2 & N2).
  pose proof (Z.mod_pos_bound (Z.abs N) (pow10 d) PP) as MB.
  assert (L : length (rjust0 d (print_N (Z.to_N (Z.abs N mod pow10 d)))) = d) by (apply rjust_length, print_length; [exact Hd|apply N_of_Z_lt; exact MB]).
  rewrite (parse_float_decimal _ _ _ _ (sign_of_flag N) D1 N1 (rjust_digits _ _ D2)). rewrite L. f_equal. f_equal.
  rewrite num_value_app', rjust_value, L, V1, V2. rewrite N2Z.inj_add, N2Z.inj_mul, N2Z.inj_pow, nat_N_Z.
  rewrite !Z2N.id by (try lia; apply Z.div_pos; lia). change (Z.of_N 10) with 10%Z. fold (pow10 d).
  assert (EQ : (Z.abs N / pow10 d * pow10 d + Z.abs N mod pow10 d = Z.abs N)%Z) by (pose proof (Z.div_mod (Z.abs N) (pow10 d)); lia).
  rewrite EQ. destruct (Z.ltb_spec N 0); lia.
Qed.
Lemma decimal_text_error : forall N d E, (0 < d)%nat -> (0 <= E < pow10 d)%Z ->
  parse_float (zero_digits (drop_last (length (print_N (Z.to_N E))) (decimal_text (N <? 0)%Z N d)) ++ print_N (Z.to_N E)) =
  Some (scaled ((if (N <? 0)%Z then -1 else 1) * E) d).
Proof.
  intros N d E Hd HE. destruct (print_N_ok (Z.to_N E)) as (VE & DE & NE). pose proof (pow10_pos d) as PP.
  destruct (print_N_ok (Z.to_N (Z.abs N / pow10 d))) as (V1 & D1 & N1). destruct (print_N_ok (Z.to_N (Z.abs N mod pow10 d))) as (V2 & D2 & N2).
  pose proof (Z.mod_pos_bound (Z.abs N) (pow10 d) PP) as MB. unfold decimal_text.
  set (ip := print_N (Z.to_N (Z.abs N / pow10 d))) in *. set (fr := rjust0 d (print_N (Z.to_N (Z.abs N mod pow10 d)))). set (B := print_N (Z.to_N E)) in *.
  set (st := if (N <? 0)%Z then [c_minus] else []).
  assert (L : length fr = d) by (apply rjust_length, print_length; [exact Hd|apply N_of_Z_lt; exact MB]).
  assert (LB : (length B <= d)%nat) by (apply print_length; [exact Hd|apply N_of_Z_lt; exact HE]).
  assert (FD : forallb is_digit fr = true) by (apply rjust_digits; exact D2).
  assert (DL : drop_last (length B) (st ++ ip ++ c_dot :: fr) = st ++ ip ++ c_dot :: firstn (d - length B) fr).
  { unfold drop_last. destruct (length B) as [|k] eqn:EB; [destruct B; [contradiction|discriminate]|].
    change (c_dot :: fr) with ([c_dot] ++ fr). change (c_dot :: firstn (d - S k) fr) with ([c_dot] ++ firstn (d - S k) fr). rewrite !app_assoc.
    rewrite firstn_app. rewrite !app_length. rewrite L.
    rewrite firstn_all2 by (rewrite !app_length; lia). f_equal. f_equal. lia. }
  rewrite DL. rewrite !zero_app. change (c_dot :: firstn (d - length B) fr) with ([c_dot] ++ firstn (d - length B) fr). rewrite zero_app.
  assert (ZS : zero_digits st = st) by (unfold st; destruct (N <? 0)%Z; reflexivity). rewrite ZS. change (zero_digits [c_dot]) with [c_dot].
  rewrite (zero_of_digits ip D1).
  assert (FF : forallb is_digit (firstn (d - length B) fr) = true).
  { apply all_in. intros x Hx. rewrite all_in in FD. apply FD. rewrite <- (firstn_skipn (d - length B) fr). apply in_or_app. left. exact Hx. }
  rewrite (zero_of_digits _ FF). rewrite firstn_length_le by (rewrite L; lia).
  assert (EQ : (st ++ repeat c_zero (length ip) ++ [c_dot] ++ repeat c_zero (d - length B)) ++ B = st ++ repeat c_zero (length ip) ++ c_dot :: (repeat c_zero (d - length B) ++ B)).
  { rewrite <- !app_assoc. reflexivity. }
  rewrite EQ. rewrite (parse_float_decimal _ st _ _ (sign_of_flag N)).
  - rewrite app_length, repeat_length. replace (d - length B + length B)%nat with d by lia. f_equal. f_equal.
    rewrite !num_value_app', !num_value_zeros, VE. cbn [N.mul N.add]. rewrite Z2N.id by lia. reflexivity.
  - apply zeros_digits.
  - destruct ip; [contradiction|discriminate].
  - rewrite forallb_app, zeros_digits, DE. reflexivity.
Qed.
Lemma no_par_decimal : forall b N d, no_par (decimal_text b N d).
Proof.
  intros b N d. unfold decimal_text. apply no_par_app; [destruct b; [intros x [<-|[]]; split; discriminate|intros x []]|].
  apply no_par_app; [apply no_par_digits; apply print_N_ok|]. change (c_dot :: ?x) with ([c_dot] ++ x). apply no_par_app; [intros x [<-|[]]; split; discriminate|].
  apply no_par_digits, rjust_digits. apply print_N_ok.
Qed.
Lemma print_Z_nonneg : forall E, (0 <= E)%Z -> print_Z E = print_N (Z.to_N E).
Proof. intros E H. unfold print_Z. destruct (Z.ltb_spec E 0); [lia|reflexivity]. Qed.
Lemma qabs_scaled : forall (s E : Z) d, (s = 1 \/ s = -1)%Z -> (0 <= E)%Z -> (Qabs (scaled (s * E) d) == E # Pos.of_nat (Nat.pow 10 d))%Q.
Proof.
  intros s E d Hs HE. rewrite scaled_value. unfold Qabs. destruct Hs as [-> | ->]; rewrite Z.abs_mul; cbn [Z.abs]; rewrite (Z.abs_eq E HE), Z.mul_1_l; reflexivity.
Qed.
Lemma scaled_close : forall (x : Q) (d : nat), (Qabs ((round_half_even (x * inject_Z (pow10 d)) # Pos.of_nat (Nat.pow 10 d)) - x) * inject_Z (pow10 d) <= 1 # 2)%Q.
Proof.
  intros x d. pose proof (round_bounds (x * inject_Z (pow10 d))) as B. set (R := round_half_even (x * inject_Z (pow10 d))) in *.
  pose proof (pow10_pos d) as PP. assert (PQ : (0 < inject_Z (pow10 d))%Q) by (change 0%Q with (inject_Z 0); rewrite <- Zlt_Qlt; exact PP).
  assert (E : (Qabs ((R # Pos.of_nat (Nat.pow 10 d)) - x) * inject_Z (pow10 d) == Qabs (inject_Z R - x * inject_Z (pow10 d)))%Q).
  { rewrite <- (Qabs_pos (inject_Z (pow10 d))) at 1 by lra. rewrite <- Qabs_Qmult. apply Qabs_wd.
    assert (F : ((R # Pos.of_nat (Nat.pow 10 d)) * inject_Z (pow10 d) == inject_Z R)%Q).
    { unfold Qeq, Qmult, inject_Z. cbn [Qnum Qden]. rewrite Pos.mul_1_r. rewrite of_nat_pow. ring. }
    rewrite <- F. ring. }
  rewrite E. exact B.
Qed.
Theorem small_error_round_trip : forall repr v e mark, (0 < e)%Q -> (e < 199 # 200)%Q ->
  exists v' e', string_to_value_error_mark (value_error_mark_to_string repr v (Some e) mark) = Some (Some v', Some e', strip mark) /\
    (Qabs (v' - v) <= e / 20)%Q /\ (Qabs (e' - e) <= e / 20)%Q.
Proof.
  intros repr v e mark H0 H1. unfold value_error_mark_to_string.
  assert (E0 : Qeq_bool e 0 = false) by (apply not_true_iff_false; intros X; apply Qeq_bool_iff in X; lra).
  assert (E1 : Qle_bool e 1 = true) by (apply Qle_bool_iff; lra). rewrite E0, E1.
  destruct (power_spec e H0 ltac:(lra)) as [PA PB]. set (m := power_of e) in *. set (d := (m + 2)%nat). cbv zeta. fold d.
  set (N := round_half_even (v * inject_Z (pow10 d))). set (E := round_half_even (e * inject_Z (pow10 d))).
  assert (PD : (inject_Z (pow10 d) == 100 * inject_Z (pow10 m))%Q).
  { unfold d, pow10. rewrite Nat2Z.inj_add, Z.pow_add_r by lia. rewrite inject_Z_mult. change (inject_Z (10 ^ Z.of_nat 2)) with (100%Q). ring. }
  assert (PP : (0 < inject_Z (pow10 d))%Q) by (change 0%Q with (inject_Z 0); rewrite <- Zlt_Qlt; apply pow10_pos).
  assert (PPm : (0 < inject_Z (pow10 m))%Q) by (change 0%Q with (inject_Z 0); rewrite <- Zlt_Qlt; apply pow10_pos).
  assert (HE : (0 <= E < pow10 d)%Z).
  { split; [apply round_nonneg; apply Qmult_le_0_compat; lra|]. destruct m as [|k] eqn:Em.
    - change (pow10 d) with 100%Z. apply round_lt. change (pow10 d) with 100%Z. change (inject_Z 100) with (100%Q). lra.
    - assert (E <= 100)%Z. { apply round_le. rewrite PD. change (inject_Z 100) with (100%Q). lra. }
      assert (1000 <= pow10 d)%Z. { unfold d, pow10. change 1000%Z with (10 ^ 3)%Z. apply Z.pow_le_mono_r; lia. } lia. }
  rewrite (print_Z_nonneg E) by lia.
  exists (scaled N d), (Qabs (scaled ((if (N <? 0)%Z then -1 else 1) * E) d)). split; [|].
  - cbn [app]. rewrite read_bracket.
    + rewrite decimal_text_read by (unfold d; lia). destruct (print_N_ok (Z.to_N E)) as (VE & DE & NE). rewrite DE.
      pose proof (decimal_text_error N d E ltac:(unfold d; lia) HE) as DT. destruct (print_N (Z.to_N E)) as [|x r] eqn:EE; [contradiction|]. cbn [negb andb]. cbv zeta.
      rewrite DT, strip_strip. reflexivity.
    + apply no_par_decimal.
    + apply no_par_digits. apply print_N_ok.
    + unfold decimal_text. destruct (N <? 0)%Z; [discriminate|]. cbn [app]. destruct (print_N _) as [|y s]; discriminate.
  - pose proof (scaled_close v d) as SV. pose proof (scaled_close e d) as SE. fold N in SV. fold E in SE.
    assert (CL : forall x, (Qabs x * inject_Z (pow10 d) <= 1 # 2)%Q -> (Qabs x <= e / 20)%Q).
    { intros x Hx. apply (Qmult_le_r _ _ (inject_Z (pow10 d)) PP). apply (Qle_trans _ (1 # 2)); [exact Hx|]. rewrite PD. unfold Qdiv. change (/ 20)%Q with (1 # 20). lra. }
    split.
    + apply CL. assert (X : (scaled N d - v == (N # Pos.of_nat (Nat.pow 10 d)) - v)%Q) by (rewrite scaled_value; reflexivity). rewrite X. exact SV.
    + apply CL. assert (X : (Qabs (scaled ((if (N <? 0)%Z then -1 else 1) * E) d) - e == (E # Pos.of_nat (Nat.pow 10 d)) - e)%Q).
      { rewrite qabs_scaled; [reflexivity|destruct (N <? 0)%Z; auto|lia]. } rewrite X. exact SE.
Qed.
Theorem large_error_round_trip : forall repr v e mark, (1 < e)%Q ->
  exists v' e', string_to_value_error_mark (value_error_mark_to_string repr v (Some e) mark) = Some (Some (inject_Z v'), Some (inject_Z e'), strip mark) /\
    (Qabs (inject_Z v' - v) <= 1 # 2)%Q /\ (Qabs (inject_Z e' - e) <= 1 # 2)%Q.
Proof.
  intros repr v e mark H1. unfold value_error_mark_to_string.
  assert (E0 : Qeq_bool e 0 = false) by (apply not_true_iff_false; intros X; apply Qeq_bool_iff in X; lra).
  assert (E1 : Qle_bool e 1 = false) by (apply not_true_iff_false; intros X; apply Qle_bool_iff in X; lra). rewrite E0, E1.
  set (N := round_half_even v). set (E := round_half_even e). exists N, E.
  split; [|split; [apply round_bounds|apply round_bounds]].
  assert (HE : (0 <= E)%Z) by (apply round_nonneg; lra). rewrite (print_Z_nonneg E HE). rewrite print_Z_parts. unfold num_part, sgn_part.
  destruct (print_N_ok (Z.to_N E)) as (VE & DE & NE). destruct (print_N_ok (Z.to_N (Z.abs N))) as (VN & DN & NN).
  set (B := print_N (Z.to_N E)) in *. set (A := print_N (Z.to_N (Z.abs N))) in *. set (st := if (N <? 0)%Z then [c_minus] else []).
  match goal with |- string_to_value_error_mark ?x = _ => change x with ((st ++ A) ++ c_lpar :: B ++ c_rpar :: strip mark) end. rewrite read_bracket.
  - rewrite (parse_float_int _ st A (sign_of_flag N) DN NN). rewrite DE.
    assert (DL : exists st' k sg, sign_text sg st' /\ zero_digits (drop_last (length B) (st ++ A)) = st' ++ repeat c_zero k).
    { unfold drop_last. destruct (length B) as [|k] eqn:EB; [destruct B; [contradiction|discriminate]|].
      rewrite firstn_app. rewrite zero_app. rewrite (zero_of_digits (firstn _ A)).
      2:{ apply all_in. intros x Hx. rewrite all_in in DN. apply DN. rewrite <- (firstn_skipn (length (st ++ A) - S k - length st) A). apply in_or_app. left. exact Hx. }
      exists (zero_digits (firstn (length (st ++ A) - S k) st)), (length (firstn (length (st ++ A) - S k - length st) A)).
      unfold st. destruct (N <? 0)%Z.
      - destruct (length ([c_minus] ++ A) - S k)%nat; [exists 1%Z|exists (-1)%Z]; (split; [|reflexivity]); cbn; unfold sign_text; [tauto|]. destruct n; cbn; tauto.
      - exists 1%Z. split; [|reflexivity]. rewrite firstn_nil. left. auto. }
    destruct DL as (st' & k & sg & Hst & DL).
    assert (PE : parse_float (zero_digits (drop_last (length B) (st ++ A)) ++ B) = Some (inject_Z (sg * E))).
    { rewrite DL, <- app_assoc. rewrite (parse_float_int sg st' (repeat c_zero k ++ B) Hst).
      - rewrite num_value_app', num_value_zeros, VE. cbn [N.mul N.add]. rewrite Z2N.id by lia. reflexivity.
      - rewrite forallb_app, zeros_digits, DE. reflexivity.
      - intros X. apply app_eq_nil in X. destruct X as [_ X]. contradiction. }
    assert (AE : Qabs (inject_Z (sg * E)) = inject_Z E).
    { unfold Qabs, inject_Z. f_equal. assert (sg = 1 \/ sg = -1)%Z as [-> | ->] by (destruct Hst as [[_ ->]|[[_ ->]|[_ ->]]]; auto); lia. }
    assert (VV : ((if (N <? 0)%Z then -1 else 1) * Z.of_N (num_value A))%Z = N).
    { rewrite VN. apply sgn_abs. }
    rewrite VV. destruct B as [|x r]; [contradiction|]. cbn [negb andb]. cbv zeta. rewrite PE, AE, strip_strip. reflexivity.
  - apply no_par_app; [unfold st; destruct (N <? 0)%Z; [intros x [<-|[]]; split; discriminate|intros x []]|apply no_par_digits; exact DN].
  - apply no_par_digits. exact DE.
  - intros X. apply app_eq_nil in X. destruct X as [_ X]. contradiction.
Qed.
Theorem zero_error_round_trip : forall repr v mark, no_par (repr v) -> parse_float (repr v) = Some v ->
  string_to_value_error_mark (value_error_mark_to_string repr v (Some 0) mark) = Some (Some v, Some 0, strip mark).
Proof.
  intros repr v mark HP HR. unfold value_error_mark_to_string. change (Qeq_bool 0 0) with true. cbn iota. 
  match goal with |- string_to_value_error_mark ?x = _ => change x with (repr v ++ c_lpar :: [] ++ c_rpar :: strip mark) end.
  rewrite (read_bracket (repr v) [] (strip mark) HP); [|intros x []|].
  - rewrite HR. cbn. rewrite strip_strip. reflexivity.
  - intros X. rewrite X in HR. discriminate.
Qed.
Theorem no_error_round_trip : forall repr v mark, no_par (repr v) -> parse_float (repr v) = Some v ->
  string_to_value_error_mark (value_error_mark_to_string repr v None mark) = Some (Some v, None, []).
Proof.
  intros repr v mark HP HR. unfold value_error_mark_to_string, string_to_value_error_mark.
  rewrite (find_absent c_lpar (repr v)) by (intros x Hx; apply (HP x Hx)). rewrite HR.
  destruct (repr v) as [|c [|d s]]; [discriminate| |reflexivity]. destruct (Ascii.eqb c c_dot) eqn:E; [|reflexivity]. apply Ascii.eqb_eq in E. subst c. discriminate.
Qed.
(** * counterexamples *)
Lemma unit_error_refuted : exists v e mark, (0 < e)%Q /\ (e <= 1)%Q /\ forall repr,
  exists v', string_to_value_error_mark (value_error_mark_to_string repr v (Some e) mark) = Some (Some v', Some (100 # 1), mark).
Proof. exists 5%Q, 1%Q, []. split; [reflexivity|]. split; [discriminate|]. intros repr. exists (5 # 1). vm_compute. reflexivity. Qed.
Lemma two_digits_refuted : exists v e mark, (1 < e)%Q /\ forall repr, exists v' e',
  string_to_value_error_mark (value_error_mark_to_string repr v (Some e) mark) = Some (Some v', Some e', mark) /\ (e / 20 < Qabs (e' - e))%Q.
Proof. exists 5%Q, (14 # 10), []. split; [reflexivity|]. intros repr. exists (5 # 1), (1 # 1). split; vm_compute; reflexivity. Qed.
Lemma mark_refuted : exists v mark (repr : Q -> str), parse_float (repr v) = Some v /\ mark = strip mark /\ mark <> [] /\
  string_to_value_error_mark (value_error_mark_to_string repr v None mark) = Some (Some v, None, []).
Proof. exists 5%Q, ["a"%char], (fun q => print_Z (Qnum q)). repeat split; vm_compute; try reflexivity. discriminate. Qed.
Lemma float_refuted : exists v e : f64, (0 < f_to_Q e)%Q /\ (f_to_Q e < 199 # 200)%Q /\ exists v' e' mark,
  string_to_value_error_mark (float_text v e mark) = Some (Some v', Some e', mark) /\ (f_to_Q e / 20 < Qabs (v' - f_to_Q v))%Q.
Proof.
  exists (f_lit 29 2), (f_lit 11 2). split; [vm_compute; reflexivity|]. split; [vm_compute; reflexivity|].
  exists (7 # 25), (11 # 100), []. split; vm_compute; reflexivity.
Qed.
