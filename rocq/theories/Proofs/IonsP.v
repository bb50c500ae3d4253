(** Proofs about ion symbols. *)
From Coq Require Import ZArith NArith List Ascii Bool Lia String.
From Verif Require Import Spec.Text Spec.IonSpec Model.Strings Model.Numbers Model.Ions.
From Verif Require Proofs.StringsP.
Import ListNotations.
Open Scope Z_scope.

Ltac all_chars c := destruct c as [b0 b1 b2 b3 b4 b5 b6 b7]; destruct b0, b1, b2, b3, b4, b5, b6, b7.
Lemma letter_facts : forall c, is_letter c = true ->
  (to_upper (to_lower c) = large c /\ to_lower (to_lower c) = small c) /\ is_digit (to_lower c) = false /\ is_ws c = false.
Proof. intros c. all_chars c; intros H; try discriminate H; repeat split; reflexivity. Qed.
Lemma digit_facts : forall c, is_decimal c = true -> to_lower c = c /\ is_digit c = true /\ is_ws c = false /\ Ascii.eqb c c_plus = false /\ Ascii.eqb c c_minus = false.
Proof. intros c. all_chars c; intros H; try discriminate H; repeat split; reflexivity. Qed.
Lemma blank_ws : is_ws " "%char = true.
Proof. reflexivity. Qed.

Definition nows (s : str) : Prop := Forall (fun c => is_ws c = false) s.
Lemma lstrip_nows : forall s, nows s -> lstrip_by is_ws s = s.
Proof. intros [|c r] H; [reflexivity|]. inversion H; subst. cbn. rewrite H2. reflexivity. Qed.
Lemma lstrip_blank : forall w s, blank_text w -> lstrip_by is_ws (w ++ s) = lstrip_by is_ws s.
Proof. induction w as [|c w IH]; intros s H; [reflexivity|]. inversion H; subst. cbn [app lstrip_by]. rewrite blank_ws. apply IH. assumption. Qed.
Lemma nows_rev : forall s, nows s -> nows (rev s).
Proof. intros s H. apply Forall_rev. exact H. Qed.
Lemma strip_wrap : forall w1 s w2, blank_text w1 -> nows s -> s <> [] -> blank_text w2 -> strip (w1 ++ s ++ w2) = s.
Proof.
  intros w1 s w2 H1 Hs Hn H2. unfold strip, rstrip_by. rewrite lstrip_blank by exact H1.
  assert (E : lstrip_by is_ws (s ++ w2) = s ++ w2).
  { destruct s as [|c r]; [contradiction|]. inversion Hs; subst. cbn. rewrite H3. reflexivity. }
  rewrite E, rev_app_distr, lstrip_blank by (apply Forall_rev; exact H2). rewrite lstrip_nows by (apply nows_rev; exact Hs). apply rev_involutive.
Qed.
Lemma strip_nows : forall s, nows s -> strip s = s.
Proof. intros s H. unfold strip, rstrip_by. rewrite (lstrip_nows s H). rewrite lstrip_nows by (apply nows_rev; exact H). apply rev_involutive. Qed.

Lemma decimal_gen : forall s a, Forall (fun c => is_decimal c = true) s ->
  fold_left (fun a c => 10 * a + (Z.of_nat (nat_of_ascii c) - 48)) s (Z.of_N a) = Z.of_N (fold_left (fun acc c => (10 * acc + digit_value c)%N) s a).
Proof.
  induction s as [|c s IH]; intros a H; [reflexivity|]. inversion H; subst. cbn [fold_left]. rewrite <- IH by assumption. f_equal.
  unfold digit_value, code. unfold is_decimal in H2. apply andb_true_iff in H2. destruct H2 as [A B]. apply Nat.leb_le in A, B. lia.
Qed.
Lemma decimal_value : forall s, Forall (fun c => is_decimal c = true) s -> Z.of_N (num_value s) = decimal s.
Proof. intros s H. unfold num_value, decimal. rewrite <- (decimal_gen s 0%N H). reflexivity. Qed.
Lemma digits_forallb : forall s, Forall (fun c => is_decimal c = true) s -> forallb is_digit s = true.
Proof. intros s H. apply forallb_forall. rewrite Forall_forall in H. intros x Hx. apply (digit_facts x (H x Hx)). Qed.
Lemma digits_nows : forall s, Forall (fun c => is_decimal c = true) s -> nows s.
Proof. intros s H. eapply Forall_impl; [|exact H]. intros c Hc. apply (digit_facts c Hc). Qed.
Lemma letters_nows : forall s, Forall (fun c => is_letter c = true) s -> nows s.
Proof. intros s H. eapply Forall_impl; [|exact H]. intros c Hc. apply (letter_facts c Hc). Qed.
Lemma decimal_nonneg : forall s, Forall (fun c => is_decimal c = true) s -> 0 <= decimal s.
Proof. intros s H. rewrite <- decimal_value by exact H. lia. Qed.

Lemma lower_digits : forall s, Forall (fun c => is_decimal c = true) s -> lower s = s.
Proof. induction s as [|c s IH]; intros H; [reflexivity|]. inversion H; subst. change (to_lower c :: lower s = c :: s). rewrite (proj1 (digit_facts c H2)), IH by assumption. reflexivity. Qed.
Lemma lower_app : forall s t, lower (s ++ t) = lower s ++ lower t.
Proof. intros. apply map_app. Qed.
Lemma lower_length : forall s, List.length (lower s) = List.length s.
Proof. intros. apply map_length. Qed.
Lemma lower_nodigit : forall s, Forall (fun c => is_letter c = true) s -> Forall (fun c => is_digit c = false) (lower s).
Proof. induction s as [|c s IH]; intros H; [constructor|]. inversion H; subst. constructor; [apply (letter_facts c H2)|apply IH; assumption]. Qed.
Lemma capitalize_lower : forall s, Forall (fun c => is_letter c = true) s -> capitalize (lower s) = titled s.
Proof.
  intros [|c s] H; [reflexivity|]. inversion H; subst. cbn [lower map capitalize titled]. rewrite (proj1 (proj1 (letter_facts c H2))). f_equal.
  clear H H2. fold (lower s). unfold lower. induction s as [|d s IH]; [reflexivity|]. inversion H3; subst. cbn [map]. rewrite (proj2 (proj1 (letter_facts d H1))), IH by assumption. reflexivity.
Qed.
Lemma sign_facts : forall c n q, signed c n q -> to_lower c = c /\ is_ws c = false /\ is_digit c = false /\
  forall ds, number_text ds -> decimal ds = n -> py_int (c :: ds) = Value q.
Proof.
  assert (A : forall ds, number_text ds -> match ds with [] => @Raises Z ValueError | _ => if forallb is_digit ds then Value (Z.of_N (num_value ds)) else Raises ValueError end = Value (decimal ds)).
  { intros ds [N D]. rewrite (digits_forallb ds D), (decimal_value ds D). destruct ds; [contradiction|reflexivity]. }
  intros c n q [[-> ->]|[-> ->]]; repeat split; intros ds D E; unfold py_int; rewrite strip_nows by (constructor; [reflexivity|apply digits_nows, D]); specialize (A ds D); destruct ds as [|x ds]; try discriminate A;
    cbn - [num_value forallb Z.mul]; destruct (forallb is_digit (x :: ds)); try discriminate A; injection A as A; f_equal; subst n; rewrite <- A; lia.
Qed.

Lemma scan_digits : forall ds rest iso, Forall (fun c => is_digit c = true) ds ->
  scan_letters (List.length iso) iso (ds ++ rest) = scan_letters (List.length (iso ++ ds)) (iso ++ ds) rest.
Proof.
  induction ds as [|c ds IH]; intros rest iso H; [rewrite app_nil_r; reflexivity|]. inversion H; subst. cbn [app scan_letters]. rewrite H2, Nat.eqb_refl.
  replace (S (List.length iso)) with (List.length (iso ++ [c])) by (rewrite app_length; cbn; lia). rewrite IH by assumption. rewrite <- app_assoc. reflexivity.
Qed.
Lemma scan_name : forall s i iso rest, Forall (fun c => is_digit c = false) s -> scan_letters i iso (s ++ rest) = scan_letters (i + List.length s) iso rest.
Proof.
  induction s as [|c s IH]; intros i iso rest H; [cbn; rewrite Nat.add_0_r; reflexivity|]. inversion H; subst. cbn [app scan_letters]. rewrite H2, IH by assumption.
  f_equal. cbn. lia.
Qed.
Lemma scan_stop : forall c r i iso, is_digit c = true -> (List.length iso < i)%nat -> scan_letters i iso (c :: r) = (iso, Some i).
Proof. intros c r i iso H L. cbn. rewrite H. destruct (Nat.eqb_spec i (List.length iso)); [lia|reflexivity]. Qed.
Lemma decimals_digits : forall s, Forall (fun c => is_decimal c = true) s -> Forall (fun c => is_digit c = true) s.
Proof. intros s H. eapply Forall_impl; [|exact H]. intros c Hc. apply (digit_facts c Hc). Qed.
Lemma nodigit_sign : forall c n q, signed c n q -> is_digit c = false.
Proof. intros c n q H. apply (sign_facts c n q H). Qed.

Lemma slice_mid : forall (a b c : str), slice (List.length a) (List.length a + List.length b) (a ++ b ++ c) = b.
Proof.
  intros. unfold slice. rewrite skipn_app, skipn_all, Nat.sub_diag. cbn [skipn app]. replace (List.length a + List.length b - List.length a)%nat with (List.length b) by lia.
  rewrite firstn_app, firstn_all, Nat.sub_diag. cbn. apply app_nil_r.
Qed.
Lemma skipn_exact : forall (a b : str), skipn (List.length a) (a ++ b) = b.
Proof. intros. rewrite skipn_app, skipn_all, Nat.sub_diag. reflexivity. Qed.

Lemma scan_end : forall i iso, scan_letters i iso [] = (iso, None).
Proof. reflexivity. Qed.
(** name, number, sign *)
Lemma charged_ion : forall w1 name num c q w2, blank_text w1 -> blank_text w2 -> name_text name -> number_text num -> signed c (decimal num) q ->
  ion_parts (w1 ++ (name ++ num ++ [c]) ++ w2) = Value (titled name, q, None).
Proof.
  intros w1 name num c q w2 H1 H2 [Nn Nl] [Dn Dd] S. destruct (sign_facts c _ q S) as [L [W [Dg I]]]. unfold ion_parts.
  rewrite strip_wrap; [|exact H1| |destruct name; [contradiction|discriminate]|exact H2].
  2:{ apply Forall_app; split; [apply letters_nows, Nl|]. apply Forall_app; split; [apply digits_nows, Dd|constructor; [exact W|constructor]]. }
  rewrite !lower_app, (lower_digits num Dd). cbn [lower map]. rewrite L.
  change (scan_letters 0 [] (lower name ++ num ++ [c])) with (scan_letters 0 [] (lower name ++ (num ++ [c]))). rewrite (scan_name (lower name) 0 [] (num ++ [c])) by (apply lower_nodigit, Nl). destruct num as [|d ds]; [contradiction|].
  cbn [app]. rewrite scan_stop; [|inversion Dd; subst; apply (digit_facts d H3)|rewrite lower_length; destruct name; [contradiction|cbn; lia]].
  rewrite Nat.add_0_r. cbn [Nat.add]. rewrite skipn_exact.
  change (d :: ds ++ [c]) with ((d :: ds) ++ [c]). rewrite rev_app_distr. cbn [rev app]. 
  change (rev ds ++ [d]) with (rev (d :: ds)). rewrite rev_involutive. rewrite (I (d :: ds)); [|split; assumption|reflexivity]. cbn [bind].
  f_equal. f_equal. f_equal. unfold slice. rewrite Nat.sub_0_r. cbn [skipn]. rewrite firstn_app, firstn_all, Nat.sub_diag. cbn [firstn]. rewrite app_nil_r.
  apply capitalize_lower. exact Nl.
Qed.
Lemma neutral_ion : forall w1 name w2, blank_text w1 -> blank_text w2 -> name_text name -> ion_parts (w1 ++ name ++ w2) = Value (titled name, 0, None).
Proof.
  intros w1 name w2 H1 H2 [Nn Nl]. unfold ion_parts. rewrite strip_wrap; [|exact H1|apply letters_nows, Nl|exact Nn|exact H2].
  rewrite <- (app_nil_r (lower name)). rewrite (scan_name (lower name)) by (apply lower_nodigit, Nl). rewrite scan_end. cbn [skipn]. rewrite app_nil_r, capitalize_lower by exact Nl. reflexivity.
Qed.
Lemma isotope_neutral : forall w1 iso name w2, blank_text w1 -> blank_text w2 -> number_text iso -> name_text name ->
  ion_parts (w1 ++ (iso ++ name) ++ w2) = Value (titled name, 0, Some (decimal iso)).
Proof.
  intros w1 iso name w2 H1 H2 [In Id] [Nn Nl]. unfold ion_parts. rewrite strip_wrap; [|exact H1| |destruct iso; [contradiction|discriminate]|exact H2].
  2:{ apply Forall_app; split; [apply digits_nows, Id|apply letters_nows, Nl]. }
  rewrite lower_app, (lower_digits iso Id).
  assert (E : scan_letters 0 [] (iso ++ lower name) = (iso, None)).
  { pose proof (scan_digits iso (lower name) [] (decimals_digits iso Id)) as E. cbn [List.length app] in E. rewrite E. rewrite <- (app_nil_r (lower name)).
    rewrite scan_name by (apply lower_nodigit, Nl). reflexivity. }
  rewrite E. destruct iso as [|d ds]; [contradiction|]. rewrite skipn_exact, capitalize_lower by exact Nl. rewrite decimal_value by exact Id. reflexivity.
Qed.
(** isotope, name, number, sign: never the element *)
Lemma isotope_charged : forall w1 iso name num c q w2, blank_text w1 -> blank_text w2 -> number_text iso -> name_text name -> number_text num -> signed c (decimal num) q ->
  forall q' i, ion_parts (w1 ++ (iso ++ name ++ num ++ [c]) ++ w2) <> Value (titled name, q', i).
Proof.
  intros w1 iso name num c q w2 H1 H2 [In Id] [Nn Nl] [Dn Dd] S q' i. destruct (sign_facts c _ q S) as [L [W [Dg _]]]. unfold ion_parts.
  rewrite strip_wrap; [|exact H1| |destruct iso; [contradiction|discriminate]|exact H2].
  2:{ apply Forall_app; split; [apply digits_nows, Id|]. apply Forall_app; split; [apply letters_nows, Nl|]. apply Forall_app; split; [apply digits_nows, Dd|constructor; [exact W|constructor]]. }
  rewrite !lower_app, (lower_digits iso Id), (lower_digits num Dd). change (lower [c]) with [to_lower c]. rewrite L.
  assert (E : scan_letters 0 [] (iso ++ lower name ++ num ++ [c]) = (iso, Some (List.length iso + List.length name)%nat)).
  { pose proof (scan_digits iso (lower name ++ num ++ [c]) [] (decimals_digits iso Id)) as E. cbn [List.length app] in E. etransitivity; [exact E|].
    rewrite scan_name by (apply lower_nodigit, Nl). rewrite lower_length. destruct num as [|d ds]; [contradiction|]. cbn [app].
    apply scan_stop; [inversion Dd; subst; apply (digit_facts d H3)|]. destruct name; [contradiction|cbn; lia]. }
  rewrite E. destruct iso as [|d ds] eqn:Ei; [contradiction|]. rewrite <- Ei in *. clear E.
  destruct (rev (skipn (List.length iso + List.length name + List.length iso) (iso ++ lower name ++ num ++ [c]))) as [|x r]; [discriminate|].
  destruct (py_int (x :: rev r)) as [z|z]; cbn [bind]; [|discriminate]. intros F. injection F as F _ _.
  apply (f_equal (@List.length ascii)) in F.
  assert (Cl : forall s, List.length (capitalize s) = List.length s) by (intros [|a s]; [reflexivity|cbn; rewrite lower_length; reflexivity]).
  assert (Tl : List.length (titled name) = List.length name) by (destruct name; [reflexivity|cbn; rewrite map_length; reflexivity]).
  rewrite Cl, Tl in F. unfold slice in F. rewrite firstn_length, skipn_length, !app_length, lower_length in F. cbn [List.length] in F.
  assert (0 < List.length iso)%nat by (rewrite Ei; cbn; lia).
  lia.
Qed.
(** a sign without a number *)
Lemma bare_sign : forall w1 name c w2, blank_text w1 -> blank_text w2 -> name_text name -> c = "+"%char \/ c = "-"%char ->
  ion_parts (w1 ++ (name ++ [c]) ++ w2) = Value (titled name ++ [c], 0, None).
Proof.
  intros w1 name c w2 H1 H2 [Nn Nl] S.
  assert (F : is_ws c = false /\ to_lower c = c /\ is_digit c = false) by (destruct S; subst; repeat split; reflexivity). destruct F as [W [L D]].
  unfold ion_parts. rewrite strip_wrap; [|exact H1| |destruct name; [contradiction|discriminate]|exact H2].
  2:{ apply Forall_app; split; [apply letters_nows, Nl|constructor; [exact W|constructor]]. }
  rewrite lower_app. change (lower [c]) with [to_lower c]. rewrite L.
  assert (E : scan_letters 0 [] (lower name ++ [c]) = ([], None)).
  { rewrite <- (app_nil_r (lower name ++ [c])). rewrite scan_name; [reflexivity|]. apply Forall_app; split; [apply (lower_nodigit name Nl)|constructor; [exact D|constructor]]. }
  rewrite E. cbn [skipn]. f_equal. f_equal. f_equal. destruct name as [|a s]; [contradiction|]. pose proof (capitalize_lower (a :: s) Nl) as T.
  change (to_upper (to_lower a) :: lower (lower s) = large a :: map small s) in T.
  change (to_upper (to_lower a) :: lower (lower s ++ [c]) = large a :: (map small s ++ [c])). injection T as T1 T2. rewrite T1, lower_app, T2.
  change (lower [c]) with [to_lower c]. rewrite L. reflexivity.
Qed.
