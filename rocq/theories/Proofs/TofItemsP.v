(** Proofs about the background and the incident spectrum of a time-of-flight experiment (C114). *)
From Coq Require Import Reals Lra Lia List String.
From Verif Require Import Spec.TofItemSpec Model.Background Model.TofItems.
Import ListNotations.
Open Scope list_scope.
Open Scope R_scope.

Definition coefficient (b : tbkg) (i : nat) : R := coeff_value (nth i (tb_attrs b) None).
Lemma cos_sum_series : forall cs T x i, cos_sum 0 T cs i x = fold_right Rplus 0 (map (fun j => nth (j - i) cs 0 * cos (INR j * PI * (x / T))) (seq i (List.length cs))).
Proof.
  induction cs as [|c cs IH]; intros T x i; [reflexivity|]. cbn [cos_sum List.length seq map fold_right]. rewrite Nat.sub_diag. cbn [nth]. rewrite IH. f_equal.
  - unfold cos_res. do 2 f_equal. rewrite Rminus_0_r. ring.
  - f_equal. apply map_ext_in. intros j Hj. apply in_seq in Hj. replace (j - i)%nat with (S (j - S i)) by lia. reflexivity.
Qed.
Lemma add_terms_sum : forall l k T x res, add_terms l k (x / T * PI) res = res + cos_sum 0 T (map coeff_value l) k x.
Proof.
  induction l as [|[[c f]|] l IH]; intros k T x res; cbn [add_terms map coeff_value cos_sum]; [lra| |]; rewrite IH; [|lra].
  unfold cos_res. rewrite Rminus_0_r. lra.
Qed.
Lemma item_sum : forall b t, item_background b t = cos_sum 0 (tb_time_max b) (map coeff_value (tb_attrs b)) 0 t.
Proof.
  intros b t. unfold item_background, tb_attrs. cbv zeta. rewrite add_terms_sum. cbn [map cos_sum]. destruct (tb_first b) as [c f]. cbn [coeff_value fst].
  unfold cos_res. rewrite Rminus_0_r. cbn [INR]. reflexivity.
Qed.
Lemma item_series : forall b t, item_background b t = cosine_series (coefficient b) (S (List.length (tb_rest b))) (tb_time_max b) t.
Proof.
  intros b t. rewrite item_sum, cos_sum_series, map_length. unfold cosine_series, tb_attrs at 2. cbn [List.length]. f_equal. apply map_ext. intros j. rewrite Nat.sub_0_r. f_equal.
  unfold coefficient. change 0 with (coeff_value None) at 1. apply map_nth.
Qed.
Lemma last_ge : forall (A : Type) (l : list (option A)) numb last, (last <= numb)%nat -> (last <= last_number l numb last)%nat.
Proof. intros A. induction l as [|[a|] l IH]; intros numb last H; cbn [last_number]; [lia| |]; [specialize (IH (S numb) numb ltac:(lia))|specialize (IH (S numb) last ltac:(lia))]; lia. Qed.
Lemma last_none : forall (A : Type) (l : list (option A)) numb last, (last <= numb)%nat -> forall j, (last_number l numb last < numb + j)%nat -> nth j l None = None.
Proof.
  intros A. induction l as [|[a|] l IH]; intros numb last H j J; cbn [last_number] in J.
  - destruct j; reflexivity.
  - destruct j as [|j]; [pose proof (last_ge A l (S numb) numb ltac:(lia)); lia|]. cbn [nth]. apply (IH (S numb) numb); lia.
  - destruct j as [|j]; [reflexivity|]. cbn [nth]. apply (IH (S numb) last); lia.
Qed.
Lemma cut_sum : forall l m T x i, (forall j, (m <= j)%nat -> nth j l None = None) -> cos_sum 0 T (firstn m (map coeff_value l)) i x = cos_sum 0 T (map coeff_value l) i x.
Proof.
  induction l as [|o l IH]; intros m T x i H; [destruct m; reflexivity|]. destruct m as [|m].
  - cbn [firstn map cos_sum]. pose proof (H 0%nat (le_n _)) as H0. cbn [nth] in H0. subst o. cbn [coeff_value]. rewrite <- (IH 0%nat T x (S i)) by (intros j _; apply (H (S j)); lia). cbn [firstn cos_sum]. lra.
  - cbn [firstn map cos_sum]. rewrite IH by (intros j J; apply (H (S j)); lia). reflexivity.
Qed.
Lemma cut_coefficients : forall b T x, cos_sum 0 T (get_coefficients b) 0 x = cos_sum 0 T (map coeff_value (tb_attrs b)) 0 x.
Proof. intros b T x. apply cut_sum. intros j J. apply (last_none _ (tb_attrs b) 1 1); lia. Qed.
Definition with_time_max (b : tbkg) (T : R) : tbkg := mkTBkg T (tb_first b) (tb_rest b).
Lemma fit_item : forall times b k, (k < List.length times)%nat -> nth k (fit_background times b) 0 = item_background (with_time_max b (lmax times)) (nth k times 0).
Proof.
  intros times b k K. unfold fit_background, calc_background_by_cosines, cos_x_max.
  rewrite (nth_indep _ 0 (cos_sum 0 (lmax times) (get_coefficients b) 0 0)) by (rewrite map_length; exact K). rewrite map_nth, cut_coefficients, item_sum. reflexivity.
Qed.
Lemma fit_agrees : forall times b k, (k < List.length times)%nat -> lmax times = tb_time_max b -> nth k (fit_background times b) 0 = item_background b (nth k times 0).
Proof. intros times b k K E. rewrite fit_item by exact K. rewrite E. destruct b; reflexivity. Qed.
Lemma fit_differs : forall T, 0 < T -> exists b times t, tb_time_max b = T /\ times = [t] /\ 0 < t < T /\ nth 0 (fit_background times b) 0 <> item_background b t.
Proof.
  intros T HT. exists (mkTBkg T (0, false) [Some (1, true)]), [T / 2], (T / 2). split; [reflexivity|]. split; [reflexivity|]. split; [lra|].
  rewrite fit_item by (cbn; lia). cbn [nth]. unfold item_background, with_time_max. cbn [tb_first tb_rest tb_time_max add_terms fst lmax fold_left INR].
  replace (T / 2 / (T / 2)) with 1 by (field; lra). replace (1 * (T / 2 / T * PI)) with (PI / 2) by (field; lra). rewrite !Rmult_1_l, cos_PI, cos_PI2. lra.
Qed.
Lemma range_differs : forall t, 0 < t -> exists b, nth 0 (fit_background [t; 2 * t] b) 0 <> nth 0 (fit_background [t] b) 0.
Proof.
  intros t Ht. exists (mkTBkg (2 * t) (0, false) [Some (1, true)]). rewrite !fit_item by (cbn; lia). cbn [nth]. unfold item_background, with_time_max. cbn [tb_first tb_rest tb_time_max add_terms fst lmax fold_left INR].
  rewrite Rmax_right by lra. replace (t / t) with 1 by (field; lra). replace (1 * (t / (2 * t) * PI)) with (PI / 2) by (field; lra). rewrite !Rmult_1_l, cos_PI, cos_PI2. lra.
Qed.
Lemma cut_length : forall (A : Type) (l : list (option A)) numb last, (1 <= numb)%nat -> (last <= numb - 1)%nat -> (last_number l numb last <= numb - 1 + List.length l)%nat.
Proof. intros A. induction l as [|[a|] l IH]; intros numb last H L; cbn [last_number List.length]; [lia| |]; [specialize (IH (S numb) numb ltac:(lia) ltac:(lia))|specialize (IH (S numb) last ltac:(lia) ltac:(lia))]; lia. Qed.
Lemma cut_bounds : forall b, (1 <= last_number (tb_attrs b) 1 1 <= List.length (tb_attrs b))%nat.
Proof. intros b. unfold tb_attrs. cbn [last_number List.length]. pose proof (last_ge _ (tb_rest b) 2 1 ltac:(lia)). pose proof (cut_length _ (tb_rest b) 2 1 ltac:(lia) ltac:(lia)). lia. Qed.
Lemma flags_match : forall b, List.length (get_flags_coefficients b) = List.length (get_coefficients b) /\
  forall k c f, nth k (tb_attrs b) None = Some (c, f) -> nth_error (get_coefficients b) k = Some c /\ nth_error (get_flags_coefficients b) k = Some f.
Proof.
  intros b. split; [unfold get_flags_coefficients, get_coefficients; rewrite !firstn_length, !map_length; reflexivity|]. intros k c f H.
  assert (K : (k < last_number (tb_attrs b) 1 1)%nat). { destruct (Nat.lt_ge_cases k (last_number (tb_attrs b) 1 1)) as [L|L]; [exact L|]. rewrite (last_none _ (tb_attrs b) 1 1 (le_n _) k) in H by lia. discriminate H. }
  assert (E : nth_error (tb_attrs b) k = Some (Some (c, f))). { rewrite <- H. apply nth_error_nth'. pose proof (cut_bounds b). lia. }
  assert (FN : forall (A : Type) (l : list A) n j, (j < n)%nat -> nth_error (firstn n l) j = nth_error l j).
  { intros A. induction l as [|a l IH]; intros n j J; destruct n; [lia|reflexivity|lia|]. destruct j; [reflexivity|]. cbn. apply IH. lia. }
  unfold get_coefficients, get_flags_coefficients. rewrite !FN by exact K. rewrite !nth_error_map, E. split; reflexivity.
Qed.
Lemma put_last : forall cs l numb last, (List.length cs <= List.length l)%nat -> (forall j, (List.length cs <= j)%nat -> nth j l None = None) -> (1 <= numb)%nat -> (last <= numb - 1)%nat ->
  last_number (put l cs) numb last = match cs with [] => last | _ => (numb + List.length cs - 1)%nat end.
Proof.
  induction cs as [|c cs IH]; intros l numb last L N H1 H2.
  - assert (G : forall (m : list (option (R * bool))) n, (forall j, nth j m None = None) -> last_number m n last = last).
    { induction m as [|o m IHm]; intros n Hm; [reflexivity|]. pose proof (Hm 0%nat) as H0. cbn [nth] in H0. subst o. cbn [last_number]. apply IHm. intros j. exact (Hm (S j)). }
    destruct l as [|o l]; [reflexivity|]. cbn [put]. apply G. intros j. apply N. cbn; lia.
  - destruct l as [|o l]; [cbn in L; lia|]. cbn [put last_number]. cbn [List.length] in *. rewrite IH; [destruct cs; cbn [List.length]; lia|lia| |lia|lia]. intros j J. apply (N (S j)). lia.
Qed.
Lemma put_values : forall cs l, (List.length cs <= List.length l)%nat -> firstn (List.length cs) (map coeff_value (put l cs)) = cs.
Proof. induction cs as [|c cs IH]; intros l L; [reflexivity|]. destruct l as [|o l]; [cbn in L; lia|]. cbn in *. f_equal. apply IH. lia. Qed.
Lemma written_back : forall b cs, List.length cs = List.length (get_coefficients b) -> get_coefficients (put_back b cs) = cs /\ tb_time_max (put_back b cs) = tb_time_max b /\
  get_flags_coefficients (put_back b cs) = get_flags_coefficients b.
Proof.
  intros b cs L. pose proof (cut_bounds b) as [B1 B2]. unfold get_coefficients in L. rewrite firstn_length, map_length, Nat.min_l in L by exact B2.
  destruct cs as [|c cs]; [cbn [List.length] in L; lia|]. cbn [List.length] in L.
  assert (N : forall j, (List.length cs <= j)%nat -> nth j (tb_rest b) None = None).
  { intros j J. change (nth (S j) (tb_attrs b) None = None). apply (last_none _ (tb_attrs b) 1 1); lia. }
  assert (LL : (List.length cs <= List.length (tb_rest b))%nat) by (change (List.length (tb_attrs b)) with (S (List.length (tb_rest b))) in B2; lia).
  assert (LN : last_number (tb_attrs (put_back b (c :: cs))) 1 1 = S (List.length cs)).
  { unfold tb_attrs, put_back. cbn [tb_first tb_rest last_number]. rewrite put_last by (try assumption; lia). destruct cs; cbn [List.length]; lia. }
  split; [|split; [reflexivity|]].
  - unfold get_coefficients. rewrite LN. unfold tb_attrs, put_back. cbn [tb_first tb_rest map coeff_value firstn]. f_equal. apply put_values, LL.
  - unfold get_flags_coefficients. rewrite LN, <- L. unfold tb_attrs, put_back. cbn [tb_first tb_rest map coeff_flag fst snd]. destruct (tb_first b) as [c0 f0]. cbn [coeff_flag snd]. f_equal. f_equal.
    clear. generalize (tb_rest b). induction cs as [|d cs IH]; intros l; destruct l as [|o l]; try reflexivity. cbn [put map]. rewrite IH. destruct o as [[u v]|]; reflexivity.
Qed.
Lemma spectrum_documented : forall kind a t, fit_spectrum kind a t = item_spectrum kind a t /\
  item_spectrum kind a t = if String.eqb kind "Empirical-Exponents" then empirical_spectrum a t else maxwell_spectrum a t.
Proof.
  intros kind a t. split; [reflexivity|]. unfold item_spectrum. cbv zeta. destruct (String.eqb kind "Empirical-Exponents").
  - unfold empirical_spectrum. repeat (f_equal; try (f_equal; ring)).
  - unfold maxwell_spectrum. replace (t * (t * t * (t * t))) with (t ^ 5) by ring. unfold Rdiv. rewrite <- (Rmult_assoc (a 1%nat)). repeat (f_equal; try (f_equal; ring)).
Qed.
Lemma spectrum_positive : forall kind a t, 0 < t -> 0 <= a 0%nat -> 0 < a 1%nat -> 0 <= a 3%nat -> 0 <= a 5%nat -> 0 <= a 7%nat -> 0 < item_spectrum kind a t.
Proof.
  intros kind a t T H0 H1 H3 H5 H7. assert (P : forall c y, 0 <= c -> 0 <= c * exp y) by (intros c y Hc; apply Rmult_le_pos; [exact Hc|apply Rlt_le, exp_pos]).
  assert (Q : forall y, 0 < a 1%nat * exp y) by (intros y; apply Rmult_lt_0_compat; [exact H1|apply exp_pos]).
  unfold item_spectrum. cbv zeta. destruct (String.eqb _ _).
  - pose proof (Q (- a 2%nat * t)). pose proof (P _ (- a 4%nat * (t * t)) H3). pose proof (P _ (- a 6%nat * t * (t * t)) H5). pose proof (P _ (- a 8%nat * (t * t * (t * t))) H7). lra.
  - assert (0 < a 1%nat * exp (- a 2%nat * (t * t)) / (t * (t * t * (t * t)))) by (apply Rdiv_lt_0_compat; [apply Q|repeat apply Rmult_lt_0_compat; exact T]).
    pose proof (P _ (- a 4%nat * (t * t)) H3). pose proof (P _ (- a 6%nat * t * (t * t)) H5). pose proof (P _ (- a 8%nat * (t * t * (t * t))) H7). lra.
Qed.
Lemma dictionary_iff : forall items, (exists l, data_dictionary items = Some l) <-> forall kind a flags, ~ In (TIncident kind a flags) items.
Proof.
  induction items as [|x r IH]; [split; [intros _ kind a flags []|intros _; exists []; reflexivity]|]. split.
  - intros [l H] kind a flags [->|I]; [discriminate H|]. cbn [data_dictionary] in H. destruct (item_dictionary x); [|discriminate H]. destruct (data_dictionary r) eqn:E; [|discriminate H].
    exact (proj1 IH (ex_intro _ _ eq_refl) kind a flags I).
  - intros H. destruct (proj2 IH (fun k a f I => H k a f (or_intror I))) as [l E]. destruct x as [b|k a f]; [|exfalso; exact (H k a f (or_introl eq_refl))].
    cbn [data_dictionary item_dictionary]. rewrite E. eexists; reflexivity.
Qed.
Lemma lmax_greatest : forall l T, In T l -> (forall x, In x l -> x <= T) -> lmax l = T.
Proof.
  intros l T I H. destruct l as [|x r]; [destruct I|]. unfold lmax.
  assert (G : forall m y, y <= T -> (forall z, In z m -> z <= T) -> y <= fold_left Rmax m y <= T /\ forall z, In z m -> z <= fold_left Rmax m y).
  { induction m as [|z m IH]; intros y Y Hm; cbn [fold_left]; [split; [lra|intros z []]|].
    destruct (IH (Rmax y z)) as [A B]; [apply Rmax_lub; [exact Y|apply Hm; left; reflexivity]|intros w Hw; apply Hm; right; exact Hw|]. pose proof (Rmax_l y z). pose proof (Rmax_r y z).
    split; [lra|]. intros w [<-|W]; [lra|apply B, W]. }
  destruct (G r x (H x (or_introl eq_refl)) (fun z Hz => H z (or_intror Hz))) as [A B]. destruct I as [<-|I]; [lra|]. pose proof (B T I). lra.
Qed.
Lemma fit_series : forall times b k T, (k < List.length times)%nat -> In T times -> (forall x, In x times -> x <= T) ->
  nth k (fit_background times b) 0 = cosine_series (fun i => coeff_value (nth i (tb_attrs b) None)) (S (List.length (tb_rest b))) T (nth k times 0).
Proof. intros times b k T K I H. rewrite fit_item, (lmax_greatest _ T I H) by exact K. apply (item_series (with_time_max b T)). Qed.
Lemma fit_same : forall times b k, (k < List.length times)%nat -> In (tb_time_max b) times -> (forall x, In x times -> x <= tb_time_max b) ->
  nth k (fit_background times b) 0 = item_background b (nth k times 0).
Proof. intros times b k K I H. apply fit_agrees; [exact K|]. apply lmax_greatest; assumption. Qed.
Lemma ex_met : fit_background [1; 2] (mkTBkg 2 (3, true) [None; Some (4, false)]) = [-1; 7] /\ get_coefficients (mkTBkg 2 (3, true) [None; Some (4, false); None]) = [3; 0; 4] /\
  get_flags_coefficients (mkTBkg 2 (3, true) [None; Some (4, false); None]) = [true; false; false].
Proof.
  split; [|split; reflexivity]. unfold fit_background, calc_background_by_cosines, cos_x_max. cbn [map lmax fold_left]. rewrite Rmax_right by lra.
  cbn [get_coefficients tb_attrs tb_first tb_rest last_number map coeff_value firstn cos_sum]. unfold cos_res. cbn [INR].
  replace (0 * ((1 - 0) / 2 * PI)) with 0 by ring. replace (1 * ((1 - 0) / 2 * PI)) with (PI / 2) by field. replace ((1 + 1) * ((1 - 0) / 2 * PI)) with PI by field.
  replace (0 * ((2 - 0) / 2 * PI)) with 0 by ring. replace (1 * ((2 - 0) / 2 * PI)) with PI by field. replace ((1 + 1) * ((2 - 0) / 2 * PI)) with (2 * PI) by field.
  rewrite cos_0, cos_PI2, cos_PI, cos_2PI. f_equal; [lra|f_equal; lra].
Qed.
