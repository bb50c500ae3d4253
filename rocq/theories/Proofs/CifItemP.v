(** Lemmas: text of an item, and its way back. *)
From Coq Require Import QArith List String Ascii Bool Arith Lia.
From Verif Require Import Spec.Objects Spec.ItemSpec Spec.StarSpec Spec.CifSpec Model.Strings Model.Numbers Model.Items Model.CifText Proofs.ItemsP Proofs.CifTextP.
Import ListNotations.
Open Scope string_scope.
Open Scope list_scope.

Lemma word_app : forall a b, word a -> word b -> word (a ++ b).
Proof. intros a b A B c C. apply in_app_or in C as [C|C]; auto. Qed.
Lemma columns_in : forall c a, In a (columns_of c) -> In (fst a) (ATTR_NAMES (BASE c)) /\ In (snd a) (ATTR_CIF c).
Proof. intros c [n k] H. split; [eapply in_combine_l|eapply in_combine_r]; exact H. Qed.

Lemma item_text : forall c d sep, cif_class_ok c -> word sep -> writable c d ->
  exists s, item_to_cif c d sep = Some s /\ contents s = Some (item_contents c d sep).
Proof.
  intros c d sep K W WR. unfold item_to_cif.
  assert (H : exists ls, all_some (map (attr_lines c d sep) (columns_of c)) = Some ls /\ chunk (List.concat ls) (List.concat (map entry_tokens (item_contents c d sep)))).
  2:{ destruct H as (ls & E & C). rewrite E. cbn. eexists; split; [reflexivity|]. apply chunk_contents; [exact C|].
      unfold item_contents. apply Forall_flat_map. apply Forall_forall. intros a _. destruct (shown c d (fst a)); repeat constructor. }
  unfold item_contents. assert (IN : incl (columns_of c) (columns_of c)) by apply incl_refl. revert IN. generalize (columns_of c) at 1 3 4.
  induction l as [|[name cif] l IH]; intros IN.
  - exists []. split; [reflexivity|]. now left.
  - destruct (IH (fun x X => IN x (or_intror X))) as (ls & E & C). clear IH.
    destruct (columns_in c (name, cif) (IN _ (or_introl eq_refl))) as [IN1 IN2]. cbn [fst snd] in IN1, IN2. cbn [map flat_map fst snd].
    unfold attr_lines at 1. destruct (dget d name) as [v|] eqn:D.
    2:{ assert (SN : shown c d name = None) by (unfold shown; now rewrite D). rewrite SN. exists ([] :: ls). cbn [all_some]. rewrite E. split; [reflexivity|]. exact C. }
    destruct (WR name v IN1 D) as (s & PT & R). rewrite PT.
    assert (NE : String.eqb cif "" = false).
    { apply String.eqb_neq. intros ->. apply (ck_nonempty c K). exact IN2. }
    rewrite NE. set (key := full_name (tx (PREFIX (BASE c))) sep (tx cif)).
    assert (WK : word (tx (PREFIX (BASE c)) ++ sep ++ tx cif)).
    { apply word_app; [apply (ck_prefix c K)|]. apply word_app; [exact W|]. pose proof (ck_words c K) as F. rewrite Forall_forall in F. now apply F. }
    assert (G : exists l1 t, (if has_newline s then Some [key; [";"%char]; s; [";"%char]] else if has_space s then Some [key ++ c_space :: quoted s]
                 else option_map (fun t => [key ++ c_space :: t]) (as_string c d name)) = Some l1 /\
               shown c d name = Some t /\
               chunk l1 (entry_tokens (EItem (key_of c sep cif) t))).
    { unfold shown. rewrite D, PT. destruct (has_newline s).
      - do 2 eexists. repeat split. right. split; [discriminate|]. cbn [entry_tokens]. unfold key_of. now apply block_scans.
      - destruct (has_space s).
        + do 2 eexists. repeat split. right. split; [discriminate|]. cbn [join_lines entry_tokens]. unfold key_of.
          apply (seq_scans key [TName (lower key)] c_space (quoted s) [TValue s]); [now apply name_scans|reflexivity|]. apply scans_scans_in. now apply quoted_scans.
        + destruct R as (t & AS & B). rewrite AS. do 2 eexists. repeat split. right. split; [discriminate|]. cbn [join_lines entry_tokens]. unfold key_of.
          apply (seq_scans key [TName (lower key)] c_space t [TValue t]); [now apply name_scans|reflexivity|]. now apply bare_scans. }
    destruct G as (l1 & t & G1 & G2 & G3). rewrite G1.
    rewrite G2. cbn [all_some]. rewrite E. exists (l1 :: ls). split; [reflexivity|].
    cbn [List.concat]. rewrite map_app, concat_app. apply chunk_app; [|exact C]. cbn [map List.concat]. now rewrite app_nil_r.
Qed.

(** * Reading *)
Lemma setattr_any : forall c k raw v, In k (ATTR_NAMES c) -> setattr c [] k raw = Some [(k, v)] ->
  forall a, exists a', setattr c a k raw = Some a' /\ dget a' k = Some v /\ forall j, j <> k -> In j (kept_names c) -> dget a' j = dget a j.
Proof.
  intros c k raw v IN H a. unfold setattr in *. destruct (is_none raw).
  - injection H as H. eexists. split; [reflexivity|]. split; [now rewrite dget_dput_same, H|]. intros j J _. now apply dget_dput_other.
  - assert (I : isin k (ATTR_NAMES c) = true) by now apply isin_iff. rewrite I in *.
    destruct (convert c k raw) as [w|]; [|discriminate]. destruct (clamp_min c k w) as [w1|]; [|discriminate].
    destruct (clamp_max c k w1) as [w2|]; [|discriminate]. destruct (permitted c k w); [|discriminate]. injection H as H. subst w2.
    eexists. split; [reflexivity|]. split; [apply dget_dput_same|]. intros j J KN. rewrite dget_dput_other by exact J.
    rewrite dget_del. apply isin_iff in KN. now rewrite KN.
Qed.
Lemma nodup_app_disj : forall (A : Type) (l m : list A) x, NoDup (l ++ m) -> In x l -> In x m -> False.
Proof. intros A l m x. induction l as [|y l IH]; intros N L M; [easy|]. cbn in N. inversion N; subst. destruct L as [->|L]; [apply H1, in_or_app; now right|auto]. Qed.
Lemma nodup_app_r : forall (A : Type) (l m : list A), NoDup (l ++ m) -> NoDup m.
Proof. intros A l m. induction l; intros N; [exact N|]. inversion N; auto. Qed.
Lemma nodup_app_l : forall (A : Type) (l m : list A), NoDup (l ++ m) -> NoDup l.
Proof. intros A l m. induction l as [|x l IH]; intros N; [constructor|]. inversion N; subst. constructor; auto. intro. apply H1, in_or_app; now left. Qed.
Lemma append_inj : forall a b s : string, (a ++ s)%string = (b ++ s)%string -> a = b.
Proof.
  intros a b s H. assert (L : String.length (a ++ s) = String.length (b ++ s)) by now rewrite H.
  assert (LA : forall x y, String.length (x ++ y) = (String.length x + String.length y)%nat) by (induction x; cbn; auto).
  rewrite !LA in L. revert b H L. induction a as [|x a IH]; intros [|y b] H L; cbn in *; try lia; auto.
  injection H as -> H. f_equal. apply IH; [exact H|lia].
Qed.
Lemma suffixed_in : forall s l k, In k l -> In (k ++ s)%string (suffixed s l).
Proof. intros s l k H. unfold suffixed. apply in_map_iff. now exists k. Qed.

Section Own.
Variable c : cif_class.
Hypothesis K : cif_class_ok c.
Let C := BASE c.
Lemma sigma_in : forall k, In k (ATTR_REF C) -> In (k ++ "_sigma")%string (ATTR_SIGMA C).
Proof. intros k H. unfold C. rewrite (ck_sigma c K). now apply suffixed_in. Qed.
Lemma flag_in : forall k, In k (ATTR_REF C) -> In (k ++ "_refinement")%string (ATTR_REF_FLAG C).
Proof. intros k H. unfold C. rewrite (ck_flag c K). now apply suffixed_in. Qed.
Lemma mark_in : forall k, In k (ATTR_REF C) -> In (k ++ "_mark")%string (ATTR_CONSTR_MARK C).
Proof. intros k H. unfold C. rewrite (ck_mark c K). now apply suffixed_in. Qed.
(** The groups of names are disjoint. *)
Definition grp (n : nat) : list string := match n with 0%nat => ATTR_NAMES C | 1%nat => ATTR_SIGMA C | 2%nat => ATTR_CONSTR_FLAG C | 3%nat => ATTR_REF_FLAG C | _ => ATTR_CONSTR_MARK C end.
Lemma grp_disj : forall i j x, (i < j <= 4)%nat -> In x (grp i) -> In x (grp j) -> False.
Proof.
  pose proof (ck_names c K) as N. fold C in N. intros i j x L A B.
  assert (T : forall i, (i < 4)%nat -> In x (grp i) -> forall j, (i < j <= 4)%nat -> In x (grp j) -> False).
  { clear i j L A B. intros [|[|[|[|i]]]] I A j L B; cbn in A; [..|lia].
    - eapply nodup_app_disj; [exact N|exact A|]. destruct j as [|[|[|[|[|]]]]]; cbn in B; try lia; rewrite !in_app_iff; tauto.
    - apply nodup_app_r in N. eapply nodup_app_disj; [exact N|exact A|]. destruct j as [|[|[|[|[|]]]]]; cbn in B; try lia; rewrite !in_app_iff; tauto.
    - apply nodup_app_r, nodup_app_r in N. eapply nodup_app_disj; [exact N|exact A|]. destruct j as [|[|[|[|[|]]]]]; cbn in B; try lia; rewrite !in_app_iff; tauto.
    - apply nodup_app_r, nodup_app_r, nodup_app_r in N. eapply nodup_app_disj; [exact N|exact A|]. destruct j as [|[|[|[|[|]]]]]; cbn in B; try lia; tauto. }
  assert (I : (i < 4)%nat) by lia. exact (T i I A j L B).
Qed.
Lemma grp_kept : forall i x, In x (grp i) -> In x (kept_names C).
Proof. intros i x H. unfold kept_names. rewrite !in_app_iff. destruct i as [|[|[|[|]]]]; cbn in H; tauto. Qed.
Lemma not_grp : forall i j x, i <> j -> (i <= 4)%nat -> (j <= 4)%nat -> In x (grp i) -> isin x (grp j) = false.
Proof. intros i j x N I J H. apply isin_false. intro B. destruct (lt_eq_lt_dec i j) as [[L|L]|L]; [|easy|]; [apply (grp_disj i j x)|apply (grp_disj j i x)]; auto; lia. Qed.

(** Keys that belong to an attribute. *)
Definition own (k : string) : list string := if isin k (ATTR_REF C) then [k; (k ++ "_sigma")%string; (k ++ "_refinement")%string; (k ++ "_mark")%string] else [k].
Lemma own_grp : forall k x, In k (ATTR_NAMES C) -> In x (own k) -> exists i, (i <= 4)%nat /\ In x (grp i).
Proof.
  intros k x H X. unfold own in X. destruct (isin k (ATTR_REF C)) eqn:R; [apply isin_iff in R|].
  - destruct X as [<-|[<-|[<-|[<-|[]]]]]; [exists 0%nat|exists 1%nat|exists 3%nat|exists 4%nat]; (split; [lia|cbn]); auto using sigma_in, flag_in, mark_in.
  - destruct X as [<-|[]]. exists 0%nat. split; [lia|exact H].
Qed.
Lemma own_disj : forall k k' x, In k (ATTR_NAMES C) -> In k' (ATTR_NAMES C) -> k <> k' -> In x (own k) -> In x (own k') -> False.
Proof.
  intros k k' x H H' N X X'. unfold own in *. change (In k (grp 0%nat)) in H. change (In k' (grp 0%nat)) in H'.
  assert (G : forall q, isin q (ATTR_REF C) = true -> In (q ++ "_sigma")%string (grp 1%nat) /\ In (q ++ "_refinement")%string (grp 3%nat) /\ In (q ++ "_mark")%string (grp 4%nat)).
  { intros q Q. apply isin_iff in Q. cbn. auto using sigma_in, flag_in, mark_in. }
  assert (D : forall i j y, (i < j <= 4)%nat -> In y (grp i) -> In y (grp j) -> False) by exact grp_disj.
  destruct (isin k (ATTR_REF C)) eqn:R, (isin k' (ATTR_REF C)) eqn:R'.
  - destruct (G _ R) as (G1 & G2 & G3), (G _ R') as (G1' & G2' & G3').
    destruct X as [<-|[<-|[<-|[<-|[]]]]], X' as [X'|[X'|[X'|[X'|[]]]]]; try (apply N; now apply append_inj in X'); try (apply N; now rewrite X').
    all: try (rewrite <- X' in *).
    all: match goal with A : In ?y (grp ?i), B : In ?y (grp ?j) |- _ => apply (D i j y); [lia|exact A|exact B] end.
  - destruct (G _ R) as (G1 & G2 & G3). destruct X' as [<-|[]]. destruct X as [X|[X|[X|[X|[]]]]]; [now apply N| | |]; rewrite X in *.
    + eapply (D 0%nat 1%nat); [lia|exact H'|exact G1].
    + eapply (D 0%nat 3%nat); [lia|exact H'|exact G2].
    + eapply (D 0%nat 4%nat); [lia|exact H'|exact G3].
  - destruct (G _ R') as (G1 & G2 & G3). destruct X as [<-|[]]. destruct X' as [X|[X|[X|[X|[]]]]]; [now apply N| | |]; rewrite X in *.
    + eapply (D 0%nat 1%nat); [lia|exact H|exact G1].
    + eapply (D 0%nat 3%nat); [lia|exact H|exact G2].
    + eapply (D 0%nat 4%nat); [lia|exact H|exact G3].
  - destruct X as [<-|[]], X' as [X|[]]. now apply N.
Qed.
End Own.
