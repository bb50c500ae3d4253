From Coq Require Import QArith List String Ascii Bool Lia.
From Verif Require Import Spec.Objects Model.Items Spec.ItemSpec.
Import ListNotations.
Open Scope string_scope.

Lemma isin_iff : forall k l, isin k l = true <-> In k l.
Proof.
  intros k l. unfold isin. rewrite existsb_exists. split.
  - intros (x & H & E). apply String.eqb_eq in E. subst. exact H.
  - intros H. exists k. split; [exact H|apply String.eqb_refl].
Qed.
Lemma isin_false : forall k l, isin k l = false <-> ~ In k l.
Proof. intros k l. rewrite <- isin_iff. destruct (isin k l); split; intros; congruence. Qed.
Lemma dget_dput_same : forall d k v, dget (dput d k v) k = Some v.
Proof.
  induction d as [|[k' v'] d IH]; intros k v; cbn; [rewrite String.eqb_refl; reflexivity|].
  destruct (String.eqb k k') eqn:E; cbn; [rewrite String.eqb_refl; reflexivity|rewrite E; apply IH].
Qed.
Lemma dget_dput_other : forall d k k' v, k' <> k -> dget (dput d k v) k' = dget d k'.
Proof.
  induction d as [|[k0 v0] d IH]; intros k k' v N; cbn.
  - destruct (String.eqb_spec k' k); [contradiction|reflexivity].
  - destruct (String.eqb_spec k k0) as [->|N0]; cbn.
    + destruct (String.eqb_spec k' k0); [contradiction|reflexivity].
    + destruct (String.eqb k' k0); [reflexivity|apply IH; exact N].
Qed.
Lemma dget_filter : forall d p k, dget (filter (fun q => p (fst q)) d) k = if p k then dget d k else None.
Proof.
  induction d as [|[k0 v0] d IH]; intros p k; cbn; [destruct (p k); reflexivity|].
  destruct (p k0) eqn:P; cbn.
  - destruct (String.eqb_spec k k0) as [->|N]; [rewrite P; reflexivity|apply IH].
  - destruct (String.eqb_spec k k0) as [->|N]; [rewrite IH, P; reflexivity|apply IH].
Qed.
Lemma dget_del : forall c d k, dget (delete_internal_parameters c d) k = if isin k (kept_names c) then dget d k else None.
Proof. intros. unfold delete_internal_parameters. apply (dget_filter d (fun k => isin k (kept_names c))). Qed.
Lemma data_kept : forall c k, In k (ATTR_NAMES c) -> In k (kept_names c).
Proof. intros. unfold kept_names. apply in_or_app. left. assumption. Qed.

(** The cases of an assignment. *)
Lemma setattr_cases : forall c d name v d', setattr c d name v = Some d' ->
  (is_none v = true /\ d' = dput d name VNone) \/
  (is_none v = false /\ In name (ATTR_NAMES c) /\ exists w w1 w2, convert c name v = Some w /\ clamp_min c name w = Some w1 /\ clamp_max c name w1 = Some w2 /\
     ((permitted c name w = true /\ d' = dput (delete_internal_parameters c d) name w2) \/
      (permitted c name w = false /\ d' = delete_internal_parameters c d))) \/
  (is_none v = false /\ ~ In name (ATTR_NAMES c) /\ exists w, d' = dput d name w).
Proof.
  intros c d name v d' H. unfold setattr in H. destruct (is_none v) eqn:N.
  - left. injection H as <-. auto.
  - right. destruct (isin name (ATTR_NAMES c)) eqn:I.
    + left. apply isin_iff in I. split; [reflexivity|]. split; [exact I|]. destruct (convert c name v) as [w|]; [|discriminate].
      destruct (clamp_min c name w) as [w1|] eqn:E1; [|discriminate]. destruct (clamp_max c name w1) as [w2|] eqn:E2; [|discriminate].
      exists w, w1, w2. repeat (split; [auto; fail|]). destruct (permitted c name w) eqn:P; injection H as <-; auto.
    + right. apply isin_false in I. split; [reflexivity|]. split; [exact I|]. destruct (isin name (ATTR_SIGMA c)).
      * destruct (py_float v) as [w|]; [|discriminate]. injection H as <-. exists w. reflexivity.
      * destruct (isin name (ATTR_CONSTR_FLAG c ++ ATTR_REF_FLAG c)); [injection H as <-; eexists; reflexivity|].
        destruct (isin name (ATTR_CONSTR_MARK c)); injection H as <-; eexists; reflexivity.
Qed.

(** * Limits *)
Lemma qle_true : forall x y, Qle_bool x y = true -> (x <= y)%Q.
Proof. intros. apply Qle_bool_iff. assumption. Qed.
Lemma qle_false : forall x y, Qle_bool x y = false -> (y < x)%Q.
Proof. intros x y H. apply Qnot_le_lt. intros L. apply Qle_bool_iff in L. congruence. Qed.
Lemma clamped : forall c k w w1 w2, limits_consistent c -> limited c k -> clamp_min c k w = Some w1 -> clamp_max c k w1 = Some w2 -> in_limits c k w2.
Proof.
  intros c k w w1 w2 LC L H1 H2. unfold clamp_min in H1. unfold clamp_max in H2. unfold in_limits.
  destruct (limit (D_MIN c) k) as [m|] eqn:Em; destruct (limit (D_MAX c) k) as [M|] eqn:EM.
  - specialize (LC k m M Em EM). cbn [above below]. unfold py_lt in H1.
    assert (A : w1 = VNan \/ exists x, number w1 = Some x /\ (m <= x)%Q).
    { destruct w as [|b|x| |s|o]; cbn [number] in H1; try discriminate.
      - destruct b; cbn [negb] in H1; destruct (Qle_bool m _) eqn:Q; injection H1 as <-; right; eexists; (split; [reflexivity|]); try (apply qle_true; exact Q); apply Qle_refl.
      - destruct (Qle_bool m x) eqn:Q; injection H1 as <-; right; eexists; (split; [reflexivity|]); try (apply qle_true; exact Q); apply Qle_refl.
      - injection H1 as <-. left. reflexivity. }
    destruct A as [->|(x & Ex & Hx)].
    + unfold py_gt in H2. injection H2 as <-. right; left; reflexivity.
    + right; right. unfold py_gt in H2. destruct w1 as [|b|y| |s|o]; cbn [number] in Ex; try discriminate; cbn [number] in H2.
      * assert (Hb : number (VBool b) = Some x) by exact Ex. cbn [number] in Hb. rewrite Hb in H2. destruct (Qle_bool x M) eqn:Q; injection H2 as <-.
        -- exists x. split; [exact Hb|]. split; [exact Hx|apply qle_true; exact Q].
        -- exists M. split; [reflexivity|]. split; [exact LC|apply Qle_refl].
      * injection Ex as ->. destruct (Qle_bool x M) eqn:Q; injection H2 as <-.
        -- exists x. split; [reflexivity|]. split; [exact Hx|apply qle_true; exact Q].
        -- exists M. split; [reflexivity|]. split; [exact LC|apply Qle_refl].
  - injection H2 as <-. cbn [above below]. unfold py_lt in H1. destruct w as [|b|x| |s|o]; cbn [number] in H1; try discriminate.
    + right; right. destruct b; destruct (Qle_bool m _) eqn:Q; injection H1 as <-; eexists; (split; [reflexivity|]); (split; [|exact I]); try (apply qle_true; exact Q); apply Qle_refl.
    + right; right. destruct (Qle_bool m x) eqn:Q; injection H1 as <-; eexists; (split; [reflexivity|]); (split; [|exact I]); try (apply qle_true; exact Q); apply Qle_refl.
    + injection H1 as <-. right; left; reflexivity.
  - injection H1 as <-. cbn [above below]. unfold py_gt in H2. destruct w as [|b|x| |s|o]; cbn [number] in H2; try discriminate.
    + right; right. destruct b; destruct (Qle_bool _ M) eqn:Q; injection H2 as <-; eexists; (split; [reflexivity|]); (split; [exact I|]); try (apply qle_true; exact Q); apply Qle_refl.
    + right; right. destruct (Qle_bool x M) eqn:Q; injection H2 as <-; eexists; (split; [reflexivity|]); (split; [exact I|]); try (apply qle_true; exact Q); apply Qle_refl.
    + injection H2 as <-. right; left; reflexivity.
  - destruct L; congruence.
Qed.
Lemma set_limits : forall c d name v d', limits_consistent c -> all_in_limits c d -> setattr c d name v = Some d' -> all_in_limits c d'.
Proof.
  intros c d name v d' LC A H. apply setattr_cases in H as [[_ ->]|[(_ & I & w & w1 & w2 & _ & E1 & E2 & [[_ ->]|[_ ->]])|(_ & I & w & ->)]]; intros k u Hk L G.
  - destruct (string_dec k name) as [->|N]; [rewrite dget_dput_same in G; injection G as <-; left; reflexivity|].
    rewrite dget_dput_other in G by exact N. apply A; assumption.
  - destruct (string_dec k name) as [->|N]; [rewrite dget_dput_same in G; injection G as <-; apply (clamped c name w w1); assumption|].
    rewrite dget_dput_other in G by exact N. rewrite dget_del in G. destruct (isin k (kept_names c)); [apply A; assumption|discriminate].
  - rewrite dget_del in G. destruct (isin k (kept_names c)); [apply A; assumption|discriminate].
  - rewrite dget_dput_other in G by (intros ->; contradiction). apply A; assumption.
Qed.
Lemma getattr_dict : forall c d k, snd (getattr c d k) = d \/ (FORM c d = Some (snd (getattr c d k))).
Proof.
  intros c d k. unfold getattr. destruct (dget d k); [left; reflexivity|]. destruct (isin k _); [left; reflexivity|]. destruct (isin k (ATTR_INT_NAMES c)); [|left; reflexivity].
  destruct (is_defined c d); [|left; reflexivity]. destruct (FORM c d) as [d'|]; [right; reflexivity|left; reflexivity].
Qed.
Theorem limits_kept : forall c h d, limits_consistent c -> (forall a b, FORM c a = Some b -> all_in_limits c a -> all_in_limits c b) ->
  all_in_limits c d -> all_in_limits c (run c d h).
Proof.
  intros c h. induction h as [|o h IH]; intros d LC F A; cbn; [exact A|]. apply IH; [assumption..|].
  destruct o as [name v|k]; cbn [step].
  - destruct (setattr c d name v) as [d'|] eqn:E; [eapply set_limits; eassumption|exact A].
  - destruct (getattr_dict c d k) as [->|E]; [exact A|eapply F; eassumption].
Qed.
(** * Enumerated attributes *)
Lemma set_enum : forall c d name v d', (forall k l, allowed (D_CONSTRAINTS c) k = Some l -> ~ limited c k) -> enumerated_ok c d -> setattr c d name v = Some d' -> enumerated_ok c d'.
Proof.
  intros c d name v d' NL A H. apply setattr_cases in H as [[_ ->]|[(_ & I & w & w1 & w2 & _ & E1 & E2 & [[P ->]|[_ ->]])|(_ & I & w & ->)]]; intros k l u Hk L G.
  - destruct (string_dec k name) as [->|N]; [rewrite dget_dput_same in G; injection G as <-; left; reflexivity|].
    rewrite dget_dput_other in G by exact N. eapply A; eassumption.
  - destruct (string_dec k name) as [->|N].
    + rewrite dget_dput_same in G. injection G as <-. right. specialize (NL name l L).
      assert (w2 = w).
      { unfold clamp_min in E1. unfold clamp_max in E2. unfold limited in NL. destruct (limit (D_MIN c) name); [exfalso; apply NL; left; discriminate|].
        destruct (limit (D_MAX c) name); [exfalso; apply NL; right; discriminate|]. congruence. }
      subst w2. unfold permitted in P. rewrite L in P. apply existsb_exists in P as (a & Ha & P). exists a. auto.
    + rewrite dget_dput_other in G by exact N. rewrite dget_del in G. destruct (isin k (kept_names c)); [eapply A; eassumption|discriminate].
  - rewrite dget_del in G. destruct (isin k (kept_names c)); [eapply A; eassumption|discriminate].
  - rewrite dget_dput_other in G by (intros ->; contradiction). eapply A; eassumption.
Qed.
Theorem enumerated_kept : forall c h d, (forall k l, allowed (D_CONSTRAINTS c) k = Some l -> ~ limited c k) -> (forall a b, FORM c a = Some b -> enumerated_ok c a -> enumerated_ok c b) ->
  enumerated_ok c d -> enumerated_ok c (run c d h).
Proof.
  intros c h. induction h as [|o h IH]; intros d LC F A; cbn; [exact A|]. apply IH; [assumption..|].
  destruct o as [name v|k]; cbn [step].
  - destruct (setattr c d name v) as [d'|] eqn:E; [eapply set_enum; eassumption|exact A].
  - destruct (getattr_dict c d k) as [->|E]; [exact A|eapply F; eassumption].
Qed.
(** * Frame and read-back *)
Theorem set_frame : forall c d name v d' k, setattr c d name v = Some d' -> k <> name -> In k (kept_names c) -> dget d' k = dget d k.
Proof.
  intros c d name v d' k H N K. apply isin_iff in K.
  apply setattr_cases in H as [[_ ->]|[(_ & I & w & w1 & w2 & _ & E1 & E2 & [[P ->]|[_ ->]])|(_ & I & w & ->)]];
    rewrite ?dget_dput_other by exact N; rewrite ?dget_del, ?K; reflexivity.
Qed.
Lemma clamp_in : forall c k w x, number w = Some x -> above (limit (D_MIN c) k) x -> below (limit (D_MAX c) k) x -> clamp_min c k w = Some w /\ clamp_max c k w = Some w.
Proof.
  intros c k w x E A B. unfold clamp_min, clamp_max. destruct (limit (D_MIN c) k) as [m|]; destruct (limit (D_MAX c) k) as [M|]; cbn [above below] in A, B; unfold py_lt, py_gt;
  (destruct w; cbn [number] in E; try discriminate; cbn [number]; rewrite ?E; try (injection E as ->);
   repeat match goal with H : (_ <= _)%Q |- _ => apply Qle_bool_iff in H; rewrite ?H; clear H end; auto).
Qed.
Theorem set_get : forall c d name v w, is_none v = false -> In name (ATTR_NAMES c) -> convert c name v = Some w -> permitted c name w = true ->
  (limited c name -> exists x, number w = Some x /\ above (limit (D_MIN c) name) x /\ below (limit (D_MAX c) name) x) ->
  exists d', setattr c d name v = Some d' /\ dget d' name = Some w.
Proof.
  intros c d name v w N I E P L. unfold setattr. rewrite N. apply isin_iff in I. rewrite I, E.
  assert (C : clamp_min c name w = Some w /\ clamp_max c name w = Some w).
  { destruct (limit (D_MIN c) name) eqn:E1; [|destruct (limit (D_MAX c) name) eqn:E2].
    - destruct L as (x & Hx & A & B); [left; congruence|]. apply (clamp_in c name w x); [exact Hx| |exact B]. rewrite E1. exact A.
    - destruct L as (x & Hx & A & B); [right; congruence|]. apply (clamp_in c name w x); [exact Hx| |]; [rewrite E1; exact Logic.I|rewrite E2; exact B].
    - unfold clamp_min, clamp_max. rewrite E1, E2. auto. }
  destruct C as [-> ->]. rewrite P. eexists. split; [reflexivity|apply dget_dput_same].
Qed.
(** * Internal parameters *)
Theorem set_clears : forall c d name v d', is_none v = false -> In name (ATTR_NAMES c) -> setattr c d name v = Some d' ->
  forall k, ~ In k (kept_names c) -> dget d' k = None.
Proof.
  intros c d name v d' N I H k K. assert (Nk : k <> name) by (intros ->; apply K, data_kept, I). apply isin_false in K.
  apply setattr_cases in H as [[N' ->]|[(_ & _ & w & w1 & w2 & _ & E1 & E2 & [[P ->]|[_ ->]])|(_ & I' & w & ->)]]; [congruence| | |contradiction];
    rewrite ?dget_dput_other by exact Nk; rewrite dget_del, K; reflexivity.
Qed.
Definition coherent (c : item_class) (d : dict) : Prop := forall k v, In k (ATTR_INT_NAMES c) -> dget d k = Some v ->
  is_defined c d = true /\ option_map (fun d' => dget d' k) (FORM c d) = Some (Some v).
Lemma defined_data : forall c a b, form_ok c -> (forall n, In n (ATTR_NAMES c) -> dget a n = dget b n) -> is_defined c a = is_defined c b.
Proof.
  intros c a b F H. unfold is_defined, has. pose proof (fk_mand c F) as M. destruct (ATTR_MANDATORY_NAMES c) as [|m l].
  - clear M. induction (ATTR_NAMES c) as [|n r IH]; cbn [existsb]; [reflexivity|]. rewrite H by (left; reflexivity). f_equal. apply IH. intros; apply H; right; assumption.
  - assert (E : forall q, (forall k, In k q -> In k (ATTR_NAMES c)) -> forallb (fun k => match dget a k with Some _ => true | None => false end) q = forallb (fun k => match dget b k with Some _ => true | None => false end) q).
    { induction q as [|n r IH]; intros Hq; cbn [forallb]; [reflexivity|]. rewrite H by (apply Hq; left; reflexivity). f_equal. apply IH. intros; apply Hq; right; assumption. }
    apply E. exact M.
Qed.
Lemma coherent_same_data : forall c a b, form_ok c -> coherent c a -> (forall n, In n (ATTR_NAMES c) -> dget a n = dget b n) ->
  (forall k, In k (ATTR_INT_NAMES c) -> dget b k = dget a k) -> coherent c b.
Proof.
  intros c a b F A D I k v Hk G. rewrite I in G by exact Hk. destruct (A k v Hk G) as [A1 A2]. split; [rewrite <- A1; symmetry; apply defined_data; assumption|].
  rewrite <- A2. symmetry. apply (fk_dep c F); assumption.
Qed.
Lemma coherent_step : forall c d o, form_ok c -> plain c o -> coherent c d -> coherent c (step c d o).
Proof.
  intros c d o F P A. destruct o as [name v|k]; cbn [step].
  - destruct (setattr c d name v) as [d'|] eqn:E; [|exact A]. destruct P as [P1 P2]. destruct (in_dec string_dec name (ATTR_NAMES c)) as [I|NI].
    + intros k u Hk G. exfalso. rewrite (set_clears c d name v d' (P1 I) I E k) in G; [discriminate|]. apply (fk_disj c F). exact Hk.
    + assert (Hd : exists w, d' = dput d name w).
      { apply setattr_cases in E as [[_ ->]|[(_ & I & _)|(_ & _ & w & ->)]]; [eexists; reflexivity|contradiction|eexists; reflexivity]. }
      destruct Hd as [w ->]. apply (coherent_same_data c d); [assumption..| |].
      * intros n Hn. symmetry. apply dget_dput_other. intros ->. contradiction.
      * intros n Hn. apply dget_dput_other. intros ->. contradiction.
  - unfold getattr. destruct (dget d k) eqn:Eg; [exact A|]. destruct (isin k _); [exact A|]. destruct (isin k (ATTR_INT_NAMES c)) eqn:Ik; [|exact A].
    destruct (is_defined c d) eqn:Df; [|exact A]. destruct (FORM c d) as [d'|] eqn:Ef; [|exact A]. cbn [snd].
    intros n u Hn G. assert (D : forall m, In m (ATTR_NAMES c) -> dget d m = dget d' m) by (intros m Hm; symmetry; apply (fk_data c F d d' m Ef Hm)).
    split; [rewrite <- Df; symmetry; apply defined_data; assumption|]. rewrite <- (fk_dep c F d d' n D Hn), Ef. cbn. rewrite G. reflexivity.
Qed.
(** Reading an internal attribute gives what form_object computes from the data attributes the object holds now. *)
Theorem internal_current : forall c h, form_ok c -> Forall (plain c) h ->
  forall k, In k (ATTR_INT_NAMES c) ->
  fst (getattr c (run c [] h) k) =
    (if is_defined c (run c [] h) then match FORM c (run c [] h) with Some d' => dget d' k | None => None end else None).
Proof.
  intros c h F P k Hk. assert (A : coherent c (run c [] h)).
  { assert (G : forall h d, Forall (plain c) h -> coherent c d -> coherent c (run c d h)).
    { clear h P. induction h as [|o h IH]; intros d P A; cbn; [exact A|]. inversion P; subst. apply IH; [assumption|]. apply coherent_step; assumption. }
    apply G; [exact P|]. intros n v _ H. discriminate. }
  set (d := run c [] h) in *. unfold getattr. destruct (dget d k) as [v|] eqn:E.
  - destruct (A k v Hk E) as [-> A2]. cbn [fst]. destruct (FORM c d); [|discriminate]. cbn in A2. injection A2 as ->. reflexivity.
  - pose proof (fk_disj c F k Hk) as Nk. rewrite (proj2 (isin_false k (ATTR_NAMES c ++ ATTR_SIGMA c ++ ATTR_INT_PROTECTED_NAMES c))).
    + rewrite (proj2 (isin_iff _ _) Hk). destruct (is_defined c d); [|reflexivity]. destruct (FORM c d); reflexivity.
    + intros H. apply Nk. unfold kept_names. rewrite !in_app_iff in *. tauto.
Qed.
