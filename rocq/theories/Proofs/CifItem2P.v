(** Lemmas: an item written and read again. *)
From Coq Require Import QArith List String Ascii Bool Arith Lia.
From Verif Require Import Spec.Objects Spec.ItemSpec Spec.StarSpec Spec.CifSpec Model.Strings Model.Numbers Model.Items Model.CifText Proofs.ItemsP Proofs.CifTextP Proofs.CifItemP.
Import ListNotations.
Open Scope string_scope.
Open Scope list_scope.

Section Read.
Variable c : cif_class.
Hypothesis K : cif_class_ok c.
Let C := BASE c.
Variable d : dict.

Definition restored (a : dict) (k : string) : Prop :=
  dget a k = dget d k /\
  (In k (ATTR_REF C) -> refined d k -> dget a (k ++ "_sigma") = dget d (k ++ "_sigma") /\ dget a (k ++ "_refinement") = dget d (k ++ "_refinement") /\ dget a (k ++ "_mark") = dget d (k ++ "_mark")) /\
  (In k (ATTR_REF C) -> ~ refined d k -> ~ refined a k).
Lemma set_sigma : forall a k e, In k (ATTR_REF C) -> setattr C a (k ++ "_sigma") (VNum e) = Some (dput a (k ++ "_sigma") (VNum e)).
Proof.
  intros a k e H. pose proof (sigma_in c K k H) as S. unfold setattr. cbn [is_none].
  pose proof (not_grp c K 1%nat 0%nat (k ++ "_sigma")) as N0. cbn [grp] in N0. fold C in S, N0. rewrite N0 by (auto; lia).
  apply isin_iff in S. now rewrite S.
Qed.
Lemma set_flag : forall a k b, In k (ATTR_REF C) -> setattr C a (k ++ "_refinement") (VBool b) = Some (dput a (k ++ "_refinement") (VBool b)).
Proof.
  intros a k b H. pose proof (flag_in c K k H) as S. unfold setattr. cbn [is_none].
  pose proof (not_grp c K 3%nat 0%nat (k ++ "_refinement")) as N0. pose proof (not_grp c K 3%nat 1%nat (k ++ "_refinement")) as N1.
  cbn [grp] in N0, N1. fold C in S, N0, N1. rewrite N0, N1 by (auto; lia).
  replace (isin (k ++ "_refinement") (ATTR_CONSTR_FLAG C ++ ATTR_REF_FLAG C)) with true; [reflexivity|]. symmetry. apply isin_iff, in_or_app. now right.
Qed.
Lemma set_mark : forall a k m w, In k (ATTR_REF C) -> setattr C [] (k ++ "_mark") m = Some [((k ++ "_mark")%string, w)] -> setattr C a (k ++ "_mark") m = Some (dput a (k ++ "_mark") w).
Proof.
  intros a k m w H. pose proof (mark_in c K k H) as S. unfold setattr. 
  pose proof (not_grp c K 4%nat 0%nat (k ++ "_mark")) as N0. pose proof (not_grp c K 4%nat 1%nat (k ++ "_mark")) as N1.
  pose proof (not_grp c K 4%nat 2%nat (k ++ "_mark")) as N2. pose proof (not_grp c K 4%nat 3%nat (k ++ "_mark")) as N3.
  cbn [grp] in N0, N1, N2, N3. fold C in S, N0, N1, N2, N3. rewrite N0, N1 by (auto; lia).
  replace (isin (k ++ "_mark") (ATTR_CONSTR_FLAG C ++ ATTR_REF_FLAG C)) with false.
  2:{ symmetry. apply isin_false. rewrite in_app_iff. intros [B|B]; apply isin_iff in B; [rewrite N2 in B|rewrite N3 in B]; try lia; auto; discriminate. }
  apply isin_iff in S. rewrite S. destruct (is_none m); intros E; injection E as E; subst; reflexivity.
Qed.
Lemma suffix_neq : forall k s1 s2, s1 <> s2 -> (k ++ s1)%string <> (k ++ s2)%string.
Proof. intros k s1 s2 N E. apply N. induction k; [exact E|]. cbn in E. injection E. auto. Qed.
Lemma suffix_neq0 : forall k s, s <> "" -> (k ++ s)%string <> k.
Proof.
  intros k s N E. apply N. induction k as [|x k IH]; [exact E|]. cbn in E. injection E. auto.
Qed.

Lemma assign_ok : forall k v t, In k (ATTR_NAMES C) -> dget d k = Some v -> reads_back c d k v t ->
  forall a, exists a', assign_text C a k t = Some a' /\ restored a' k /\ forall j, ~ In j (own c k) -> In j (kept_names C) -> dget a' j = dget a j.
Proof.
  intros k v t IN D RB a. unfold reads_back in RB. unfold assign_text, own. fold C in RB |- *.
  destruct (isin k (ATTR_REF C)) eqn:R.
  - pose proof R as R'. apply isin_iff in R'. destruct RB as (x & SET & RB).
    destruct (setattr_any C k (vopt x) v IN SET a) as (a1 & E1 & V1 & O1).
    assert (NS : (k ++ "_sigma")%string <> k) by (now apply suffix_neq0).
    assert (NF : (k ++ "_refinement")%string <> k) by (now apply suffix_neq0).
    assert (NM : (k ++ "_mark")%string <> k) by (now apply suffix_neq0).
    assert (SF : (k ++ "_sigma")%string <> (k ++ "_refinement")%string) by (now apply suffix_neq).
    assert (SM : (k ++ "_sigma")%string <> (k ++ "_mark")%string) by (now apply suffix_neq).
    assert (FM : (k ++ "_refinement")%string <> (k ++ "_mark")%string) by (now apply suffix_neq).
    destruct RB as [(RF & e & m & w & TX & DS & DF & MK & DM)|(RF & m & TX)]; rewrite TX, E1.
    + rewrite set_sigma by exact R'. rewrite set_flag by exact R'. rewrite (set_mark _ k _ w R' MK).
      eexists. split; [reflexivity|]. split.
      * split; [|split; [|contradiction]].
        -- rewrite !dget_dput_other by auto. now rewrite V1, D.
        -- intros _ _. rewrite DS, DF, DM. repeat split.
           ++ rewrite !dget_dput_other by auto. apply dget_dput_same.
           ++ rewrite dget_dput_other by auto. apply dget_dput_same.
           ++ apply dget_dput_same.
      * intros j J KN. cbn in J. assert (k <> j /\ (k ++ "_sigma")%string <> j /\ (k ++ "_refinement")%string <> j /\ (k ++ "_mark")%string <> j) as (J1 & J2 & J3 & J4) by tauto.
        rewrite !dget_dput_other by auto. apply O1; auto.
    + rewrite set_flag by exact R'. eexists. split; [reflexivity|]. split.
      * split; [|split; [contradiction|]].
        -- rewrite dget_dput_other by auto. now rewrite V1, D.
        -- intros _ _ (f & s & F & T & _). rewrite dget_dput_same in F. injection F as <-. discriminate.
      * intros j J KN. cbn in J. assert (k <> j /\ (k ++ "_refinement")%string <> j) as (J1 & J3) by tauto.
        rewrite dget_dput_other by auto. apply O1; auto.
  - destruct (setattr_any C k _ v IN RB a) as (a1 & E1 & V1 & O1). exists a1. split; [exact E1|]. split.
    + split; [now rewrite V1, D|]. split; intro H; apply isin_iff in H; rewrite H in R; discriminate.
    + intros j J KN. apply O1; [|exact KN]. intros ->. apply J. now left.
Qed.

(** Attributes read one after another: those of a list of columns that have a text. *)
Lemma read_fold : forall (txt : string -> option text) (f : option dict -> string * string -> option dict) cols,
  (forall o a, In a cols -> f o a = match o with None => None | Some b => match txt (fst a) with Some t => assign_text C b (fst a) t | None => Some b end end) ->
  NoDup (map fst cols) -> incl (map fst cols) (ATTR_NAMES C) ->
  (forall k t, In k (ATTR_NAMES C) -> txt k = Some t -> exists v, dget d k = Some v /\ reads_back c d k v t) ->
  forall a, exists a', fold_left f cols (Some a) = Some a' /\
    (forall q t, In q cols -> txt (fst q) = Some t -> restored a' (fst q)) /\
    (forall j, In j (kept_names C) -> (forall q t, In q cols -> txt (fst q) = Some t -> ~ In j (own c (fst q))) -> dget a' j = dget a j).
Proof.
  intros txt f cols. induction cols as [|[k cif] cols IH]; intros F ND INC RB a.
  - exists a. split; [reflexivity|]. split; [intros q t []|auto].
  - assert (INk : In k (ATTR_NAMES C)) by (apply INC; now left).
    cbn [map fst] in ND. inversion ND as [|? ? NI ND']; subst.
    assert (F' : forall o a0, In a0 cols -> f o a0 = match o with None => None | Some b => match txt (fst a0) with Some t => assign_text C b (fst a0) t | None => Some b end end) by (intros; apply F; now right).
    assert (INC' : incl (map fst cols) (ATTR_NAMES C)) by (intros x X; apply INC; now right).
    specialize (IH F' ND' INC' RB). cbn [fold_left]. rewrite F by now left. cbn [fst]. destruct (txt k) as [t|] eqn:S.
    + destruct (RB k t INk S) as (v & D & RBk).
      destruct (assign_ok k v t INk D RBk a) as (a1 & E1 & R1 & O1). rewrite E1.
      destruct (IH a1) as (a' & E' & R' & O'). exists a'. split; [exact E'|]. split.
      * intros q u [<-|Q] SQ; [|eapply R'; eassumption]. cbn [fst].
        assert (KEEP : forall j, In j (own c k) -> dget a' j = dget a1 j).
        { intros j J. apply O'.
          - destruct (own_grp c K k j INk J) as (i & _ & G). eapply grp_kept; exact G.
          - intros q' t' Q' _ J'. apply (own_disj c K k (fst q') j); auto.
            + apply INC. right. now apply in_map.
            + intros ->. apply NI. now apply in_map. }
        destruct R1 as (A1 & A2 & A3). assert (SELF : In k (own c k)) by (unfold own; destruct (isin _ _); now left).
        assert (OWN : In k (ATTR_REF C) -> In (k ++ "_sigma")%string (own c k) /\ In (k ++ "_refinement")%string (own c k) /\ In (k ++ "_mark")%string (own c k)).
        { intros H. apply isin_iff in H. unfold own. fold C. rewrite H. cbn. tauto. }
        split; [now rewrite KEEP|]. split.
        -- intros H RF. destruct (OWN H) as (O2 & O3 & O4). rewrite !KEEP by assumption. now apply A2.
        -- intros H RF (g & s & G1 & G2 & G3). destruct (OWN H) as (O2 & O3 & O4). rewrite KEEP in G1, G3 by assumption. apply (A3 H RF). now exists g, s.
      * intros j KN J. rewrite O'; [|exact KN|intros q u Q SQ; eapply J; [now right|exact SQ]]. apply O1; [|exact KN]. apply (J (k, cif) t); [now left|exact S].
    + destruct (IH a) as (a' & E' & R' & O'). exists a'. split; [exact E'|]. split.
      * intros q u [<-|Q] SQ; [cbn [fst] in SQ; congruence|eapply R'; eassumption].
      * intros j KN J. apply O'; [exact KN|]. intros q u Q SQ. eapply J; [now right|exact SQ].
Qed.
(** All attributes that have a text are read: the data are the same. *)
Lemma fold_same_data : forall (txt : string -> option text) (cols : list (string * string)) a', (forall k v, In k (ATTR_NAMES C) -> dget d k = Some v -> exists t q, txt k = Some t /\ In q cols /\ fst q = k) ->
  incl (map fst cols) (ATTR_NAMES C) ->
  (forall k t, In k (ATTR_NAMES C) -> txt k = Some t -> exists v, dget d k = Some v /\ reads_back c d k v t) ->
  (forall q t, In q cols -> txt (fst q) = Some t -> restored a' (fst q)) ->
  (forall j, In j (kept_names C) -> (forall q t, In q cols -> txt (fst q) = Some t -> ~ In j (own c (fst q))) -> dget a' j = dget (INIT c) j) ->
  (forall k, In k (ATTR_NAMES C) -> dget d k = None -> dget (INIT c) k = None) -> same_data c d a'.
Proof.
  intros txt cols a' TX INC RB R O CU.
  assert (RS : forall k v, In k (ATTR_NAMES C) -> dget d k = Some v -> restored a' k).
  { intros k v IN D. destruct (TX k v IN D) as (t & q & T & Q & <-). exact (R q t Q T). }
  split; [|split].
  - intros k IN. destruct (dget d k) as [v|] eqn:D; [rewrite <- D; apply (RS k v IN D)|]. rewrite O.
    + now apply CU.
    + now apply data_kept.
    + intros (k' & cif') t Q T J. cbn [fst] in *. assert (IN' : In k' (ATTR_NAMES C)) by (apply INC; apply in_map_iff; exists (k', cif'); auto).
      destruct (RB k' t IN' T) as (v' & D' & _). assert (NE : k <> k') by congruence.
      apply (own_disj c K k k' k); auto. unfold own. destruct (isin _ _); now left.
  - intros k v IN D RF. destruct (RS k v (ck_ref c K k IN) D) as (_ & H & _). now apply H.
  - intros k v IN D RF. destruct (RS k v (ck_ref c K k IN) D) as (_ & _ & H). now apply H.
Qed.
End Read.

(** * The contents looked up *)
Lemma lower_app : forall a b, lower (a ++ b) = lower a ++ lower b.
Proof. intros. apply map_app. Qed.
Lemma key_inj : forall c sep a b, key_of c sep a = key_of c sep b -> lower (tx a) = lower (tx b).
Proof.
  intros c sep a b H. unfold key_of, full_name in H. cbn [lower map] in H. injection H as H. fold (lower) in H.
  change (lower (tx (PREFIX (BASE c)) ++ sep ++ tx a) = lower (tx (PREFIX (BASE c)) ++ sep ++ tx b)) in H. rewrite !lower_app in H.
  apply app_inv_head in H. now apply app_inv_head in H.
Qed.
Lemma key_sep : forall c s1 s2 a b, key_of c [s1] a = key_of c [s2] b -> lower_char s1 = lower_char s2.
Proof.
  intros c s1 s2 a b H. unfold key_of, full_name in H. cbn [lower map] in H. injection H as H.
  change (lower (tx (PREFIX (BASE c)) ++ [s1] ++ tx a) = lower (tx (PREFIX (BASE c)) ++ [s2] ++ tx b)) in H. rewrite !lower_app in H.
  apply app_inv_head in H. cbn in H. now injection H.
Qed.
Definition column_entries (c : cif_class) (d : dict) (sep : text) (cols : list (string * string)) : list entry :=
  flat_map (fun a => match shown c d (fst a) with Some t => [EItem (key_of c sep (snd a)) t] | None => [] end) cols.
Lemma value_of_cols : forall c d sep cols k cif, NoDup (map (fun a => lower (tx (snd a))) cols) -> In (k, cif) cols ->
  value_of (column_entries c d sep cols) (full_name (tx (PREFIX (BASE c))) sep (tx cif)) = shown c d k.
Proof.
  intros c d sep cols k cif. unfold value_of. fold (key_of c sep cif). induction cols as [|[k1 cif1] cols IH]; intros ND IN; [easy|].
  cbn [map snd] in ND. inversion ND as [|? ? NI ND']; subst. unfold column_entries. cbn [flat_map fst snd]. destruct IN as [E|IN].
  - injection E as -> ->. destruct (shown c d k) as [t|] eqn:S.
    + cbn [app find]. destruct (list_eq_dec ascii_dec (key_of c sep cif) (key_of c sep cif)); [reflexivity|congruence].
    + cbn [app]. clear IH. destruct (find _ _) as [e|] eqn:F; [|reflexivity]. apply find_some in F as [F1 F2].
      apply in_flat_map in F1 as ((k2 & cif2) & I2 & F1). cbn [fst snd] in F1. destruct (shown c d k2); [|easy]. destruct F1 as [<-|[]].
      destruct (list_eq_dec ascii_dec _ _) as [E|]; [|discriminate]. apply key_inj in E. exfalso. apply NI. rewrite <- E.
      apply (in_map (fun a => lower (tx (snd a))) cols (k2, cif2) I2).
  - specialize (IH ND' IN). fold (column_entries c d sep cols). destruct (shown c d k1) as [t|]; [|exact IH]. cbn [app find].
    destruct (list_eq_dec ascii_dec _ _) as [E|]; [|exact IH]. exfalso. apply key_inj in E. apply NI. rewrite E.
    apply (in_map (fun a => lower (tx (snd a))) cols (k, cif) IN).
Qed.
Lemma value_of_other : forall c d s1 s2 cols cif, lower_char s1 <> lower_char s2 ->
  value_of (column_entries c d [s1] cols) (full_name (tx (PREFIX (BASE c))) [s2] (tx cif)) = None.
Proof.
  intros c d s1 s2 cols cif N. unfold value_of. fold (key_of c [s2] cif). destruct (find _ _) as [e|] eqn:F; [|reflexivity]. apply find_some in F as [F1 F2].
  apply in_flat_map in F1 as ((k2 & cif2) & I2 & F1). cbn [fst snd] in F1. destruct (shown c d k2); [|easy]. destruct F1 as [<-|[]].
  destruct (list_eq_dec ascii_dec _ _) as [E|]; [|discriminate]. apply key_sep in E. contradiction.
Qed.
Lemma columns_fst : forall c, cif_class_ok c -> map fst (columns_of c) = ATTR_NAMES (BASE c).
Proof. intros c K. unfold columns_of. pose proof (ck_len c K) as L. revert L. generalize (ATTR_CIF c) (ATTR_NAMES (BASE c)). induction l as [|x l IH]; intros [|y m] L; cbn in *; try easy. f_equal. apply IH. lia. Qed.
Lemma columns_snd : forall c, cif_class_ok c -> map snd (columns_of c) = ATTR_CIF c.
Proof. intros c K. unfold columns_of. pose proof (ck_len c K) as L. revert L. generalize (ATTR_CIF c) (ATTR_NAMES (BASE c)). induction l as [|x l IH]; intros [|y m] L; cbn in *; try easy. f_equal. apply IH. lia. Qed.
Lemma shown_defined : forall c d k v, writable c d -> In k (ATTR_NAMES (BASE c)) -> dget d k = Some v -> exists t, shown c d k = Some t.
Proof.
  intros c d k v W IN D. destruct (W k v IN D) as (s & PT & R). unfold shown. rewrite D, PT. destruct (has_newline s); [eauto|]. destruct (has_space s); [eauto|].
  destruct R as (t & A & _). eauto.
Qed.
Lemma names_nodup : forall c, cif_class_ok c -> NoDup (ATTR_NAMES (BASE c)).
Proof. intros c K. exact (nodup_app_l _ _ _ (ck_names c K)). Qed.
Lemma combine_firstn_in : forall (A B : Type) n (l : list A) (m : list B) y, List.length l = List.length m -> In y (firstn n m) -> exists x, In x (firstn n l) /\ In (x, y) (combine l m).
Proof.
  induction n as [|n IH]; intros [|x l] [|z m] y L H; cbn in *; try easy. destruct H as [<-|H].
  - exists x. auto.
  - destruct (IH l m y ltac:(lia) H) as (x' & H1 & H2). exists x'. auto.
Qed.

Lemma item_round_trip : forall c d sep, cif_class_ok c -> sep = sep_u \/ sep = sep_d -> writable c d -> survives c d -> complete c d -> form_keeps c d ->
  exists s d', item_to_cif c d sep = Some s /\ item_from_cif c s = Object d' /\ same_data c d d'.
Proof.
  intros c d sep K SEP W RB (CU & CM & (k0 & IN0 & D0)) FK.
  assert (WS : word sep). { intros x X. destruct SEP as [-> | ->]; destruct X as [<-|[]]; reflexivity. }
  destruct (item_text c d sep K WS W) as (s & TS & CS). exists s. unfold item_from_cif. rewrite CS.
  set (es := item_contents c d sep) in *. set (P := tx (PREFIX (BASE c))).
  assert (NDC : NoDup (map (fun a => lower (tx (snd a))) (columns_of c))).
  { rewrite <- (map_map snd (fun k => lower (tx k))). rewrite columns_snd by exact K. apply (ck_cif c K). }
  assert (V : forall k cif, In (k, cif) (columns_of c) -> value_of es (full_name P sep (tx cif)) = shown c d k).
  { intros k cif IN. apply (value_of_cols c d sep (columns_of c) k cif NDC IN). }
  assert (M : forallb (fun k => is_value es (full_name P sep (tx k))) (mandatory_cif c) = true).
  { apply forallb_forall. intros y Y. unfold mandatory_cif in Y.
    destruct (combine_firstn_in _ _ _ (ATTR_NAMES (BASE c)) (ATTR_CIF c) y (eq_sym (ck_len c K)) Y) as (x & X1 & X2).
    unfold is_value. rewrite (V x y X2). destruct (ck_mandatory c K) as (l & L). rewrite L, firstn_app, firstn_all, Nat.sub_diag, firstn_O, app_nil_r in X1.
    specialize (CM x X1). destruct (dget d x) as [v|] eqn:D; [|easy]. destruct (shown_defined c d x v W) as (t & T); [rewrite L; apply in_or_app; now left|exact D|]. now rewrite T. }
  assert (A : existsb (fun k => is_value es (full_name P sep (tx k))) (ATTR_CIF c) = true).
  { rewrite <- (columns_fst c K) in IN0. apply in_map_iff in IN0 as ((k & cif) & E & IN). cbn in E. subst k.
    apply existsb_exists. exists cif. split; [eapply in_combine_r; exact IN|]. unfold is_value. rewrite (V _ _ IN).
    destruct (dget d k0) as [v|] eqn:D; [|easy]. destruct (shown_defined c d k0 v W) as (t & T); [now apply columns_in in IN|exact D|]. now rewrite T. }
  assert (U : sep = sep_d -> forall l, existsb (fun k => is_value es (full_name P sep_u (tx k))) l = false).
  { intros -> l. apply not_true_iff_false. intro H. apply existsb_exists in H as (k & _ & H). unfold is_value in H.
    unfold es, item_contents in H. pose proof (value_of_other c d "."%char "_"%char (columns_of c) k) as VO. unfold column_entries in VO.
    fold P in VO. unfold sep_u, sep_d in H. rewrite VO in H; [discriminate|]. cbn. discriminate. }
  unfold item_from_entries. cbv zeta. fold P.
  assert (FST : forallb (fun k => is_value es (full_name P sep_u (tx k))) (mandatory_cif c) || forallb (fun k => is_value es (full_name P sep_d (tx k))) (mandatory_cif c) = true).
  { destruct SEP as [-> | ->]; rewrite M; [reflexivity|apply orb_true_r]. }
  rewrite FST. clear FST.
  assert (CH : (if existsb (fun k => is_value es (full_name P sep_u (tx k))) (ATTR_CIF c) then sep_u else sep_d) = sep /\
               existsb (fun k => is_value es (full_name P sep_u (tx k))) (ATTR_CIF c) || existsb (fun k => is_value es (full_name P sep_d (tx k))) (ATTR_CIF c) = true).
  { destruct SEP as [-> | ->]; [now rewrite A|]. rewrite (U eq_refl), A. split; reflexivity. }
  destruct CH as [CH1 CH2]. rewrite CH1, CH2. clear CH1 CH2.
  assert (RB' : forall k t, In k (ATTR_NAMES (BASE c)) -> shown c d k = Some t -> exists v, dget d k = Some v /\ reads_back c d k v t).
  { intros k t IN T. destruct (dget d k) as [v|] eqn:D; [|unfold shown in T; rewrite D in T; discriminate]. exists v. split; [reflexivity|]. exact (RB k v IN D t T). }
  destruct (read_fold c K d (shown c d) (read_attr c es sep) (columns_of c)) with (a := INIT c) as (a' & F & R & O).
  - intros o (k & cif) IN. unfold read_attr. cbn [fst snd]. fold P. now rewrite (V k cif IN).
  - rewrite columns_fst by exact K. now apply names_nodup.
  - rewrite columns_fst by exact K. apply incl_refl.
  - exact RB'.
  - rewrite F.
    assert (SD : same_data c d a').
    { apply (fold_same_data c K d (shown c d) (columns_of c)); auto.
      - intros k v IN D. destruct (shown_defined c d k v W IN D) as (t & T). rewrite <- (columns_fst c K) in IN. apply in_map_iff in IN as (q & E & IN). exists t, q. auto.
      - rewrite columns_fst by exact K. apply incl_refl. }
    destruct (is_defined (BASE c) a').
    + destruct (FK a' SD) as (b & FB & SB). rewrite FB. exists b. auto.
    + exists a'. auto.
Qed.
