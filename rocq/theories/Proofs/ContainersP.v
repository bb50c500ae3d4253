From Coq Require Import QArith List String Ascii Bool Arith Lia.
From Verif Require Import Spec.Objects Model.Items Spec.ItemSpec Model.Containers Spec.ContainerSpec Proofs.ItemsP.
Import ListNotations.
Open Scope string_scope.
Open Scope list_scope.

(* ---- names ---- *)
Lemma lower_char_idem : forall c, lower_char (lower_char c) = lower_char c.
Proof. intros [[] [] [] [] [] [] [] []]; reflexivity. Qed.
Lemma lower_idem : forall s, lower (lower s) = lower s.
Proof. induction s as [|c s IH]; cbn; [reflexivity|]. rewrite lower_char_idem, IH. reflexivity. Qed.
Lemma lower_sub_idem : forall s, lower_sub (lower_sub s) = lower_sub s.
Proof. intros [|s|i]; cbn; [reflexivity|rewrite lower_idem; reflexivity|reflexivity]. Qed.
Lemma sub_eqb_eq : forall a b, sub_eqb a b = true <-> a = b.
Proof.
  intros [|s|i] [|t|j]; cbn; split; intros H; try discriminate; try reflexivity.
  - apply String.eqb_eq in H. congruence.
  - injection H as ->. apply String.eqb_refl.
  - apply Nat.eqb_eq in H. congruence.
  - injection H as ->. apply Nat.eqb_refl.
Qed.
Lemma sub_eqb_refl : forall a, sub_eqb a a = true.
Proof. intros. apply sub_eqb_eq. reflexivity. Qed.
Lemma lower_name_sub : forall n, lower_name n -> lower_sub (sub_of n) = sub_of n.
Proof. intros [s|] H; cbn in *; [rewrite H|]; reflexivity. Qed.
Lemma read_data : forall c d a, In a (ATTR_NAMES c) -> read c d a = of_value (dget d a).
Proof.
  intros c d a H. unfold read, getattr. destruct (dget d a); [reflexivity|].
  replace (isin a (ATTR_NAMES c ++ ATTR_SIGMA c ++ ATTR_INT_PROTECTED_NAMES c)) with true; [reflexivity|].
  symmetry. apply isin_iff. apply in_or_app. left. exact H.
Qed.
Lemma replace_same : forall A (l : list A) i x y, nth_error l i = Some y -> nth_error (replace_nth l i x) i = Some x.
Proof. induction l as [|z l IH]; intros [|i] x y H; cbn in *; try discriminate; [reflexivity|eapply IH; exact H]. Qed.
Lemma replace_other : forall A (l : list A) i j x, i <> j -> nth_error (replace_nth l i x) j = nth_error l j.
Proof. induction l as [|z l IH]; intros [|i] [|j] x H; cbn; try reflexivity; [congruence|]. apply IH. congruence. Qed.

(* ---- one leaf ---- *)
Lemma leaf_get_denoted : forall x n c d a, denotes_leaf x n c d a -> leaf_get x n = read c d a.
Proof.
  intros x n c d a H. destruct H as [c d a|l i d a E]; cbn.
  - rewrite String.eqb_refl. reflexivity.
  - rewrite String.eqb_refl, lower_sub_idem, sub_eqb_refl, E. reflexivity.
Qed.
Lemma leaf_head : forall x n c d a, denotes_leaf x n c d a -> exists s r, n = (leaf_prefix x, s) :: r.
Proof. intros x n c d a []; cbn; eauto. Qed.
(** The leaf with the item replaced. *)
Lemma leaf_set_denoted : forall x n c d a v d', lower_leaf x -> denotes_leaf x n c d a -> setattr c d a v = Some d' ->
  exists x', leaf_set x n v = Some x' /\ denotes_leaf x' n c d' a /\ leaf_prefix x' = leaf_prefix x /\ lower_leaf x' /\
    (forall y, clash_leaf x' y <-> clash_leaf x y) /\
    (forall m c2 d2 a2, denotes_leaf x m c2 d2 a2 -> m <> n -> In a2 (ATTR_NAMES c2) -> leaf_get x' m = leaf_get x m).
Proof.
  intros x n c d a v d' L H S. destruct H as [c d a|l i d a E]; cbn [leaf_set item_set loop_set].
  - rewrite String.eqb_refl, S. exists (Item c d'). cbn. split; [reflexivity|]. split; [constructor|]. split; [reflexivity|]. split; [exact Logic.I|]. split; [reflexivity|].
    intros m c2 d2 a2 H N A. inversion H; subst. cbn. rewrite String.eqb_refl. rewrite !read_data by exact A. f_equal.
    apply (set_frame c2 d2 a v d'); [exact S| |apply data_kept; exact A]. intros ->. apply N. reflexivity.
  - cbn in L. rewrite String.eqb_refl, (lower_name_sub _ L), sub_eqb_refl, E, S. cbn [andb option_map].
    exists (Loop (mkLoop (l_class l) (loop_name l) (replace_nth (l_items l) i d'))). split; [reflexivity|]. split.
    { rewrite <- (lower_name_sub _ L). apply (DLoop (mkLoop (l_class l) (loop_name l) (replace_nth (l_items l) i d')) i d' a).
      cbn. apply (replace_same _ _ _ _ d). exact E. }
    split; [reflexivity|]. split; [exact L|]. split; [intros []; unfold clash_leaf; cbn; reflexivity|].
    intros m c2 d2 a2 H N A. inversion H as [|l0 j d0 a0 E0]; subst. cbn [leaf_get loop_get l_class loop_name l_items].
    rewrite String.eqb_refl, lower_sub_idem, sub_eqb_refl. cbn [andb]. destruct (Nat.eq_dec i j) as [->|Nij].
    + rewrite (replace_same _ _ _ _ d E), E. rewrite E in E0. injection E0 as ->. rewrite !read_data by exact A. f_equal.
      apply (set_frame (l_class l) d2 a v d'); [exact S| |apply data_kept; exact A]. intros ->. apply N. rewrite (lower_name_sub _ L). reflexivity.
    + rewrite replace_other by exact Nij. reflexivity.
Qed.
Lemma leaf_foreign : forall x y n c d a, denotes_leaf x n c d a -> ~ clash_leaf x y -> leaf_prefix y = leaf_prefix x ->
  leaf_get y n = RNone /\ (lower_leaf y -> forall v, leaf_set y n v = Some y).
Proof.
  intros x y n c d a H N P. destruct H as [c d a|l i d a E].
  - exfalso. apply N. split; [symmetry; exact P|]. exact Logic.I.
  - destruct y as [c2 d2|m]; [exfalso; apply N; split; [symmetry; exact P|exact Logic.I]|]. cbn in P.
    assert (Q : sub_eqb (lower_sub (sub_of (loop_name l))) (lower_sub (sub_of (loop_name m))) = false).
    { destruct (sub_eqb _ _) eqn:Q; [|reflexivity]. apply sub_eqb_eq in Q. exfalso. apply N. split; [symmetry; exact P|exact Q]. }
    cbn. rewrite P, String.eqb_refl, lower_sub_idem, Q. split; [reflexivity|]. intros L v. cbn in L. rewrite (lower_name_sub _ L) in Q. rewrite Q. reflexivity.
Qed.
Lemma clash_leaf_sym : forall x y, clash_leaf x y -> clash_leaf y x.
Proof. intros [] [] [H1 H2]; split; congruence || exact Logic.I || (symmetry; assumption). Qed.

(* ---- a list of components ---- *)
Section Comp.
Context {A : Type} (pf : A -> string) (get : A -> path -> res) (set : A -> path -> value -> option A).
Definition deaf (p : string) (n : path) (y : A) : Prop := pf y = p -> get y n = RNone.
Definition inert (p : string) (n : path) (v : value) (y : A) : Prop := pf y = p -> set y n v = Some y.
Lemma first_none : forall l p n, Forall (deaf p n) l -> first_of pf get p l n = RNone.
Proof.
  intros l p n F. induction F as [|y l H F IH]; cbn; [reflexivity|]. destruct (String.eqb_spec (pf y) p) as [E|E]; [rewrite (H E)|]; exact IH.
Qed.
Lemma first_app : forall l1 x l2 p n, Forall (deaf p n) l1 -> Forall (deaf p n) l2 -> pf x = p -> first_of pf get p (l1 ++ x :: l2) n = get x n.
Proof.
  intros l1 x l2 p n F1 F2 P. induction F1 as [|y l1 H F IH]; cbn.
  - rewrite P, String.eqb_refl. rewrite (first_none l2 p n F2). destruct (get x n); reflexivity.
  - destruct (String.eqb_spec (pf y) p) as [E|E]; [rewrite (H E)|]; exact IH.
Qed.
Lemma set_none : forall l p n v, Forall (inert p n v) l -> set_all pf set p l n v = Some l.
Proof.
  intros l p n v F. induction F as [|y l H F IH]; cbn; [reflexivity|]. destruct (String.eqb_spec (pf y) p) as [E|E]; [rewrite (H E)|]; rewrite IH; reflexivity.
Qed.
Lemma set_app : forall l1 x x' l2 p n v, Forall (inert p n v) l1 -> Forall (inert p n v) l2 -> pf x = p -> set x n v = Some x' ->
  set_all pf set p (l1 ++ x :: l2) n v = Some (l1 ++ x' :: l2).
Proof.
  intros l1 x x' l2 p n v F1 F2 P S. induction F1 as [|y l1 H F IH]; cbn.
  - rewrite P, String.eqb_refl, S, (set_none l2 p n v F2). reflexivity.
  - destruct (String.eqb_spec (pf y) p) as [E|E]; [rewrite (H E)|]; rewrite IH; reflexivity.
Qed.
End Comp.
Lemma fop_mid : forall A (R : A -> A -> Prop) l1 x l2, (forall a b, R a b -> R b a) -> ForallOrdPairs R (l1 ++ x :: l2) ->
  Forall (R x) l1 /\ Forall (R x) l2.
Proof.
  intros A R l1 x l2 Sy. induction l1 as [|y l1 IH]; cbn; intros H; inversion H as [|? ? F H']; subst.
  - split; [constructor|exact F].
  - destruct (IH H') as [I1 I2]. split; [|exact I2]. constructor; [|exact I1]. apply Sy. rewrite Forall_forall in F. apply F. apply in_or_app. right. left. reflexivity.
Qed.
Lemma fop_replace : forall A (R : A -> A -> Prop) l1 x x' l2, (forall a b, R a b -> R b a) -> (forall y, R x y -> R x' y) -> ForallOrdPairs R (l1 ++ x :: l2) -> ForallOrdPairs R (l1 ++ x' :: l2).
Proof.
  intros A R l1 x x' l2 Sy H. induction l1 as [|y l1 IH]; cbn; intros F; inversion F as [|? ? Fy F']; subst.
  - constructor; [|exact F']. eapply Forall_impl; [|exact Fy]. exact H.
  - constructor; [|apply IH; exact F']. rewrite Forall_forall in *. intros z Hz. apply in_app_or in Hz as [Hz|[<-|Hz]].
    + apply Fy. apply in_or_app. left. exact Hz.
    + apply Sy, H, Sy. apply Fy. apply in_or_app. right. left. reflexivity.
    + apply Fy. apply in_or_app. right. right. exact Hz.
Qed.

(* ---- a data block ---- *)
Lemma leaf_deaf : forall x n c d a y, denotes_leaf x n c d a -> ~ clash_leaf x y -> deaf leaf_prefix leaf_get (leaf_prefix x) n y.
Proof. intros x n c d a y H N E. apply (leaf_foreign x y n c d a H N E). Qed.
Lemma leaf_inert : forall x n c d a y v, denotes_leaf x n c d a -> ~ clash_leaf x y -> lower_leaf y -> inert leaf_prefix leaf_set (leaf_prefix x) n v y.
Proof. intros x n c d a y v H N L E. apply (leaf_foreign x y n c d a H N E); exact L. Qed.
Lemma no_clash_sym : forall a b, ~ clash_leaf a b -> ~ clash_leaf b a.
Proof. intros a b H K. apply H, clash_leaf_sym, K. Qed.
Lemma data_get_denoted : forall D n c d a, distinct_data D -> denotes_data D n c d a -> data_get D n = read c d a.
Proof.
  intros D n c d a Di H. destruct H as [D x n c d a I H]. destruct (leaf_head x n c d a H) as (s & r & ->). unfold data_get.
  rewrite String.eqb_refl, lower_sub_idem, sub_eqb_refl. cbn [andb]. rewrite <- (leaf_get_denoted x _ c d a H).
  apply in_split in I as (l1 & l2 & E). unfold distinct_data in Di. rewrite E in *. destruct (fop_mid _ _ l1 x l2 no_clash_sym Di) as [F1 F2].
  apply first_app; [| |reflexivity]; (eapply Forall_impl; [|eassumption]); intros y Hy; apply (leaf_deaf x _ c d a); assumption.
Qed.
Lemma data_head : forall D n c d a, denotes_data D n c d a -> exists s q t r, n = (dt_prefix D, s) :: (q, t) :: r.
Proof. intros D n c d a [D' x n' c' d' a' I H]. destruct (leaf_head _ _ _ _ _ H) as (s & r & ->). eauto 10. Qed.
Lemma data_set_denoted : forall D n c d a v d', lower_data D -> distinct_data D -> denotes_data D n c d a -> setattr c d a v = Some d' ->
  exists D', data_set D n v = Some D' /\ denotes_data D' n c d' a /\ dt_prefix D' = dt_prefix D /\ data_name D' = data_name D /\ lower_data D' /\ distinct_data D' /\
    (forall m c2 d2 a2, denotes_data D m c2 d2 a2 -> m <> n -> In a2 (ATTR_NAMES c2) -> data_get D' m = data_get D m).
Proof.
  intros D n c d a v d' [Ln Ll] Di H S. pose proof H as H0. destruct H as [D x n c d a I H].
  destruct (leaf_set_denoted x n c d a v d' (Ll x I) H S) as (x' & E1 & E2 & E3 & E4 & E5 & E6).
  destruct (leaf_head x n c d a H) as (s & r & En). pose proof I as I0. apply in_split in I as (l1 & l2 & E). pose proof Di as Di0. unfold distinct_data in Di. rewrite E in Di.
  destruct (fop_mid _ _ l1 x l2 no_clash_sym Di) as [F1 F2].
  assert (N1 : Forall (inert leaf_prefix leaf_set (leaf_prefix x) n v) l1).
  { rewrite Forall_forall in *. intros y Hy. apply (leaf_inert x n c d a); [exact H|apply F1; exact Hy|]. apply Ll. rewrite E. apply in_or_app. left. exact Hy. }
  assert (N2 : Forall (inert leaf_prefix leaf_set (leaf_prefix x) n v) l2).
  { rewrite Forall_forall in *. intros y Hy. apply (leaf_inert x n c d a); [exact H|apply F2; exact Hy|]. apply Ll. rewrite E. apply in_or_app. right. right. exact Hy. }
  exists (mkData (dt_prefix D) (data_name D) (l1 ++ x' :: l2)). cbn [dt_prefix data_name].
  assert (Di' : distinct_data (mkData (dt_prefix D) (data_name D) (l1 ++ x' :: l2))).
  { unfold distinct_data. cbn [dt_items]. apply (fop_replace _ _ l1 x x' l2 no_clash_sym); [|exact Di]. intros y Ny. rewrite E5. exact Ny. }
  split.
  { rewrite En. unfold data_set. rewrite String.eqb_refl, (lower_name_sub _ Ln), sub_eqb_refl. cbn [andb]. rewrite E, <- En.
    rewrite (set_app leaf_prefix leaf_set l1 x x' l2 (leaf_prefix x) n v N1 N2 eq_refl E1). reflexivity. }
  split.
  { apply (DData (mkData (dt_prefix D) (data_name D) (l1 ++ x' :: l2)) x'); [|exact E2]. cbn. apply in_or_app. right. left. reflexivity. }
  split; [reflexivity|]. split; [reflexivity|]. split.
  { split; [exact Ln|]. cbn [dt_items]. intros y Hy. apply in_app_or in Hy as [Hy|[<-|Hy]]; [|exact E4|]; apply Ll; rewrite E; apply in_or_app; [left|right; right]; exact Hy. }
  split; [exact Di'|].
  intros m c2 d2 a2 Hm Nm A. inversion Hm as [D0 y m0 c0 d0 a0 Iy Hy]; subst D0 m c0 d0 a0.
  rewrite (data_get_denoted D _ c2 d2 a2 Di0 Hm).
  rewrite E in Iy. apply in_app_or in Iy as [Iy|[<-|Iy]].
  - rewrite (data_get_denoted (mkData (dt_prefix D) (data_name D) (l1 ++ x' :: l2)) _ c2 d2 a2 Di'); [reflexivity|].
    apply (DData (mkData (dt_prefix D) (data_name D) (l1 ++ x' :: l2)) y); [|exact Hy]. cbn. apply in_or_app. left. exact Iy.
  - assert (Nm' : m0 <> n) by (intros ->; apply Nm; reflexivity). specialize (E6 m0 c2 d2 a2 Hy Nm' A). rewrite (leaf_get_denoted x m0 c2 d2 a2 Hy) in E6.
    destruct (leaf_head x m0 c2 d2 a2 Hy) as (s' & r' & Em). unfold data_get. rewrite Em. cbn [dt_prefix data_name dt_items].
    rewrite String.eqb_refl, lower_sub_idem, sub_eqb_refl. cbn [andb]. rewrite <- Em, <- E6.
    apply first_app; [| |exact E3]; rewrite Forall_forall in *; intros z Hz; (apply (leaf_deaf x m0 c2 d2 a2); [exact Hy|]); [apply F1|apply F2]; exact Hz.
  - rewrite (data_get_denoted (mkData (dt_prefix D) (data_name D) (l1 ++ x' :: l2)) _ c2 d2 a2 Di'); [reflexivity|].
    apply (DData (mkData (dt_prefix D) (data_name D) (l1 ++ x' :: l2)) y); [|exact Hy]. cbn. apply in_or_app. right. right. exact Iy.
Qed.
