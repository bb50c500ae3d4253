From Coq Require Import QArith List String Ascii Bool Arith Lia.
From Verif Require Import Spec.Objects Model.Items Spec.ItemSpec Model.Containers Spec.ContainerSpec Proofs.ItemsP Proofs.ContainersP.
Import ListNotations.
Open Scope string_scope.
Open Scope list_scope.

(* ---- a node of a global container ---- *)
Definition lower_node (x : gnode) : Prop := match x with Leaf y => lower_leaf y | Data D => lower_data D end.
Definition distinct_node (x : gnode) : Prop := match x with Leaf _ => True | Data D => distinct_data D end.
Lemma node_head : forall x n c d a, denotes_node x n c d a -> exists s r, n = (node_prefix x, s) :: r.
Proof. intros x n c d a [y m c' d' a' H|D m c' d' a' H]; cbn; [apply (leaf_head _ _ _ _ _ H)|]. destruct (data_head _ _ _ _ _ H) as (s & q & t & r & ->). eauto. Qed.
Lemma node_get_denoted : forall x n c d a, distinct_node x -> denotes_node x n c d a -> node_get x n = read c d a.
Proof. intros x n c d a Di K. destruct K as [y m c' d' a' H|D m c' d' a' H]; cbn; [apply leaf_get_denoted; exact H|apply data_get_denoted; assumption]. Qed.
Lemma node_set_denoted : forall x n c d a v d', lower_node x -> distinct_node x -> denotes_node x n c d a -> setattr c d a v = Some d' ->
  exists x', node_set x n v = Some x' /\ denotes_node x' n c d' a /\ node_prefix x' = node_prefix x /\ lower_node x' /\ distinct_node x' /\
    (forall y, clash_node x' y <-> clash_node x y) /\
    (forall m c2 d2 a2, denotes_node x m c2 d2 a2 -> m <> n -> In a2 (ATTR_NAMES c2) -> node_get x' m = node_get x m).
Proof.
  intros x n c d a v d' L Di H S. destruct H as [y m c d a H|D m c d a H].
  - destruct (leaf_set_denoted y m c d a v d' L H S) as (x' & E1 & E2 & E3 & E4 & E5 & E6). exists (Leaf x'). cbn. rewrite E1.
    split; [reflexivity|]. split; [constructor; exact E2|]. split; [exact E3|]. split; [exact E4|]. split; [exact Logic.I|]. split.
    + intros [z|z]; unfold clash_node; cbn; rewrite E3; [rewrite (E5 z)|]; reflexivity.
    + intros k c2 d2 a2 K N A. inversion K; subst. eapply E6; eassumption.
  - destruct (data_set_denoted D m c d a v d' L Di H S) as (x' & E1 & E2 & E3 & E3' & E4 & E5 & E6). exists (Data x'). cbn. rewrite E1.
    split; [reflexivity|]. split; [constructor; exact E2|]. split; [exact E3|]. split; [exact E4|]. split; [exact E5|]. split.
    + intros [z|z]; unfold clash_node; cbn; rewrite E3, ?E3'; reflexivity.
    + intros k c2 d2 a2 K N A. inversion K; subst. eapply E6; eassumption.
Qed.
Lemma node_foreign : forall x y n c d a, denotes_node x n c d a -> ~ clash_node x y -> node_prefix y = node_prefix x ->
  node_get y n = RNone /\ (lower_node y -> forall v, node_set y n v = Some y).
Proof.
  intros x y n c d a H N P. destruct H as [z m c d a H|D m c d a H]; destruct y as [y|E].
  - cbn in P. assert (K : ~ clash_leaf z y) by (intros K; apply N; split; [symmetry; exact P|exact K]).
    destruct (leaf_foreign z y m c d a H K P) as [F1 F2]. cbn. split; [exact F1|]. intros L v. rewrite (F2 L v). reflexivity.
  - exfalso. apply N. split; [symmetry; exact P|exact Logic.I].
  - exfalso. apply N. split; [symmetry; exact P|exact Logic.I].
  - cbn in P. destruct H as [D x m c d a I H]. destruct (leaf_head x m c d a H) as (s & r & ->).
    assert (Q : sub_eqb (lower_sub (sub_of (data_name D))) (lower_sub (sub_of (data_name E))) = false).
    { destruct (sub_eqb _ _) eqn:Q; [|reflexivity]. apply sub_eqb_eq in Q. exfalso. apply N. split; [symmetry; exact P|exact Q]. }
    cbn. rewrite P, String.eqb_refl, lower_sub_idem, Q. split; [reflexivity|]. intros [L _] v. rewrite (lower_name_sub _ L) in Q. rewrite Q. reflexivity.
Qed.
Lemma clash_node_sym : forall x y, clash_node x y -> clash_node y x.
Proof. intros [a|D] [b|E] [H1 H2]; split; try (symmetry; assumption); try exact Logic.I. apply clash_leaf_sym. exact H2. Qed.
Lemma no_nclash_sym : forall a b, ~ clash_node a b -> ~ clash_node b a.
Proof. intros a b H K. apply H, clash_node_sym, K. Qed.
Lemma node_deaf : forall x n c d a y, denotes_node x n c d a -> ~ clash_node x y -> deaf node_prefix node_get (node_prefix x) n y.
Proof. intros x n c d a y H N E. apply (node_foreign x y n c d a H N E). Qed.
Lemma node_inert : forall x n c d a y v, denotes_node x n c d a -> ~ clash_node x y -> lower_node y -> inert node_prefix node_set (node_prefix x) n v y.
Proof. intros x n c d a y v H N L E. apply (node_foreign x y n c d a H N E); exact L. Qed.
Lemma distinct_nodes : forall G x, distinct G -> In x (gl_items G) -> distinct_node x.
Proof. intros G [y|D] [_ H] I; cbn; [exact Logic.I|apply H; exact I]. Qed.

(* ---- the global container ---- *)
Lemma global_get_denoted : forall G n c d a, distinct G -> denotes G n c d a -> global_get G n = read c d a.
Proof.
  intros D n c d a Di H. destruct H as [D x n c d a I H]. destruct (node_head x n c d a H) as (s & r & ->). unfold global_get.
  rewrite String.eqb_refl, lower_sub_idem, sub_eqb_refl. cbn [andb]. rewrite <- (node_get_denoted x _ c d a (distinct_nodes D x Di I) H).
  apply in_split in I as (l1 & l2 & E). destruct Di as [Di _]. rewrite E in *. destruct (fop_mid _ _ l1 x l2 no_nclash_sym Di) as [F1 F2].
  apply first_app; [| |reflexivity]; (eapply Forall_impl; [|eassumption]); intros y Hy; apply (node_deaf x _ c d a); assumption.
Qed.
Lemma global_set_denoted : forall G n c d a v d', lower_global G -> distinct G -> denotes G n c d a -> setattr c d a v = Some d' ->
  exists G', global_set G n v = Some G' /\ denotes G' n c d' a /\ lower_global G' /\ distinct G' /\
    (forall m c2 d2 a2, denotes G m c2 d2 a2 -> m <> n -> In a2 (ATTR_NAMES c2) -> global_get G' m = global_get G m).
Proof.
  intros D n c d a v d' [Ln Ll] Di H S. pose proof H as H0. destruct H as [D x n c d a I H].
  destruct (node_set_denoted x n c d a v d' (Ll x I) (distinct_nodes D x Di I) H S) as (x' & E1 & E2 & E3 & E4 & E4' & E5 & E6).
  destruct (node_head x n c d a H) as (s & r & En). pose proof I as I0. apply in_split in I as (l1 & l2 & E). pose proof Di as Di0. destruct Di as [Di Dd]. rewrite E in Di.
  destruct (fop_mid _ _ l1 x l2 no_nclash_sym Di) as [F1 F2].
  assert (N1 : Forall (inert node_prefix node_set (node_prefix x) n v) l1).
  { rewrite Forall_forall in *. intros y Hy. apply (node_inert x n c d a); [exact H|apply F1; exact Hy|]. apply Ll. rewrite E. apply in_or_app. left. exact Hy. }
  assert (N2 : Forall (inert node_prefix node_set (node_prefix x) n v) l2).
  { rewrite Forall_forall in *. intros y Hy. apply (node_inert x n c d a); [exact H|apply F2; exact Hy|]. apply Ll. rewrite E. apply in_or_app. right. right. exact Hy. }
  exists (mkGlobal (gl_prefix D) (global_name D) (l1 ++ x' :: l2)). cbn [gl_prefix global_name].
  assert (Di' : distinct (mkGlobal (gl_prefix D) (global_name D) (l1 ++ x' :: l2))).
  { split; cbn [gl_items].
    - apply (fop_replace _ _ l1 x x' l2 no_nclash_sym); [|exact Di]. intros y Ny. rewrite E5. exact Ny.
    - intros B HB. apply in_app_or in HB as [HB|[HB|HB]].
      + apply Dd. rewrite E. apply in_or_app. left. exact HB.
      + rewrite HB in E4'. exact E4'.
      + apply Dd. rewrite E. apply in_or_app. right. right. exact HB. }
  split.
  { rewrite En. unfold global_set. rewrite String.eqb_refl, (lower_name_sub _ Ln), sub_eqb_refl. cbn [andb]. rewrite E, <- En.
    rewrite (set_app node_prefix node_set l1 x x' l2 (node_prefix x) n v N1 N2 eq_refl E1). reflexivity. }
  split.
  { apply (DGlobal (mkGlobal (gl_prefix D) (global_name D) (l1 ++ x' :: l2)) x'); [|exact E2]. cbn. apply in_or_app. right. left. reflexivity. }
  split.
  { split; [exact Ln|]. cbn [gl_items]. intros y Hy. apply in_app_or in Hy as [Hy|[<-|Hy]]; [|exact E4|]; apply Ll; rewrite E; apply in_or_app; [left|right; right]; exact Hy. }
  split; [exact Di'|].
  intros m c2 d2 a2 Hm Nm A. inversion Hm as [D0 y m0 c0 d0 a0 Iy Hy]; subst D0 m c0 d0 a0.
  rewrite (global_get_denoted D _ c2 d2 a2 Di0 Hm).
  rewrite E in Iy. apply in_app_or in Iy as [Iy|[<-|Iy]].
  - rewrite (global_get_denoted (mkGlobal (gl_prefix D) (global_name D) (l1 ++ x' :: l2)) _ c2 d2 a2 Di'); [reflexivity|].
    apply (DGlobal (mkGlobal (gl_prefix D) (global_name D) (l1 ++ x' :: l2)) y); [|exact Hy]. cbn. apply in_or_app. left. exact Iy.
  - assert (Nm' : m0 <> n) by (intros ->; apply Nm; reflexivity). specialize (E6 m0 c2 d2 a2 Hy Nm' A). rewrite (node_get_denoted x m0 c2 d2 a2 (distinct_nodes D x Di0 I0) Hy) in E6.
    destruct (node_head x m0 c2 d2 a2 Hy) as (s' & r' & Em). unfold global_get. rewrite Em. cbn [gl_prefix global_name gl_items].
    rewrite String.eqb_refl, lower_sub_idem, sub_eqb_refl. cbn [andb]. rewrite <- Em, <- E6.
    apply first_app; [| |exact E3]; rewrite Forall_forall in *; intros z Hz; (apply (node_deaf x m0 c2 d2 a2); [exact Hy|]); [apply F1|apply F2]; exact Hz.
  - rewrite (global_get_denoted (mkGlobal (gl_prefix D) (global_name D) (l1 ++ x' :: l2)) _ c2 d2 a2 Di'); [reflexivity|].
    apply (DGlobal (mkGlobal (gl_prefix D) (global_name D) (l1 ++ x' :: l2)) y); [|exact Hy]. cbn. apply in_or_app. right. right. exact Iy.
Qed.

(* ---- the listed names ---- *)
Lemma get_flag : forall c d k, ~ In k (ATTR_INT_NAMES c) -> fst (getattr c d k) = dget d k.
Proof.
  intros c d k H. unfold getattr. destruct (dget d k); [reflexivity|]. destruct (isin k _); [reflexivity|]. apply isin_false in H. rewrite H. reflexivity.
Qed.
Lemma refined_spec : forall c d l q, (forall p, In p l -> ~ In (snd p) (ATTR_INT_NAMES c)) -> refined c d l = Some q ->
  forall a, In a q <-> exists flag v, In (a, flag) l /\ dget d flag = Some v /\ truth v = true.
Proof.
  intros c d l. induction l as [|[name flag] l IH]; intros q F H a; cbn in H.
  - injection H as <-. split; [intros []|intros (f & v & [] & _)].
  - rewrite (get_flag c d flag) in H by (apply (F (name, flag)); left; reflexivity).
    destruct (dget d flag) as [v|] eqn:Ev; [|discriminate]. destruct (refined c d l) as [q'|]; [|discriminate]. assert (Hq : q = if truth v then name :: q' else q') by (symmetry; exact (f_equal (fun o => match o with Some z => z | None => q end) H)). subst q.
    specialize (IH q' (fun p Hp => F p (or_intror Hp)) eq_refl a). destruct (truth v) eqn:T; (change (In a (name :: q')) with (name = a \/ In a q') || idtac); rewrite IH; split.
    + intros [<-|(f & w & I & G)]; [exists flag, v; split; [left; reflexivity|split; assumption]|exists f, w; split; [right; exact I|exact G]].
    + intros (f & w & [I|I] & G1 & G2); [injection I as -> ->; left; reflexivity|right; exists f, w; split; [exact I|split; assumption]].
    + intros (f & w & I & G). exists f, w. split; [right; exact I|exact G].
    + intros (f & w & [I|I] & G1 & G2); [injection I as -> ->; congruence|exists f, w; split; [exact I|split; assumption]].
Qed.
Lemma refined_iff : forall c d q, flags_plain c -> refined c d (combine (ATTR_REF c) (ATTR_REF_FLAG c)) = Some q -> forall a, In a q <-> refines c d a.
Proof. intros c d q F H a. apply (refined_spec c d _ q); [|exact H]. intros [x y] Hp. apply F. apply (in_combine_r _ _ _ _ Hp). Qed.

Lemma enum_spec : forall p n c l i q, flags_plain c -> enum_names p n c i l = Some q ->
  forall m, In m q <-> exists j d a, nth_error l j = Some d /\ m = [(p, n); (a, SInt (i + j))] /\ refines c d a.
Proof.
  intros p n c l. induction l as [|d l IH]; intros i q F H m; cbn in H.
  - injection H as <-. split; [intros []|]. intros (j & d & a & E & _). destruct j; discriminate.
  - destruct (refined c d _) as [A|] eqn:R; [|discriminate]. destruct (enum_names p n c (S i) l) as [B|] eqn:Eb; [|discriminate]. injection H as <-.
    rewrite in_app_iff, in_map_iff, (IH (S i) B F Eb m). split.
    + intros [(a & <- & Ia)|(j & d' & a & E & -> & Rf)].
      * exists 0%nat, d, a. rewrite Nat.add_0_r. split; [reflexivity|]. split; [reflexivity|]. apply (refined_iff c d A F R). exact Ia.
      * exists (S j), d', a. replace (i + S j)%nat with (S i + j)%nat by lia. split; [exact E|]. split; [reflexivity|exact Rf].
    + intros (j & d' & a & E & -> & Rf). destruct j as [|j].
      * left. cbn in E. injection E as ->. exists a. rewrite Nat.add_0_r. split; [reflexivity|]. apply (refined_iff c d' A F R). exact Rf.
      * right. exists j, d', a. replace (i + S j)%nat with (S i + j)%nat by lia. split; [exact E|]. split; [reflexivity|exact Rf].
Qed.
Lemma leaf_names_spec : forall x q, flags_plain (leaf_class x) -> leaf_names x = Some q -> forall m, In m q <-> exists c d a, denotes_leaf x m c d a /\ refines c d a.
Proof.
  intros [c d|l] q F H m; cbn in F, H.
  - unfold item_variable_names in H. destruct (refined c d _) as [A|] eqn:R; [|discriminate]. injection H as <-. rewrite in_map_iff. split.
    + intros (a & <- & Ia). exists c, d, a. split; [constructor|]. apply (refined_iff c d A F R). exact Ia.
    + intros (c' & d' & a & H & Rf). inversion H; subst. exists a. split; [reflexivity|]. apply (refined_iff c' d' A F R). exact Rf.
  - rewrite (enum_spec _ _ _ _ 0 q F H m). split.
    + intros (j & d & a & E & -> & Rf). exists (l_class l), d, a. split; [constructor; exact E|exact Rf].
    + intros (c' & d' & a & H' & Rf). inversion H' as [|l0 i d0 a0 E]; subst. exists i, d', a. split; [exact E|]. split; [reflexivity|exact Rf].
Qed.
Lemma names_of_spec : forall A (f : A -> option (list path)) l q, names_of f l = Some q ->
  forall m, In m q <-> exists x p, In x l /\ f x = Some p /\ In m p.
Proof.
  intros A f l. induction l as [|x l IH]; intros q H m; cbn in H.
  - injection H as <-. split; [intros []|intros (x & p & [] & _)].
  - destruct (f x) as [a|] eqn:Ea; [|discriminate]. destruct (names_of f l) as [b|]; [|discriminate]. injection H as <-. rewrite in_app_iff, (IH b eq_refl m). split.
    + intros [I|(y & p & I & E & J)]; [exists x, a; split; [left; reflexivity|split; assumption]|exists y, p; split; [right; exact I|split; assumption]].
    + intros (y & p & [->|I] & E & J); [left; congruence|right; exists y, p; split; [exact I|split; assumption]].
Qed.
Lemma names_of_some : forall A (f : A -> option (list path)) l q x, names_of f l = Some q -> In x l -> exists p, f x = Some p.
Proof.
  intros A f l. induction l as [|y l IH]; intros q x H I; [destruct I|]. cbn in H.
  destruct (f y) as [a|] eqn:Ea; [|discriminate]. destruct (names_of f l) as [b|]; [|discriminate]. destruct I as [->|I]; [eauto|eapply IH; [reflexivity|exact I]].
Qed.
Lemma data_names_spec : forall D q, plain_data D -> data_variable_names D = Some q -> forall m, In m q <-> exists c d a, denotes_data D m c d a /\ refines c d a.
Proof.
  intros D q F H m. unfold data_variable_names in H. destruct (names_of leaf_names (dt_items D)) as [A|] eqn:N; [|discriminate]. injection H as <-. rewrite in_map_iff. split.
  - intros (k & <- & I). apply (names_of_spec _ _ _ _ N) in I as (x & p & I & E & J). apply (leaf_names_spec x p (F x I) E) in J as (c & d & a & Hd & Rf).
    exists c, d, a. split; [econstructor; eassumption|exact Rf].
  - intros (c & d & a & Hd & Rf). inversion Hd as [D0 x n c0 d0 a0 I Hl]; subst. exists n. split; [reflexivity|]. destruct (names_of_some _ _ _ _ _ N I) as [p E].
    apply (names_of_spec _ _ _ _ N). exists x, p. split; [exact I|]. split; [exact E|]. apply (leaf_names_spec x p (F x I) E). eauto.
Qed.
Lemma node_names_spec : forall x q, plain_node x -> node_names x = Some q -> forall m, In m q <-> exists c d a, denotes_node x m c d a /\ refines c d a.
Proof.
  intros [y|D] q F H m; cbn in F, H; [rewrite (leaf_names_spec y q F H m)|rewrite (data_names_spec D q F H m)]; split; intros (c & d & a & Hd & Rf); exists c, d, a; (split; [|exact Rf]).
  - constructor; exact Hd.
  - inversion Hd; subst; assumption.
  - constructor; exact Hd.
  - inversion Hd; subst; assumption.
Qed.
Theorem global_names_spec : forall G q, plain_global G -> global_variable_names G = Some q -> forall m, In m q <-> exists c d a, denotes G m c d a /\ refines c d a.
Proof.
  intros D q F H m. unfold global_variable_names in H. destruct (names_of node_names (gl_items D)) as [A|] eqn:N; [|discriminate]. injection H as <-. rewrite in_map_iff. split.
  - intros (k & <- & I). apply (names_of_spec _ _ _ _ N) in I as (x & p & I & E & J). apply (node_names_spec x p (F x I) E) in J as (c & d & a & Hd & Rf).
    exists c, d, a. split; [econstructor; eassumption|exact Rf].
  - intros (c & d & a & Hd & Rf). inversion Hd as [D0 x n c0 d0 a0 I Hl]; subst. exists n. split; [reflexivity|]. destruct (names_of_some _ _ _ _ _ N I) as [p E].
    apply (names_of_spec _ _ _ _ N). exists x, p. split; [exact I|]. split; [exact E|]. apply (node_names_spec x p (F x I) E). eauto.
Qed.
