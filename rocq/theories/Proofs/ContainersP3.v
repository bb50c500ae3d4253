From Coq Require Import QArith List String Ascii Bool Arith Lia.
From Verif Require Import Spec.Objects Model.Items Spec.ItemSpec Model.Containers Spec.ContainerSpec Proofs.ItemsP Proofs.ContainersP Proofs.ContainersP2.
Import ListNotations.
Open Scope string_scope.
Open Scope list_scope.

(* ---- writing keeps what names denote ---- *)
Lemma nth_replace : forall A (l : list A) i x j y, nth_error l j = Some y -> exists z, nth_error (replace_nth l i x) j = Some z.
Proof. induction l as [|w l IH]; intros [|i] x [|j] y H; cbn in *; try discriminate; eauto. Qed.
Lemma leaf_set_keeps : forall x n v x' m c d a, leaf_set x n v = Some x' -> denotes_leaf x m c d a -> exists d', denotes_leaf x' m c d' a.
Proof.
  intros x n v x' m c d a S H. destruct H as [c d a|l i d a E]; cbn in S.
  - destruct (item_set c d n v) as [d'|]; [|discriminate]. injection S as <-. exists d'. constructor.
  - destruct (loop_set l n v) as [l'|] eqn:L; [|discriminate]. injection S as <-.
    assert (K : l_class l' = l_class l /\ loop_name l' = loop_name l /\ exists d', nth_error (l_items l') i = Some d').
    { unfold loop_set in L. destruct n as [|[p s] [|[b k] [|? ?]]]; try discriminate. destruct (_ && _).
      - destruct k as [|t|j]; try discriminate. destruct (nth_error (l_items l) j) as [dj|] eqn:Ej; [|discriminate]. destruct (setattr _ dj b v) as [d'|]; [|discriminate].
        injection L as <-. cbn. split; [reflexivity|]. split; [reflexivity|]. eapply nth_replace. exact E.
      - injection L as <-. eauto. }
    destruct K as (K1 & K2 & d' & K3). exists d'. rewrite <- K1, <- K2. constructor. exact K3.
Qed.
Lemma set_all_in : forall A (pf : A -> string) set p l n v l', set_all pf set p l n v = Some l' -> forall x, In x l -> exists y, In y l' /\ (y = x \/ set x n v = Some y).
Proof.
  intros A pf set p l n v. induction l as [|z l IH]; intros l' H x I; [destruct I|]. cbn in H.
  destruct (String.eqb (pf z) p).
  - destruct (set z n v) as [y|] eqn:Ey; [|discriminate]. destruct (set_all pf set p l n v) as [r|]; [|discriminate]. injection H as <-.
    destruct I as [->|I]; [exists y; split; [left; reflexivity|right; exact Ey]|]. destruct (IH r eq_refl x I) as (w & J & K). exists w. split; [right; exact J|exact K].
  - destruct (set_all pf set p l n v) as [r|]; [|discriminate]. injection H as <-.
    destruct I as [->|I]; [exists x; split; [left; reflexivity|left; reflexivity]|]. destruct (IH r eq_refl x I) as (w & J & K). exists w. split; [right; exact J|exact K].
Qed.
Lemma data_set_keeps : forall D n v D' m c d a, data_set D n v = Some D' -> denotes_data D m c d a -> exists d', denotes_data D' m c d' a.
Proof.
  intros D n v D' m c d a S H. destruct H as [D x m c d a I H]. unfold data_set in S. destruct n as [|[p s] [|[q t] n]]; try discriminate. destruct (_ && _).
  - destruct (set_all _ _ _ _ _ _) as [l'|] eqn:E; [|discriminate]. injection S as <-. destruct (set_all_in _ _ _ _ _ _ _ _ E x I) as (y & J & K).
    assert (exists d', denotes_leaf y m c d' a) as [d' Hy] by (destruct K as [->|K]; [eauto|eapply leaf_set_keeps; eassumption]).
    exists d'. apply (DData (mkData (dt_prefix D) (data_name D) l') y); assumption.
  - injection S as <-. exists d. econstructor; eassumption.
Qed.
Lemma node_set_keeps : forall x n v x' m c d a, node_set x n v = Some x' -> denotes_node x m c d a -> exists d', denotes_node x' m c d' a.
Proof.
  intros x n v x' m c d a S H. destruct H as [y m c d a H|D m c d a H]; cbn in S.
  - destruct (leaf_set y n v) as [y'|] eqn:E; [|discriminate]. injection S as <-. destruct (leaf_set_keeps _ _ _ _ _ _ _ _ E H) as [d' K]. exists d'. constructor; exact K.
  - destruct (data_set D n v) as [y'|] eqn:E; [|discriminate]. injection S as <-. destruct (data_set_keeps _ _ _ _ _ _ _ _ E H) as [d' K]. exists d'. constructor; exact K.
Qed.
Lemma global_set_keeps : forall D n v D' m c d a, global_set D n v = Some D' -> denotes D m c d a -> exists d', denotes D' m c d' a.
Proof.
  intros D n v D' m c d a S H. destruct H as [D x m c d a I H]. unfold global_set in S. destruct n as [|[p s] [|[q t] n]]; try discriminate. destruct (_ && _).
  - destruct (set_all _ _ _ _ _ _) as [l'|] eqn:E; [|discriminate]. injection S as <-. destruct (set_all_in _ _ _ _ _ _ _ _ E x I) as (y & J & K).
    assert (exists d', denotes_node y m c d' a) as [d' Hy] by (destruct K as [->|K]; [eauto|eapply node_set_keeps; eassumption]).
    exists d'. apply (DGlobal (mkGlobal (gl_prefix D) (global_name D) l') y); assumption.
  - injection S as <-. exists d. econstructor; eassumption.
Qed.

(* ---- one write ---- *)
Lemma accepts_get : forall c a v w d, accepts c a v w -> exists d', setattr c d a v = Some d' /\ read c d' a = RVal w.
Proof.
  intros c a v w d (N & I & E & P & Nw & L). destruct (set_get c d a v w N I E P L) as (d' & S & G). exists d'. split; [exact S|].
  rewrite (read_data c d' a I), G. destruct w; cbn; congruence.
Qed.
Theorem write_read : forall G n c d a v w, lower_global G -> distinct G -> denotes G n c d a -> accepts c a v w ->
  exists G', global_set G n v = Some G' /\ global_get G' n = RVal w /\ lower_global G' /\ distinct G' /\
    forall m c2 d2 a2, denotes G m c2 d2 a2 -> m <> n -> In a2 (ATTR_NAMES c2) -> global_get G' m = global_get G m.
Proof.
  intros G n c d a v w L Di H Ac. destruct (accepts_get c a v w d Ac) as (d' & S & R).
  destruct (global_set_denoted G n c d a v d' L Di H S) as (G' & E1 & E2 & E3 & E4 & E5). exists G'. split; [exact E1|]. split; [|split; [exact E3|split; [exact E4|exact E5]]].
  rewrite (global_get_denoted G' n c d' a E4 E2). exact R.
Qed.
(* ---- any sequence of writes ---- *)
Theorem writes_done : forall h G, lower_global G -> distinct G -> writes_ok G h -> exists G', write_all G h = Some G' /\ lower_global G' /\ distinct G' /\
  (forall m c d a, denotes G m c d a -> In a (ATTR_NAMES c) -> (forall v, ~ In (m, v) h) -> global_get G' m = global_get G m) /\
  (forall h1 n v h2, h = h1 ++ (n, v) :: h2 -> (forall v', ~ In (n, v') h2) -> forall c d a w, denotes G n c d a -> accepts c a v w -> global_get G' n = RVal w).
Proof.
  induction h as [|[n v] h IH]; intros G L Di W.
  - exists G. split; [reflexivity|]. split; [exact L|]. split; [exact Di|]. split; [reflexivity|]. intros [|] n v h2 E; discriminate.
  - destruct (W n v (or_introl eq_refl)) as (c & d & a & w & H & Ac). destruct (write_read G n c d a v w L Di H Ac) as (G1 & E1 & E2 & E3 & E4 & E5).
    assert (W1 : writes_ok G1 h).
    { intros n' v' I. destruct (W n' v' (or_intror I)) as (c' & d' & a' & w' & H' & A'). destruct (global_set_keeps _ _ _ _ _ _ _ _ E1 H') as [d'' K]. exists c', d'', a', w'. split; assumption. }
    destruct (IH G1 E3 E4 W1) as (G' & F1 & F2 & F3 & F4 & F5). exists G'. split; [cbn; rewrite E1; exact F1|]. split; [exact F2|]. split; [exact F3|]. split.
    + intros m c2 d2 a2 H2 I2 N. destruct (global_set_keeps _ _ _ _ _ _ _ _ E1 H2) as [d'' K].
      rewrite (F4 m c2 d'' a2 K I2 (fun v0 I0 => N v0 (or_intror I0))). apply (E5 m c2 d2 a2 H2); [|exact I2]. intros ->. apply (N v). left. reflexivity.
    + intros h1 n' v' h2 E N c' d' a' w' H' A'. destruct (global_set_keeps _ _ _ _ _ _ _ _ E1 H') as [d'' K]. destruct h1 as [|p h1]; cbn in E; injection E as <- E.
      * subst v'. rewrite (F4 n c' d'' a' K); [|apply A'|subst h; exact N].
        destruct (write_read G n c' d' a' v w' L Di H' A') as (G2 & J1 & J2 & _). congruence.
      * exact (F5 h1 n' v' h2 E N c' d'' a' w' K A').
Qed.

(* ---- items by name ---- *)
Section Named.
Context {A : Type} (ok : A -> bool).
Implicit Types l cur items : list (string * A).
Lemma foe_in : forall l seen x, In x (first_of_each l seen) -> In x l /\ ~ In (fst x) seen.
Proof.
  induction l as [|y l IH]; intros seen x H; cbn in H; [destruct H|]. destruct (isin (fst y) seen) eqn:E.
  - destruct (IH _ _ H). split; [right; assumption|assumption].
  - destruct H as [<-|H]; [split; [left; reflexivity|apply isin_false; exact E]|]. destruct (IH _ _ H) as [I N]. split; [right; exact I|]. intros J. apply N. right. exact J.
Qed.
Lemma foe_nodup : forall l seen, NoDup (map fst (first_of_each l seen)).
Proof.
  induction l as [|y l IH]; intros seen; cbn; [constructor|]. destruct (isin (fst y) seen); [apply IH|]. cbn. constructor; [|apply IH].
  intros H. apply in_map_iff in H as (z & E & I). apply foe_in in I as [_ N]. apply N. left. symmetry. exact E.
Qed.
Lemma nodup_filter : forall (p : string * A -> bool) l, NoDup (map fst l) -> NoDup (map fst (filter p l)).
Proof.
  intros p l. induction l as [|y l IH]; intros H; cbn; [constructor|]. inversion H as [|? ? N H']; subst. destruct (p y); [|apply IH; exact H']. cbn. constructor; [|apply IH; exact H'].
  intros J. apply in_map_iff in J as (z & E & I). apply filter_In in I as [I _]. apply N. rewrite <- E. apply in_map. exact I.
Qed.
Lemma nodup_app : forall (l1 l2 : list string), NoDup l1 -> NoDup l2 -> (forall x, In x l1 -> ~ In x l2) -> NoDup (l1 ++ l2).
Proof.
  induction l1 as [|x l1 IH]; intros l2 H1 H2 D; cbn; [exact H2|]. inversion H1 as [|? ? N H1']; subst. constructor.
  - intros I. apply in_app_or in I as [I|I]; [contradiction|]. apply (D x (or_introl eq_refl) I).
  - apply IH; [assumption..|]. intros y Hy. apply D. right. exact Hy.
Qed.
Lemma add_one : forall cur items, one_per_name cur -> one_per_name (add_items ok cur items).
Proof.
  intros cur items H. unfold one_per_name, add_items. rewrite map_app. apply nodup_app; [apply nodup_filter; exact H|apply nodup_filter, foe_nodup|].
  intros x Hx Hy. apply in_map_iff in Hx as (z & <- & I). apply filter_In in I as [_ N]. apply negb_true_iff, isin_false in N.
  apply in_map_iff in Hy as (t & E & J). apply filter_In in J as [J _]. apply foe_in in J as [J _]. apply N. rewrite <- E. apply in_map. exact J.
Qed.
Lemma index_nth : forall k (l : list string) i, index_of k l = Some i -> nth_error l i = Some k.
Proof.
  intros k l. induction l as [|x l IH]; intros i H; cbn in H; [discriminate|]. destruct (String.eqb_spec k x) as [->|N]; [injection H as <-; reflexivity|].
  destruct (index_of k l) as [j|]; [|discriminate]. injection H as <-. cbn. apply IH. reflexivity.
Qed.
Lemma index_in : forall k (l : list string), In k l -> exists i, index_of k l = Some i.
Proof.
  intros k l. induction l as [|x l IH]; intros H; [destruct H|]. cbn. destruct (String.eqb_spec k x) as [->|N]; [eauto|].
  destruct H as [->|H]; [congruence|]. destruct (IH H) as [i ->]. exists (S i). reflexivity.
Qed.
Lemma map_remove : forall l i, map fst (remove_nth l i) = remove_nth (map fst l) i.
Proof. induction l as [|x l IH]; intros [|i]; cbn; try reflexivity. rewrite IH. reflexivity. Qed.
Lemma in_remove : forall B (l : list B) i x, In x (remove_nth l i) -> In x l.
Proof. induction l as [|y l IH]; intros [|i] x H; cbn in *; [destruct H..|right; exact H|]. destruct H as [->|H]; [left; reflexivity|right; eapply IH; exact H]. Qed.
Lemma remove_nodup : forall (l : list string) i k, NoDup l -> nth_error l i = Some k -> NoDup (remove_nth l i) /\ ~ In k (remove_nth l i).
Proof.
  induction l as [|x l IH]; intros [|i] k H E; cbn in E; try discriminate; inversion H as [|? ? N H']; subst.
  - injection E as <-. cbn. split; assumption.
  - destruct (IH i k H' E) as [J1 J2]. cbn. split.
    + constructor; [|exact J1]. intros I. apply N. eapply in_remove. exact I.
    + intros [<-|I]; [|contradiction]. apply N. eapply nth_error_In. exact E.
Qed.
Lemma assign_own : forall cur x, exists r, assign_item cur (fst x) x = Some r.
Proof.
  intros cur x. unfold assign_item. destruct (isin (fst x) (map fst cur)) eqn:E; [|eauto]. apply isin_iff in E. destruct (index_in _ _ E) as [i ->]. eauto.
Qed.
Lemma assign_one : forall cur x r, one_per_name cur -> assign_item cur (fst x) x = Some r -> one_per_name r.
Proof.
  intros cur x r H E. unfold assign_item in E. unfold one_per_name in *. destruct (isin (fst x) (map fst cur)) eqn:I.
  - destruct (index_of (fst x) (map fst cur)) as [i|] eqn:Ei; [|discriminate]. injection E as <-. apply index_nth in Ei. rewrite map_app, map_remove.
    destruct (remove_nodup _ i (fst x) H Ei) as [J1 J2]. apply nodup_app; [exact J1|repeat constructor; intros []|]. intros y Hy [<-|[]]. contradiction.
  - injection E as <-. rewrite map_app. apply isin_false in I. apply nodup_app; [exact H|repeat constructor; intros []|]. intros y Hy [<-|[]]. contradiction.
Qed.
Theorem one_item_per_name : forall h, one_per_name (container_run ok h).
Proof.
  intros h. unfold container_run. assert (G : forall cur, one_per_name cur -> one_per_name (fold_left (container_step ok) h cur)); [|apply G; constructor].
  induction h as [|o h IH]; intros cur H; [exact H|]. cbn. apply IH. destruct o as [l|x]; cbn; [apply add_one; exact H|].
  destruct (assign_item cur (fst x) x) as [r|] eqn:E; [eapply assign_one; eassumption|exact H].
Qed.

(* finding *)
Lemma find_app : forall (p : string * A -> bool) l1 l2, find p (l1 ++ l2) = match find p l1 with Some x => Some x | None => find p l2 end.
Proof. intros p l1 l2. induction l1 as [|x l1 IH]; cbn; [reflexivity|]. destruct (p x); [reflexivity|exact IH]. Qed.
Lemma find_none_in : forall l k, ~ In k (map fst l) -> find (fun x => String.eqb k (fst x)) l = None.
Proof.
  induction l as [|x l IH]; intros k H; cbn; [reflexivity|]. destruct (String.eqb_spec k (fst x)) as [->|N]; [exfalso; apply H; left; reflexivity|]. apply IH. intros I. apply H. right. exact I.
Qed.
Lemma find_nodup : forall l x, NoDup (map fst l) -> In x l -> find (fun y => String.eqb (fst x) (fst y)) l = Some x.
Proof.
  induction l as [|y l IH]; intros x H I; [destruct I|]. inversion H as [|? ? N H']; subst. cbn. destruct I as [->|I]; [rewrite String.eqb_refl; reflexivity|].
  destruct (String.eqb_spec (fst x) (fst y)) as [E|E]; [|apply IH; assumption]. exfalso. apply N. rewrite <- E. apply in_map. exact I.
Qed.
Lemma find_ext : forall (p q : string * A -> bool) l, (forall x, In x l -> p x = q x) -> find p l = find q l.
Proof. intros p q l. induction l as [|x l IH]; intros H; cbn; [reflexivity|]. rewrite (H x (or_introl eq_refl)). destruct (q x); [reflexivity|]. apply IH. intros; apply H; right; assumption. Qed.
Lemma find_filter : forall (p q : string * A -> bool) l, (forall x, In x l -> p x = true -> q x = true) -> find p (filter q l) = find p l.
Proof.
  intros p q l. induction l as [|x l IH]; intros H; cbn; [reflexivity|]. destruct (q x) eqn:Q; cbn.
  - destruct (p x); [reflexivity|apply IH; intros; apply H; [right|]; assumption].
  - destruct (p x) eqn:P; [rewrite (H x (or_introl eq_refl) P) in Q; discriminate|apply IH; intros; apply H; [right|]; assumption].
Qed.
Lemma foe_id : forall l seen, NoDup (map fst l) -> (forall x, In x l -> ~ In (fst x) seen) -> first_of_each l seen = l.
Proof.
  induction l as [|x l IH]; intros seen H N; cbn; [reflexivity|]. inversion H as [|? ? Nx H']; subst. replace (isin (fst x) seen) with false by (symmetry; apply isin_false, N; left; reflexivity).
  f_equal. apply IH; [exact H'|]. intros y Hy [E|I]; [apply Nx; rewrite E; apply in_map; exact Hy|]. apply (N y (or_intror Hy) I).
Qed.
Theorem added_found : forall cur items x, one_per_name items -> In x items -> ok (snd x) = true -> lower (fst x) = fst x ->
  find_item (add_items ok cur items) (fst x) = Some (snd x).
Proof.
  intros cur items x H I O L. unfold find_item, add_items. rewrite L, find_app, find_none_in.
  - rewrite foe_id by (try assumption; intros ? ? []). assert (J : In x (filter (fun y => ok (snd y)) items)) by (apply filter_In; split; assumption).
    rewrite (find_nodup _ x (nodup_filter _ _ H) J). reflexivity.
  - intros K. apply in_map_iff in K as (z & E & K). apply filter_In in K as [_ K]. apply negb_true_iff, isin_false in K. apply K. rewrite E. apply in_map. exact I.
Qed.
Theorem add_frame : forall cur items k, ~ In (lower k) (map fst items) -> find_item (add_items ok cur items) k = find_item cur k.
Proof.
  intros cur items k N. unfold find_item, add_items. rewrite find_app. rewrite find_filter.
  - destruct (find _ cur); [reflexivity|]. rewrite find_none_in; [reflexivity|]. intros I. apply in_map_iff in I as (z & E & I). apply filter_In in I as [I _]. apply foe_in in I as [I _]. apply N. rewrite <- E. apply in_map. exact I.
  - intros x I E. apply String.eqb_eq in E. apply negb_true_iff, isin_false. rewrite <- E. exact N.
Qed.
Lemma find_remove_other : forall l i k j, nth_error (map fst l) i = Some k -> j <> k -> find (fun y => String.eqb j (fst y)) (remove_nth l i) = find (fun y => String.eqb j (fst y)) l.
Proof.
  induction l as [|x l IH]; intros [|i] k j E N; cbn in *; try discriminate.
  - injection E as <-. destruct (String.eqb_spec j (fst x)); [congruence|reflexivity].
  - destruct (String.eqb j (fst x)); [reflexivity|]. eapply IH; eassumption.
Qed.
Theorem assigned_found : forall cur x r, one_per_name cur -> lower (fst x) = fst x -> assign_item cur (fst x) x = Some r ->
  find_item r (fst x) = Some (snd x) /\ forall k, lower k <> fst x -> find_item r k = find_item cur k.
Proof.
  intros cur x r H L E. unfold assign_item in E. unfold find_item. rewrite L. destruct (isin (fst x) (map fst cur)) eqn:I.
  - destruct (index_of (fst x) (map fst cur)) as [i|] eqn:Ei; [|discriminate]. injection E as <-. apply index_nth in Ei.
    destruct (remove_nodup _ i (fst x) H Ei) as [_ J2]. split.
    + rewrite find_app, find_none_in by (rewrite map_remove; exact J2). cbn. rewrite String.eqb_refl. reflexivity.
    + intros k N. rewrite find_app. pose proof (find_remove_other cur i (fst x) (lower k) Ei N) as FR. unfold named in *. rewrite FR. destruct (find _ cur); [reflexivity|]. cbn. destruct (String.eqb_spec (lower k) (fst x)); [contradiction|reflexivity].
  - injection E as <-. apply isin_false in I. split.
    + rewrite find_app, find_none_in by exact I. cbn. rewrite String.eqb_refl. reflexivity.
    + intros k N. rewrite find_app. destruct (find _ cur); [reflexivity|]. cbn. destruct (String.eqb_spec (lower k) (fst x)); [contradiction|reflexivity].
Qed.
(** The first of several items of the same name in one call is kept. *)
Theorem first_duplicate_kept : forall cur k (a b : A), lower k = k -> ok a = true -> find_item (add_items ok cur [(k, a); (k, b)]) k = Some a.
Proof.
  intros cur k a b L O. unfold find_item, add_items. rewrite L, find_app, find_none_in.
  - cbn. rewrite String.eqb_refl. cbn. rewrite O. cbn. rewrite String.eqb_refl. reflexivity.
  - intros K. apply in_map_iff in K as (z & E & K). apply filter_In in K as [_ K]. apply negb_true_iff, isin_false in K. apply K. left. symmetry. exact E.
Qed.
(** An item that is rejected removes the item of its name. *)
Theorem rejected_removes : forall cur k (a : A), lower k = k -> ok a = false -> find_item (add_items ok cur [(k, a)]) k = None.
Proof.
  intros cur k a L O. unfold find_item, add_items. rewrite L, find_app, find_none_in.
  - cbn. rewrite O. reflexivity.
  - intros K. apply in_map_iff in K as (z & E & K). apply filter_In in K as [_ K]. apply negb_true_iff, isin_false in K. apply K. left. symmetry. exact E.
Qed.
(** An item assigned under another name: that one is dropped, the name of the item is there twice and the old item is found. *)
Theorem assign_other_name : forall (a b x : A), 
  assign_item [("u", a); ("w", b)] "u" ("w", x) = Some [("w", b); ("w", x)] /\ find_item [("w", b); ("w", x)] "w" = Some b /\ find_item [("w", b); ("w", x)] "u" = None /\
  assign_item [("w", b)] "u" ("w", x) = None.
Proof. intros. repeat split; reflexivity. Qed.
End Named.
