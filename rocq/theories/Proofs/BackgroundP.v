Require Import Reals Lra Lia List Bool Arith.
From Verif.Spec Require Import Interp.
From Verif.Model Require Import Background.
Import ListNotations.
Local Open Scope R_scope.

(* ---- minima and maxima ---- *)
Lemma fold_min_le : forall r x, fold_left Rmin r x <= x /\ forall y, In y r -> fold_left Rmin r x <= y.
Proof.
  induction r as [|a r IH]; simpl; intros x.
  - split; [lra|tauto].
  - destruct (IH (Rmin x a)) as [H1 H2]. split.
    + pose proof (Rmin_l x a). lra.
    + intros y [<-|Hy]; [pose proof (Rmin_r x a); lra|auto].
Qed.

Lemma fold_max_ge : forall r x, x <= fold_left Rmax r x /\ forall y, In y r -> y <= fold_left Rmax r x.
Proof.
  induction r as [|a r IH]; simpl; intros x.
  - split; [lra|tauto].
  - destruct (IH (Rmax x a)) as [H1 H2]. split.
    + pose proof (Rmax_l x a). lra.
    + intros y [<-|Hy]; [pose proof (Rmax_r x a); lra|auto].
Qed.

Lemma fold_min_in : forall r x, fold_left Rmin r x = x \/ In (fold_left Rmin r x) r.
Proof.
  induction r as [|a r IH]; simpl; intros x; auto.
  destruct (IH (Rmin x a)) as [H|H]; auto. rewrite H.
  unfold Rmin; destruct (Rle_dec x a); auto.
Qed.

Lemma fold_max_in : forall r x, fold_left Rmax r x = x \/ In (fold_left Rmax r x) r.
Proof.
  induction r as [|a r IH]; simpl; intros x; auto.
  destruct (IH (Rmax x a)) as [H|H]; auto. rewrite H.
  unfold Rmax; destruct (Rle_dec x a); auto.
Qed.

Lemma lmin_le : forall l y, In y l -> lmin l <= y.
Proof.
  intros [|x r] y; simpl; [tauto|]. intros [<-|H].
  - apply (proj1 (fold_min_le _ _)).
  - apply (proj2 (fold_min_le _ _)); auto.
Qed.
Lemma lmax_ge : forall l y, In y l -> y <= lmax l.
Proof.
  intros [|x r] y; simpl; [tauto|]. intros [<-|H].
  - apply (proj1 (fold_max_ge _ _)).
  - apply (proj2 (fold_max_ge _ _)); auto.
Qed.
Lemma lmin_in : forall l, l <> [] -> In (lmin l) l.
Proof.
  intros [|x r] H; [congruence|]. simpl. destruct (fold_min_in r x) as [E|E]; auto.
Qed.
Lemma lmax_in : forall l, l <> [] -> In (lmax l) l.
Proof.
  intros [|x r] H; [congruence|]. simpl. destruct (fold_max_in r x) as [E|E]; auto.
Qed.

(* ---- increasing lists ---- *)
Lemma incr_lt : forall xs, increasing xs -> forall d i, (i + S d < length xs)%nat ->
  nth i xs 0 < nth (i + S d) xs 0.
Proof.
  intros xs H d. induction d as [|d IH]; intros i Hi.
  - replace (i + 1)%nat with (S i) by lia. apply H. lia.
  - assert (nth i xs 0 < nth (i + S d) xs 0) by (apply IH; lia).
    assert (nth (i + S d) xs 0 < nth (S (i + S d)) xs 0) by (apply H; lia).
    replace (i + S (S d))%nat with (S (i + S d)) by lia. lra.
Qed.

Lemma incr_lt2 : forall xs, increasing xs -> forall i j, (i < j)%nat -> (j < length xs)%nat ->
  nth i xs 0 < nth j xs 0.
Proof.
  intros xs H i j Hij Hj. replace j with (i + S (j - i - 1))%nat by lia.
  apply incr_lt; auto. lia.
Qed.

Lemma incr_le : forall xs, increasing xs -> forall i j, (i <= j)%nat -> (j < length xs)%nat ->
  nth i xs 0 <= nth j xs 0.
Proof.
  intros xs H i j Hij Hj. destruct (Nat.eq_dec i j) as [->|Hne]; [lra|].
  left. apply incr_lt2; auto. lia.
Qed.

Lemma incr_lmin : forall xs, increasing xs -> xs <> [] -> lmin xs = nth 0 xs 0.
Proof.
  intros xs H Hne. apply Rle_antisym.
  - apply lmin_le. apply nth_In. destruct xs; [congruence|simpl; lia].
  - destruct (In_nth _ _ 0 (lmin_in xs Hne)) as [i [Hi E]]. rewrite <- E.
    apply incr_le; auto. lia.
Qed.
Lemma incr_lmax : forall xs, increasing xs -> xs <> [] -> lmax xs = nth (length xs - 1) xs 0.
Proof.
  intros xs H Hne.
  assert (Hl : (0 < length xs)%nat) by (destruct xs; [congruence|simpl; lia]).
  apply Rle_antisym.
  - destruct (In_nth _ _ 0 (lmax_in xs Hne)) as [i [Hi E]]. rewrite <- E.
    apply incr_le; auto; lia.
  - apply lmax_ge. apply nth_In. lia.
Qed.

Lemma incr_cons : forall x xs, increasing xs -> (xs <> [] -> x < nth 0 xs 0) -> increasing (x :: xs).
Proof.
  intros x xs H H0 [|i] Hi; simpl in *.
  - apply H0. destruct xs; simpl in *; [lia|congruence].
  - apply H. lia.
Qed.

Lemma incr_app : forall x xs, increasing xs -> (xs <> [] -> nth (length xs - 1) xs 0 < x) -> increasing (xs ++ [x]).
Proof.
  intros x xs H H0 i Hi. rewrite app_length in Hi; simpl in Hi.
  destruct (Nat.eq_dec (S i) (length xs)) as [E|E].
  - rewrite (app_nth1 xs) by lia. rewrite app_nth2 by lia. rewrite E, Nat.sub_diag. simpl.
    replace i with (length xs - 1)%nat by lia. apply H0. intros ->; simpl in *; lia.
  - rewrite !app_nth1 by lia. apply H. lia.
Qed.

(* ---- unique matching cell ---- *)
Lemma leb_r_spec : forall x y, leb_r x y = true <-> x <= y.
Proof. intros; unfold leb_r; destruct (Rle_dec x y); split; auto; discriminate. Qed.
Lemma ltb_r_spec : forall x y, ltb_r x y = true <-> x < y.
Proof. intros; unfold ltb_r; destruct (Rlt_dec x y); split; auto; discriminate. Qed.

Lemma filter_none : forall (A : Type) (p : A -> bool) l, (forall x, In x l -> p x = false) -> filter p l = [].
Proof.
  induction l as [|a l IH]; intros H; simpl; auto.
  rewrite (H a) by (simpl; auto). apply IH. intros; apply H; simpl; auto.
Qed.

Lemma filter_seq_one : forall (p : nat -> bool) n s i,
  (s <= i < s + n)%nat -> p i = true -> (forall j, (s <= j < s + n)%nat -> j <> i -> p j = false) ->
  filter p (seq s n) = [i].
Proof.
  induction n as [|n IH]; intros s i Hi Hp Ho; [lia|]. simpl.
  destruct (Nat.eq_dec s i) as [->|Hne].
  - rewrite Hp. f_equal. apply filter_none. intros x Hx. apply in_seq in Hx. apply Ho; lia.
  - rewrite (Ho s) by lia. apply IH; auto; try lia. intros; apply Ho; lia.
Qed.

Lemma find_cell : forall n xs t, length xs = S n -> nth 0 xs 0 <= t < nth n xs 0 ->
  exists i, (i < n)%nat /\ nth i xs 0 <= t < nth (S i) xs 0.
Proof.
  induction n as [|n IH]; intros xs t Hl Ht; [lra|].
  destruct xs as [|x xs]; [discriminate|]. simpl in Hl. injection Hl as Hl.
  destruct (Rlt_dec t (nth 0 xs 0)) as [H|H].
  - exists 0%nat. simpl in *. split; [lia|lra].
  - destruct (IH xs t Hl) as [i [Hi Hx]].
    + simpl in Ht. lra.
    + exists (S i). split; [lia|]. simpl. auto.
Qed.

Lemma matches_one : forall xs t, increasing xs -> xs <> [] ->
  nth 0 xs 0 <= t < nth (length xs - 1) xs 0 ->
  exists i, matches xs t = [i] /\ (S i < length xs)%nat /\ nth i xs 0 <= t < nth (S i) xs 0.
Proof.
  intros xs t Hinc Hne Ht.
  assert (Hl : (0 < length xs)%nat) by (destruct xs; [congruence|simpl; lia]).
  destruct (find_cell (length xs - 1) xs t) as [i [Hi Hx]]; [lia|auto|].
  exists i. split; [|split; [lia|auto]].
  unfold matches, at_. apply filter_seq_one.
  - lia.
  - apply andb_true_iff; split; [apply leb_r_spec|apply ltb_r_spec]; lra.
  - intros j Hj Hji. apply andb_false_iff.
    destruct (Nat.lt_ge_cases j i) as [Hlt|Hge].
    + right. assert (nth (S j) xs 0 <= nth i xs 0) by (apply incr_le; auto; lia).
      destruct (ltb_r t (nth (S j) xs 0)) eqn:E; auto. apply ltb_r_spec in E. lra.
    + left. assert (nth (S i) xs 0 <= nth j xs 0) by (apply incr_le; auto; lia).
      destruct (leb_r (nth j xs 0) t) eqn:E; auto. apply leb_r_spec in E. lra.
Qed.

Definition cellof (xs : list R) (t : R) : nat := hd 0%nat (matches xs t).

Lemma cellof_ok : forall xs t, increasing xs -> xs <> [] ->
  nth 0 xs 0 <= t < nth (length xs - 1) xs 0 ->
  matches xs t = [cellof xs t] /\ (S (cellof xs t) < length xs)%nat /\
  nth (cellof xs t) xs 0 <= t < nth (S (cellof xs t)) xs 0.
Proof.
  intros xs t H1 H2 H3. destruct (matches_one xs t H1 H2 H3) as [i [E [Hi Hx]]].
  unfold cellof. rewrite E. simpl. auto.
Qed.

Lemma argwhere_map : forall xs ts, increasing xs -> xs <> [] ->
  (forall t, In t ts -> nth 0 xs 0 <= t < nth (length xs - 1) xs 0) ->
  argwhere_cols xs ts = map (cellof xs) ts.
Proof.
  intros xs ts H1 H2. induction ts as [|t ts IH]; intros H; simpl; auto.
  unfold argwhere_cols in *. simpl.
  destruct (cellof_ok xs t H1 H2) as [E _]; [apply H; simpl; auto|].
  rewrite E. simpl. f_equal. apply IH. intros; apply H; simpl; auto.
Qed.

Lemma combine_map_l : forall (A B : Type) (f : A -> B) l, combine (map f l) l = map (fun t => (f t, t)) l.
Proof. induction l; simpl; auto. f_equal; auto. Qed.

Lemma nth_map0 : forall (A : Type) (f : A -> R) l k d e, (k < length l)%nat -> nth k (map f l) e = f (nth k l d).
Proof.
  intros. rewrite (nth_indep _ e (f d)) by (rewrite map_length; auto). apply map_nth.
Qed.

(* ---- lines ---- *)
Lemma line_0 : forall x0 y0 x1 y1, x0 < x1 -> line x0 y0 x1 y1 x0 = y0.
Proof. intros; unfold line. field. lra. Qed.
Lemma line_1 : forall x0 y0 x1 y1, x0 < x1 -> line x0 y0 x1 y1 x1 = y1.
Proof. intros; unfold line. field. lra. Qed.
Lemma line_same : forall x0 y0 x1 y1 a b t, x0 < x1 -> a < b ->
  line a (line x0 y0 x1 y1 a) b (line x0 y0 x1 y1 b) t = line x0 y0 x1 y1 t.
Proof. intros; unfold line. field. lra. Qed.
Lemma line_const : forall x0 y x1 t, line x0 y x1 y t = y.
Proof. intros; unfold line. ring. Qed.

Lemma seg_ext : forall xs f g i t, f i = g i -> f (S i) = g (S i) -> seg xs f i t = seg xs g i t.
Proof. intros; unfold seg; congruence. Qed.

(* ---- prolongation of the table by points on the end lines ---- *)
Lemma interp_left : forall x' xs f f1 t v, increasing xs -> (2 <= length xs)%nat ->
  x' < nth 0 xs 0 -> f1 0%nat = seg xs f 0 x' -> (forall i, f1 (S i) = f i) ->
  interp_linear (x' :: xs) f1 t v -> interp_linear xs f t v.
Proof.
  intros x' xs f f1 t v Hinc Hn Hx F0 FS H.
  assert (H01 : nth 0 xs 0 < nth 1 xs 0) by (apply Hinc; lia).
  assert (S0 : seg (x' :: xs) f1 0 t = seg xs f 0 t).
  { unfold seg. simpl nth. rewrite F0, FS. unfold seg.
    rewrite <- (line_0 (nth 0 xs 0) (f 0%nat) (nth 1 xs 0) (f 1%nat) H01) at 2.
    apply line_same; auto. }
  assert (SS : forall i, seg (x' :: xs) f1 (S i) t = seg xs f i t).
  { intros i. unfold seg. rewrite !FS. reflexivity. }
  destruct H as [[i [Hi [Ht E]]]|[[Ht E]|[Ht E]]].
  - destruct i as [|i].
    + right; left. simpl nth in Ht. rewrite S0 in E. split; [lra|auto].
    + left. exists i. simpl length in Hi. simpl nth in Ht. rewrite SS in E. split; [lia|]. auto.
  - right; left. simpl in Ht. rewrite S0 in E. split; [lra|auto].
  - right; right. simpl length in *.
    replace (S (length xs) - 1)%nat with (S (length xs - 1)) in Ht by lia.
    replace (S (length xs) - 2)%nat with (S (length xs - 2)) in E by lia.
    rewrite SS in E. simpl in Ht. auto.
Qed.

Lemma interp_right : forall x' xs f f1 t v, increasing xs -> (2 <= length xs)%nat ->
  nth (length xs - 1) xs 0 < x' -> f1 (length xs) = seg xs f (length xs - 2) x' ->
  (forall i, (i < length xs)%nat -> f1 i = f i) ->
  interp_linear (xs ++ [x']) f1 t v -> interp_linear xs f t v.
Proof.
  intros x' xs f f1 t v Hinc Hn Hx FN FI H.
  set (n := length xs) in *.
  assert (H01 : nth (n - 2) xs 0 < nth (n - 1) xs 0) by (apply incr_lt2; auto; unfold n; lia).
  assert (SI : forall i, (S i < n)%nat -> seg (xs ++ [x']) f1 i t = seg xs f i t).
  { intros i Hi. unfold seg. rewrite !app_nth1 by (fold n; lia). rewrite !FI by lia. reflexivity. }
  assert (SN : seg (xs ++ [x']) f1 (n - 1) t = seg xs f (n - 2) t).
  { unfold seg. rewrite app_nth1 by (fold n; lia). rewrite app_nth2 by (fold n; lia).
    replace (S (n - 1) - length xs)%nat with 0%nat by (fold n; lia).
    replace (S (n - 1)) with n by lia. rewrite FN, FI by lia. unfold seg. simpl nth at 3.
    replace (S (n - 2)) with (n - 1)%nat by lia.
    rewrite <- (line_1 (nth (n-2) xs 0) (f (n-2)%nat) (nth (n-1) xs 0) (f (n-1)%nat) H01) at 1.
    apply line_same; auto. }
  assert (L : length (xs ++ [x']) = S n) by (rewrite app_length; simpl; fold n; lia).
  destruct H as [[i [Hi [Ht E]]]|[[Ht E]|[Ht E]]].
  - rewrite L in Hi. destruct (Nat.eq_dec (S i) n) as [Ei|Ei].
    + right; right. replace i with (n - 1)%nat in Ht, E by lia. rewrite SN in E.
      rewrite app_nth1 in Ht by (fold n; lia). fold n. split; [lra|auto].
    + left. exists i. rewrite SI in E by lia. rewrite !app_nth1 in Ht by (fold n; lia).
      fold n. split; [lia|auto].
  - right; left. rewrite SI in E by lia. rewrite app_nth1 in Ht by (fold n; lia). auto.
  - right; right. rewrite L in Ht, E. fold n.
    replace (S n - 2)%nat with (n - 1)%nat in E by lia. rewrite SN in E.
    rewrite app_nth2 in Ht by (fold n; lia).
    replace (S n - 1 - length xs)%nat with 0%nat in Ht by (fold n; lia). simpl in Ht.
    split; [lra|auto].
Qed.

Lemma const_left : forall x' xs f f1 t v, increasing xs -> (1 <= length xs)%nat ->
  x' < nth 0 xs 0 -> f1 0%nat = f 0%nat -> (forall i, f1 (S i) = f i) ->
  interp_const (x' :: xs) f1 t v -> interp_const xs f t v.
Proof.
  intros x' xs f f1 t v Hinc Hn Hx F0 FS H.
  assert (S0 : seg (x' :: xs) f1 0 t = f 0%nat).
  { unfold seg. rewrite F0, FS. apply line_const. }
  assert (SS : forall i, seg (x' :: xs) f1 (S i) t = seg xs f i t).
  { intros i. unfold seg. rewrite !FS. reflexivity. }
  destruct H as [[i [Hi [Ht E]]]|[[Ht E]|[Ht E]]].
  - destruct i as [|i].
    + right; left. simpl nth in Ht. rewrite S0 in E. split; [lra|auto].
    + left. exists i. simpl length in Hi. simpl nth in Ht. rewrite SS in E. split; [lia|]. auto.
  - right; left. simpl in Ht. rewrite F0 in E. split; [lra|auto].
  - right; right. simpl length in *.
    replace (S (length xs) - 1)%nat with (S (length xs - 1)) in Ht, E by lia.
    rewrite FS in E. simpl in Ht. auto.
Qed.

Lemma const_right : forall x' xs f f1 t v, increasing xs -> (1 <= length xs)%nat ->
  nth (length xs - 1) xs 0 < x' -> f1 (length xs) = f (length xs - 1)%nat ->
  (forall i, (i < length xs)%nat -> f1 i = f i) ->
  interp_const (xs ++ [x']) f1 t v -> interp_const xs f t v.
Proof.
  intros x' xs f f1 t v Hinc Hn Hx FN FI H.
  set (n := length xs) in *.
  assert (SI : forall i, (S i < n)%nat -> seg (xs ++ [x']) f1 i t = seg xs f i t).
  { intros i Hi. unfold seg. rewrite !app_nth1 by (fold n; lia). rewrite !FI by lia. reflexivity. }
  assert (SN : seg (xs ++ [x']) f1 (n - 1) t = f (n - 1)%nat).
  { unfold seg. replace (S (n - 1)) with n by lia. rewrite FN, FI by lia. apply line_const. }
  assert (L : length (xs ++ [x']) = S n) by (rewrite app_length; simpl; fold n; lia).
  destruct H as [[i [Hi [Ht E]]]|[[Ht E]|[Ht E]]].
  - rewrite L in Hi. destruct (Nat.eq_dec (S i) n) as [Ei|Ei].
    + right; right. replace i with (n - 1)%nat in Ht, E by lia. rewrite SN in E.
      rewrite app_nth1 in Ht by (fold n; lia). fold n. split; [lra|auto].
    + left. exists i. rewrite SI in E by lia. rewrite !app_nth1 in Ht by (fold n; lia).
      fold n. split; [lia|auto].
  - right; left. rewrite FI in E by lia. rewrite app_nth1 in Ht by (fold n; lia). auto.
  - right; right. rewrite L in Ht, E. fold n.
    replace (S n - 1)%nat with n in E by lia. rewrite FN in E.
    rewrite app_nth2 in Ht by (fold n; lia).
    replace (S n - 1 - length xs)%nat with 0%nat in Ht by (fold n; lia). simpl in Ht.
    split; [lra|auto].
Qed.

(* ---- one-dimensional background ---- *)
Definition bkg_ok (ts xs ys out : list R) : Prop :=
  length out = length ts /\
  forall k, (k < length ts)%nat ->
    interp_linear xs (fun i => nth i ys 0) (nth k ts 0) (nth k out 0).

Lemma bkg_point_seg : forall xs ys i t, bkg_point xs ys i t = seg xs (fun i => nth i ys 0) i t.
Proof.
  intros. unfold bkg_point, seg, line, at_. replace (i + 1)%nat with (S i) by lia.
  unfold Rdiv. ring.
Qed.

Lemma extend_left_ok : forall x_min xs ys, increasing xs -> (2 <= length xs)%nat -> length xs = length ys ->
  forall xs1 ys1, extend_left x_min xs ys = (xs1, ys1) ->
  increasing xs1 /\ (2 <= length xs1)%nat /\ length xs1 = length ys1 /\ nth 0 xs1 0 <= x_min /\
  forall t v, interp_linear xs1 (fun i => nth i ys1 0) t v -> interp_linear xs (fun i => nth i ys 0) t v.
Proof.
  intros x_min xs ys Hinc Hn Hl xs1 ys1. unfold extend_left.
  assert (Hne : xs <> []) by (intros ->; simpl in *; lia).
  rewrite (incr_lmin xs Hinc Hne).
  destruct (Rlt_dec x_min (nth 0 xs 0)) as [H|H]; intros E.
  - injection E as <- <-.
    split; [apply incr_cons; auto|]. split; [simpl; lia|]. split; [simpl; lia|]. split; [simpl; lra|].
    intros t v. apply interp_left; auto.
    simpl nth at 1. unfold at_, seg, line. unfold Rdiv. ring.
  - injection E as <- <-. split; [auto|]. split; [auto|]. split; [auto|]. split; [lra|auto].
Qed.

Lemma extend_right_ok : forall x_max xs ys, increasing xs -> (2 <= length xs)%nat -> length xs = length ys ->
  forall xs1 ys1, extend_right x_max xs ys = (xs1, ys1) ->
  increasing xs1 /\ (2 <= length xs1)%nat /\ length xs1 = length ys1 /\
  nth 0 xs1 0 = nth 0 xs 0 /\ x_max < nth (length xs1 - 1) xs1 0 /\
  forall t v, interp_linear xs1 (fun i => nth i ys1 0) t v -> interp_linear xs (fun i => nth i ys 0) t v.
Proof.
  intros x_max xs ys Hinc Hn Hl xs1 ys1. unfold extend_right.
  assert (Hne : xs <> []) by (intros ->; simpl in *; lia).
  rewrite (incr_lmax xs Hinc Hne).
  destruct (Rle_dec (nth (length xs - 1) xs 0) x_max) as [H|H]; intros E.
  - injection E as <- <-.
    split; [apply incr_app; auto; intros; lra|]. rewrite !app_length. simpl length.
    split; [lia|]. split; [lia|]. split; [rewrite app_nth1 by lia; auto|].
    split. { rewrite app_nth2 by lia. replace (length xs + 1 - 1 - length xs)%nat with 0%nat by lia. simpl; lra. }
    intros t v. apply interp_right; auto; try lra.
    + rewrite Hl at 1. rewrite app_nth2 by lia. rewrite Nat.sub_diag. simpl nth at 1.
      unfold at_, seg, line. replace (S (length xs - 2)) with (length xs - 1)%nat by lia.
      unfold Rdiv. ring.
    + intros i Hi. rewrite app_nth1 by lia. auto.
  - injection E as <- <-. split; [auto|]. split; [auto|]. split; [auto|]. split; [auto|]. split; [lra|auto].
Qed.

Lemma calc_background_ok : forall ts xs ys,
  ts <> [] -> increasing xs -> (2 <= length xs)%nat -> length xs = length ys ->
  exists out, calc_background ts xs ys = Some out /\ bkg_ok ts xs ys out.
Proof.
  intros ts xs ys Hts Hinc Hn Hl.
  assert (EQ : calc_background ts xs ys =
      let '(xs1, ys1) := extend_left (lmin ts) xs ys in
      let '(xs2, ys2) := extend_right (lmax ts) xs1 ys1 in
      let p0 := argwhere_cols xs2 ts in
      if (length p0 =? length ts)%nat then
        Some (map (fun q => bkg_point xs2 ys2 (fst q) (snd q)) (combine p0 ts))
      else None).
  { destruct ts; [congruence|]. destruct xs as [|x [|x' xs]]; simpl in Hn; try lia. reflexivity. }
  rewrite EQ; clear EQ.
  destruct (extend_left (lmin ts) xs ys) as [xs1 ys1] eqn:E1.
  destruct (extend_left_ok _ _ _ Hinc Hn Hl _ _ E1) as [I1 [N1 [L1 [B1 T1]]]].
  destruct (extend_right (lmax ts) xs1 ys1) as [xs2 ys2] eqn:E2.
  destruct (extend_right_ok _ _ _ I1 N1 L1 _ _ E2) as [I2 [N2 [L2 [B2 [C2 T2]]]]].
  cbv zeta.
  assert (Hne : xs2 <> []) by (intros ->; simpl in *; lia).
  assert (IN : forall t, In t ts -> nth 0 xs2 0 <= t < nth (length xs2 - 1) xs2 0).
  { intros t Ht. pose proof (lmin_le _ _ Ht). pose proof (lmax_ge _ _ Ht). rewrite B2. lra. }
  rewrite (argwhere_map xs2 ts I2 Hne IN). rewrite map_length, Nat.eqb_refl.
  rewrite combine_map_l, map_map. cbv [fst snd].
  eexists; split; [reflexivity|]. split; [rewrite map_length; auto|].
  intros k Hk.
  rewrite (nth_map0 R (fun x => bkg_point xs2 ys2 (cellof xs2 x) x) ts k 0 0) by auto.
  apply T1, T2. left.
  destruct (cellof_ok xs2 (nth k ts 0) I2 Hne (IN _ (nth_In _ _ Hk))) as [_ [Hc Hx]].
  exists (cellof xs2 (nth k ts 0)). split; [auto|]. split; [lra|]. apply bkg_point_seg.
Qed.

(* The specification determines the value. *)
Lemma seg_at_l : forall xs f i, increasing xs -> (S i < length xs)%nat -> seg xs f i (nth i xs 0) = f i.
Proof. intros; apply line_0; auto. Qed.
Lemma seg_at_r : forall xs f i, increasing xs -> (S i < length xs)%nat -> seg xs f i (nth (S i) xs 0) = f (S i).
Proof. intros; apply line_1; auto. Qed.

Lemma cells_agree : forall xs f t i j, increasing xs -> (S i < length xs)%nat -> (S j < length xs)%nat ->
  nth i xs 0 <= t <= nth (S i) xs 0 -> nth j xs 0 <= t <= nth (S j) xs 0 ->
  seg xs f i t = seg xs f j t.
Proof.
  assert (W : forall xs f t i j, increasing xs -> (S i < length xs)%nat -> (S j < length xs)%nat ->
    (i < j)%nat -> nth i xs 0 <= t <= nth (S i) xs 0 -> nth j xs 0 <= t <= nth (S j) xs 0 ->
    seg xs f i t = seg xs f j t).
  { intros xs f t i j Hinc Hi Hj Hij H1 H2.
    destruct (Nat.eq_dec (S i) j) as [E|E].
    - subst j. assert (t = nth (S i) xs 0) by lra. subst t.
      rewrite seg_at_r, seg_at_l; auto.
    - assert (nth (S i) xs 0 < nth j xs 0) by (apply incr_lt2; auto; lia). lra. }
  intros xs f t i j Hinc Hi Hj H1 H2.
  destruct (Nat.lt_trichotomy i j) as [H|[->|H]]; auto. symmetry; auto.
Qed.

Lemma interp_linear_unique : forall xs f t v w, increasing xs -> (2 <= length xs)%nat ->
  interp_linear xs f t v -> interp_linear xs f t w -> v = w.
Proof.
  intros xs f t v w Hinc Hn.
  assert (C : forall v, interp_linear xs f t v ->
     (exists i, (S i < length xs)%nat /\ nth i xs 0 <= t <= nth (S i) xs 0 /\ v = seg xs f i t)
     \/ (t < nth 0 xs 0 /\ v = seg xs f 0 t)
     \/ (nth (length xs - 1) xs 0 < t /\ v = seg xs f (length xs - 2) t)).
  { intros u [H|[[Ht E]|[Ht E]]]; [auto| |].
    - destruct (Rlt_dec t (nth 0 xs 0)); [auto|]. left. exists 0%nat.
      assert (nth 0 xs 0 < nth 1 xs 0) by (apply Hinc; lia). split; [lia|]. split; [lra|auto].
    - destruct (Rlt_dec (nth (length xs - 1) xs 0) t); [auto|]. left. exists (length xs - 2)%nat.
      assert (nth (length xs - 2) xs 0 < nth (length xs - 1) xs 0) by (apply incr_lt2; auto; lia).
      replace (S (length xs - 2)) with (length xs - 1)%nat by lia. split; [lia|]. split; [lra|auto]. }
  intros Hv Hw. apply C in Hv. apply C in Hw.
  assert (B : forall i, (S i < length xs)%nat -> nth 0 xs 0 <= nth i xs 0 /\ nth (S i) xs 0 <= nth (length xs - 1) xs 0).
  { intros i Hi; split; apply incr_le; auto; lia. }
  assert (B0 : nth 0 xs 0 < nth (length xs - 1) xs 0) by (apply incr_lt2; auto; lia).
  destruct Hv as [[i [Hi [Ht E]]]|[[Ht E]|[Ht E]]]; destruct Hw as [[j [Hj [Hs F]]]|[[Hs F]|[Hs F]]];
    subst; auto; try lra.
  - apply cells_agree; auto.
  - specialize (B i Hi). lra.
  - specialize (B i Hi). lra.
  - specialize (B j Hj). lra.
  - specialize (B j Hj). lra.
Qed.

Lemma interp_linear_node : forall xs f i, increasing xs -> (2 <= length xs)%nat -> (i < length xs)%nat ->
  interp_linear xs f (nth i xs 0) (f i).
Proof.
  intros xs f i Hinc Hn Hi. left. destruct (Nat.eq_dec (S i) (length xs)) as [E|E].
  - exists (i - 1)%nat. replace (S (i - 1)) with i by lia. split; [lia|].
    assert (nth (i - 1) xs 0 < nth i xs 0) by (apply incr_lt2; auto; lia).
    split; [lra|]. pose proof (seg_at_r xs f (i - 1) Hinc) as S.
    replace (Datatypes.S (i - 1)) with i in S by lia. symmetry; apply S; lia.
  - exists i. split; [lia|]. assert (nth i xs 0 < nth (S i) xs 0) by (apply Hinc; lia).
    split; [lra|]. symmetry; apply seg_at_l; auto; lia.
Qed.

Lemma calc_background_nodes : forall xs ys,
  increasing xs -> (2 <= length xs)%nat -> length xs = length ys ->
  calc_background xs xs ys = Some ys.
Proof.
  intros xs ys Hinc Hn Hl.
  assert (Hne : xs <> []) by (intros ->; simpl in *; lia).
  destruct (calc_background_ok xs xs ys Hne Hinc Hn Hl) as [out [E [L H]]]. rewrite E. f_equal.
  apply (nth_ext _ _ 0 0); [lia|]. intros k Hk. rewrite L in Hk.
  apply (interp_linear_unique xs (fun i => nth i ys 0) (nth k xs 0)); auto.
  apply (interp_linear_node xs (fun i => nth i ys 0)); auto.
Qed.

(* interpolation is linear in the tabulated intensities *)
Lemma interp_linear_lin : forall xs f g a b t v w,
  increasing xs -> (2 <= length xs)%nat ->
  interp_linear xs f t v -> interp_linear xs g t w ->
  interp_linear xs (fun i => a * f i + b * g i) t (a * v + b * w).
Proof.
  intros xs f g a b t v w Hinc Hn Hv Hw.
  assert (S : forall i, seg xs (fun i => a * f i + b * g i) i t = a * seg xs f i t + b * seg xs g i t).
  { intros i; unfold seg, line, Rdiv. ring. }
  destruct Hv as [[i [Hi [Ht E]]]|[[Ht E]|[Ht E]]].
  - assert (w = seg xs g i t) by (apply (interp_linear_unique xs g t); auto; left; exists i; auto).
    left. exists i. rewrite S. subst; auto.
  - assert (w = seg xs g 0 t) by (apply (interp_linear_unique xs g t); auto; right; left; auto).
    right; left. rewrite S. subst; auto.
  - assert (w = seg xs g (length xs - 2) t) by (apply (interp_linear_unique xs g t); auto; right; right; auto).
    right; right. rewrite S. subst; auto.
Qed.

Lemma calc_background_linear : forall ts xs ys1 ys2 a b,
  ts <> [] -> increasing xs -> (2 <= length xs)%nat ->
  length xs = length ys1 -> length xs = length ys2 ->
  exists o1 o2,
    calc_background ts xs ys1 = Some o1 /\ calc_background ts xs ys2 = Some o2 /\
    calc_background ts xs (map (fun p => a * fst p + b * snd p) (combine ys1 ys2)) =
      Some (map (fun p => a * fst p + b * snd p) (combine o1 o2)).
Proof.
  intros ts xs ys1 ys2 a b Hts Hinc Hn H1 H2.
  destruct (calc_background_ok ts xs ys1) as [o1 [E1 [L1 B1]]]; auto.
  destruct (calc_background_ok ts xs ys2) as [o2 [E2 [L2 B2]]]; auto.
  exists o1, o2. split; [auto|]. split; [auto|].
  set (ys := map (fun p => a * fst p + b * snd p) (combine ys1 ys2)).
  assert (Ly : length xs = length ys) by (unfold ys; rewrite map_length, combine_length; lia).
  destruct (calc_background_ok ts xs ys) as [o [E [L B]]]; auto. rewrite E. f_equal.
  assert (Lo : length (map (fun p => a * fst p + b * snd p) (combine o1 o2)) = length ts)
    by (rewrite map_length, combine_length; lia).
  assert (N : forall u1 u2 k, length u1 = length u2 -> (k < length u1)%nat ->
    nth k (map (fun p => a * fst p + b * snd p) (combine u1 u2)) 0 = a * nth k u1 0 + b * nth k u2 0).
  { intros u1 u2 k Hu Hk.
    rewrite (nth_indep _ 0 ((fun p => a * fst p + b * snd p) (0, 0))) by (rewrite map_length, combine_length; lia).
    rewrite (map_nth (fun p => a * fst p + b * snd p)). rewrite combine_nth by auto. reflexivity. }
  apply (nth_ext _ _ 0 0); [lia|]. intros k Hk. rewrite L in Hk.
  rewrite N by lia.
  apply (interp_linear_unique xs (fun i => nth i ys 0) (nth k ts 0)); auto.
  assert (X : interp_linear xs (fun i => a * nth i ys1 0 + b * nth i ys2 0) (nth k ts 0) (a * nth k o1 0 + b * nth k o2 0)).
  { apply (interp_linear_lin xs (fun i => nth i ys1 0) (fun i => nth i ys2 0)); auto. }
  destruct X as [[i [Hi [Ht V]]]|[[Ht V]|[Ht V]]].
  - left. exists i. split; [auto|]. split; [auto|]. rewrite V. apply seg_ext; unfold ys; rewrite N by lia; auto.
  - right; left. split; [auto|]. rewrite V. apply seg_ext; unfold ys; rewrite N by lia; auto.
  - right; right. split; [auto|]. rewrite V. apply seg_ext; unfold ys; rewrite N by lia; auto.
Qed.
