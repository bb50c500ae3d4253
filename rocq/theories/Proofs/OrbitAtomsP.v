(** calc_atoms_in_unit_cell, and examples for calc_hkl_equiv and Cell.calc_hkl. *)
From Coq Require Import Reals ZArith List Bool Arith Lra Lia String Permutation Sorting.Sorted.
From Verif Require Import Spec.Lin3 Spec.Cell Spec.Symm Spec.SgSpec Spec.Orbit Model.Vibration Model.Constraints Model.SiteSymm Model.Orbits Proofs.SiteSymmP.
Import ListNotations.
Open Scope list_scope.
Open Scope R_scope.

Definition vlt (a b : V3 R) : Prop := v_1 a < v_1 b \/ (v_1 a = v_1 b /\ (v_2 a < v_2 b \/ (v_2 a = v_2 b /\ v_3 a < v_3 b))).
Lemma v_ltb_iff : forall a b, v_ltb a b = true <-> vlt a b.
Proof.
  intros a b. unfold v_ltb, vlt. destruct (Rlt_dec (v_1 a) (v_1 b)) as [H1|H1]; [split; auto|]. destruct (Rlt_dec (v_1 b) (v_1 a)) as [H2|H2]; [split; [discriminate|lra]|].
  destruct (Rlt_dec (v_2 a) (v_2 b)) as [H3|H3]; [split; [intros _; right; split; lra|auto]|]. destruct (Rlt_dec (v_2 b) (v_2 a)) as [H4|H4]; [split; [discriminate|lra]|].
  destruct (Rlt_dec (v_3 a) (v_3 b)) as [H5|H5]; split; intros H; auto; try discriminate; [right; split; [lra|]; right; split; lra|lra].
Qed.
Definition plt (a b : V3 R * nat) : Prop := vlt (fst a) (fst b) \/ (fst a = fst b /\ (snd a < snd b)%nat).
Lemma p_eqb_iff : forall a b, p_eqb a b = true <-> a = b.
Proof.
  intros [a n] [b m]. unfold p_eqb. cbn [fst snd]. rewrite andb_true_iff, v_eqb_iff, Nat.eqb_eq. split; [intros [-> ->]; reflexivity|intros E; injection E; auto].
Qed.
Lemma p_ltb_iff : forall a b, p_ltb a b = true <-> plt a b.
Proof.
  intros a b. unfold p_ltb, plt. destruct (v_ltb (fst a) (fst b)) eqn:E.
  - apply v_ltb_iff in E. split; auto.
  - rewrite andb_true_iff, v_eqb_iff, Nat.ltb_lt. split; [tauto|]. intros [H|H]; [|exact H]. apply v_ltb_iff in H. congruence.
Qed.
Lemma vlt_trans : forall a b c, vlt a b -> vlt b c -> vlt a c.
Proof. unfold vlt. intros a b c. lra. Qed.
Lemma plt_trans : forall a b c, plt a b -> plt b c -> plt a c.
Proof.
  intros [a n] [b m] [c k]. unfold plt. cbn [fst snd]. intros [H|[-> H]] [K|[E K]]; subst; auto; [left; eapply vlt_trans; eassumption|]. right. split; [reflexivity|lia].
Qed.
Lemma plt_irrefl : forall a, ~ plt a a.
Proof. intros [a n]. unfold plt, vlt. cbn [fst snd]. intros [H|[_ H]]; [lra|lia]. Qed.
Lemma plt_total : forall a b, p_eqb a b = false -> p_ltb a b = false -> plt b a.
Proof.
  intros [[a1 a2 a3] n] [[b1 b2 b3] m] E L. assert (NE : (mkV a1 a2 a3, n) <> (mkV b1 b2 b3, m)) by (intros K; apply p_eqb_iff in K; congruence).
  assert (NL : ~ plt (mkV a1 a2 a3, n) (mkV b1 b2 b3, m)) by (intros K; apply p_ltb_iff in K; congruence).
  unfold plt, vlt in *. cbn [fst snd v_1 v_2 v_3] in *.
  destruct (Rtotal_order a1 b1) as [H|[->|H]]; [exfalso; apply NL; auto| |left; left; lra].
  destruct (Rtotal_order a2 b2) as [H|[->|H]]; [exfalso; apply NL; left; right; auto| |left; right; auto].
  destruct (Rtotal_order a3 b3) as [H|[->|H]]; [exfalso; apply NL; left; right; auto| |left; right; auto].
  right. split; [reflexivity|]. destruct (lt_eq_lt_dec n m) as [[H|H]|H]; [exfalso; apply NL; auto|exfalso; apply NE; congruence|exact H].
Qed.
Lemma insert_p_in : forall a l c, In c (insert_p a l) <-> c = a \/ In c l.
Proof.
  intros a l c. induction l as [|b l IH]; cbn [insert_p].
  - cbn. intuition.
  - destruct (p_eqb a b) eqn:E.
    + apply p_eqb_iff in E. subst b. cbn. intuition.
    + destruct (p_ltb a b); cbn [In]; [intuition|]. rewrite IH. intuition.
Qed.
Lemma insert_p_sorted : forall a l, StronglySorted plt l -> StronglySorted plt (insert_p a l).
Proof.
  intros a l S. induction S as [|b l S IH F]; cbn [insert_p]; [repeat constructor|]. destruct (p_eqb a b) eqn:E; [constructor; assumption|].
  destruct (p_ltb a b) eqn:L.
  - apply p_ltb_iff in L. constructor; [constructor; assumption|]. constructor; [exact L|]. eapply Forall_impl; [|exact F]. intros c. apply plt_trans. exact L.
  - constructor; [exact IH|]. apply Forall_forall. intros c Hc. apply insert_p_in in Hc as [->|Hc]; [now apply plt_total|]. rewrite Forall_forall in F. now apply F.
Qed.
Lemma punique_in : forall l c, In c (fold_right insert_p [] l) <-> In c l.
Proof. intros l c. induction l as [|a l IH]; cbn [fold_right]; [tauto|]. rewrite insert_p_in, IH. cbn. intuition. Qed.
Lemma punique_nodup : forall l, NoDup (fold_right insert_p [] l).
Proof.
  intros l. assert (S : StronglySorted plt (fold_right insert_p [] l)) by (induction l; cbn [fold_right]; [constructor|now apply insert_p_sorted]).
  induction S as [|b l' S IH F]; constructor; [|exact IH]. intros H. rewrite Forall_forall in F. exact (plt_irrefl b (F b H)).
Qed.
Lemma insert_n_perm : forall a l, Permutation (insert_n a l) (a :: l).
Proof.
  intros a l. induction l as [|b l IH]; cbn [insert_n]; [apply Permutation_refl|]. destruct (Nat.leb (snd a) (snd b)); [apply Permutation_refl|].
  eapply Permutation_trans; [apply perm_skip, IH|apply perm_swap].
Qed.
Lemma nsort_perm : forall l, Permutation (fold_right insert_n [] l) l.
Proof. induction l as [|a l IH]; cbn [fold_right]; [constructor|]. eapply Permutation_trans; [apply insert_n_perm|now constructor]. Qed.
Lemma nsort_sorted : forall l, StronglySorted (fun a b : V3 R * nat => (snd a <= snd b)%nat) (fold_right insert_n [] l).
Proof.
  induction l as [|a l IH]; cbn [fold_right]; [constructor|]. revert IH. generalize (fold_right insert_n [] l) as s. clear l. intros s S.
  induction S as [|b l S IH F]; cbn [insert_n]; [repeat constructor|]. destruct (Nat.leb_spec (snd a) (snd b)) as [L|L].
  - constructor; [constructor; assumption|]. constructor; [exact L|]. eapply Forall_impl; [|exact F]. intros c. cbn beta. lia.
  - constructor; [exact IH|]. apply Forall_forall. intros c Hc. apply (Permutation_in _ (insert_n_perm a l)) in Hc as [<-|Hc]; [lia|]. rewrite Forall_forall in F. now apply F.
Qed.

Section Atoms.
Variables (ops : list Op) (atoms : list (V3 R * string)).
Let numbered := combine (seq 0 (List.length atoms)) atoms.
Let raw := flat_map (fun e => map (fun a => (round_image (fst (snd a)) e, fst a)) numbered) ops.
Let cells := fold_right insert_n [] (fold_right insert_p [] raw).
Lemma numbered_in : forall n a, In (n, a) numbered <-> nth_error atoms n = Some a.
Proof.
  unfold numbered. intros n a. assert (H : forall l k, In (n, a) (combine (seq k (List.length l)) l) <-> (k <= n)%nat /\ nth_error l (n - k) = Some a).
  { induction l as [|b l IH]; intros k; cbn [List.length seq combine].
    - split; [intros []|]. intros [_ E]. destruct (n - k)%nat; discriminate.
    - cbn [In]. rewrite IH. split.
      + intros [E|[L E]]; [injection E as -> ->; rewrite Nat.sub_diag; split; [lia|reflexivity]|]. split; [lia|]. replace (n - k)%nat with (S (n - S k)) by lia. exact E.
      + intros [L E]. destruct (n - k)%nat as [|j] eqn:J.
        * left. cbn in E. injection E as ->. f_equal. lia.
        * right. split; [lia|]. cbn in E. replace (n - S k)%nat with j by lia. exact E. }
  rewrite H. rewrite Nat.sub_0_r. intuition lia.
Qed.
Lemma raw_in : forall p n, In (p, n) raw <-> exists e x lab, In e ops /\ nth_error atoms n = Some (x, lab) /\ p = round_image x e.
Proof.
  intros p n. unfold raw. rewrite in_flat_map. split.
  - intros (e & He & H). apply in_map_iff in H as ([k [x lab]] & E & H). cbn [fst snd] in E. injection E as <- <-. apply numbered_in in H. exists e, x, lab. auto.
  - intros (e & x & lab & He & H & ->). exists e. split; [exact He|]. apply in_map_iff. exists (n, (x, lab)). split; [reflexivity|]. now apply numbered_in.
Qed.
Lemma cells_in : forall q, In q cells <-> In q raw.
Proof. intros q. rewrite <- (punique_in raw). split; apply Permutation_in; [|apply Permutation_sym]; apply nsort_perm. Qed.
Lemma cells_nodup : NoDup cells.
Proof. eapply Permutation_NoDup; [apply Permutation_sym, nsort_perm|apply punique_nodup]. Qed.
Lemma out_eq : calc_atoms_in_unit_cell ops atoms = map (fun p => (fst p, nth (snd p) (map snd atoms) EmptyString)) cells.
Proof. reflexivity. Qed.
Lemma label_nth : forall n x lab, nth_error atoms n = Some (x, lab) -> nth n (map snd atoms) EmptyString = lab.
Proof. intros n x lab H. apply nth_error_nth. rewrite nth_error_map, H. reflexivity. Qed.
Lemma out_in : forall p lab, In (p, lab) (calc_atoms_in_unit_cell ops atoms) <-> exists e x, In e ops /\ In (x, lab) atoms /\ p = round_image x e.
Proof.
  intros p lab. rewrite out_eq, in_map_iff. split.
  - intros ([q n] & E & H). cbn [fst snd] in E. apply cells_in, raw_in in H as (e & x & l & He & Ha & ->). rewrite (label_nth n x l Ha) in E. injection E as <- <-.
    exists e, x. split; [exact He|]. split; [|reflexivity]. eapply nth_error_In; exact Ha.
  - intros (e & x & He & Ha & ->). apply In_nth_error in Ha as [n Ha]. exists (round_image x e, n). cbn [fst snd]. rewrite (label_nth n x lab Ha). split; [reflexivity|].
    apply cells_in, raw_in. exists e, x, lab. auto.
Qed.
(** The listed coordinates. *)
Lemma round_close : forall x e, close_points (5 / 1000000) (vget (round_image x e)) (act e (vget x)) /\ forall i, 0 <= vget (round_image x e) i <= 1.
Proof.
  intros x e. split.
  - intros i. rewrite round_image_get. exists (- Int_part (act e (vget x) i))%Z. rewrite opp_IZR. 
    replace (np_round 5 (mod1 (act e (vget x) i)) - act e (vget x) i - - IZR (Int_part (act e (vget x) i))) with (np_round 5 (mod1 (act e (vget x) i)) - mod1 (act e (vget x) i)) by (unfold mod1; ring).
    apply np_round5_error.
  - intros i. rewrite round_image_get. pose proof (mod1_bounds (act e (vget x) i)) as B. revert B. generalize (mod1 (act e (vget x) i)) as t. intros t B.
    unfold np_round. pose proof (rint_error (t * 10 ^ 5)) as E. apply Rabs_le_between in E. assert (L : (-1 < rint (t * 10 ^ 5))%Z) by (apply lt_IZR; lra).
    assert (U : (rint (t * 10 ^ 5) < 100001)%Z) by (apply lt_IZR; lra). assert (L' : (0 <= rint (t * 10 ^ 5))%Z) by lia. assert (U' : (rint (t * 10 ^ 5) <= 100000)%Z) by lia.
    apply IZR_le in L', U'. split; [apply Rmult_le_pos; lra|]. apply Rmult_le_reg_r with (10 ^ 5); [lra|]. unfold Rdiv. rewrite Rmult_assoc, Rinv_l by lra. lra.
Qed.
Theorem atoms_sound : forall p lab, In (p, lab) (calc_atoms_in_unit_cell ops atoms) ->
  exists e x, In e ops /\ In (x, lab) atoms /\ close_points (5 / 1000000) (vget p) (act e (vget x)) /\ forall i, 0 <= vget p i <= 1.
Proof. intros p lab H. apply out_in in H as (e & x & He & Ha & ->). exists e, x. split; [exact He|]. split; [exact Ha|]. apply round_close. Qed.
Theorem atoms_complete : forall e x lab, In e ops -> In (x, lab) atoms ->
  exists p, In (p, lab) (calc_atoms_in_unit_cell ops atoms) /\ close_points (5 / 1000000) (vget p) (act e (vget x)).
Proof. intros e x lab He Ha. exists (round_image x e). split; [apply out_in; exists e, x; auto|apply round_close]. Qed.

(** Separated images. *)
Hypothesis ND : NoDup (map snd atoms).
Lemma number_unique : forall n m x y lab, nth_error atoms n = Some (x, lab) -> nth_error atoms m = Some (y, lab) -> n = m.
Proof.
  intros n m x y lab Hn Hm. assert (Ln : (n < List.length (map snd atoms))%nat) by (rewrite map_length; apply nth_error_Some; congruence).
  apply (proj1 (NoDup_nth_error (map snd atoms)) ND n m Ln). rewrite !nth_error_map, Hn, Hm. reflexivity.
Qed.
Theorem atoms_order : forall i j p q a b x y, (i < j)%nat -> nth_error (calc_atoms_in_unit_cell ops atoms) i = Some p -> nth_error (calc_atoms_in_unit_cell ops atoms) j = Some q ->
  nth_error atoms a = Some (x, snd p) -> nth_error atoms b = Some (y, snd q) -> (a <= b)%nat.
Proof.
  intros i j p q a b x y L Hi Hj Ha Hb. rewrite out_eq, nth_error_map in Hi, Hj.
  destruct (nth_error cells i) as [[p' n]|] eqn:Ei; [|discriminate]. destruct (nth_error cells j) as [[q' m]|] eqn:Ej; [|discriminate].
  cbn in Hi, Hj. injection Hi as <-. injection Hj as <-. cbn [snd] in *.
  pose proof (nth_error_In _ _ Ei) as I1. pose proof (nth_error_In _ _ Ej) as I2. apply cells_in, raw_in in I1 as (e & z & l & _ & Hn & _). apply cells_in, raw_in in I2 as (f & w & k & _ & Hm & _).
  rewrite (label_nth n z l Hn) in Ha. rewrite (label_nth m w k Hm) in Hb. rewrite <- (number_unique n a _ _ _ Hn Ha), <- (number_unique m b _ _ _ Hm Hb).
  pose proof (nsort_sorted (fold_right insert_p [] raw)) as S. fold cells in S. clear - S L Ei Ej. revert i j L Ei Ej. induction S as [|c l S IH F]; intros i j L Ei Ej; [destruct i; discriminate|].
  destruct j as [|j]; [lia|]. destruct i as [|i].
  - cbn in Ei, Ej. injection Ei as ->. apply nth_error_In in Ej. rewrite Forall_forall in F. exact (F _ Ej).
  - apply (IH i j); [lia|exact Ei|exact Ej].
Qed.
Lemma filter_map_snd : forall n x lab, nth_error atoms n = Some (x, lab) ->
  map fst (filter (fun q => String.eqb (snd q) lab) (calc_atoms_in_unit_cell ops atoms)) = map fst (filter (fun q => Nat.eqb (snd q) n) cells).
Proof.
  intros n x lab Hn. rewrite out_eq. assert (H : forall q, In q cells -> exists y l, nth_error atoms (snd q) = Some (y, l)).
  { intros [p m] Hq. apply cells_in, raw_in in Hq as (e & y & l & _ & Hm & _). exists y, l. exact Hm. }
  revert H. generalize cells as c. induction c as [|[p m] c IH]; intros H; [reflexivity|]. cbn [map filter fst snd].
  specialize (IH (fun q Hq => H q (or_intror Hq))). destruct (H (p, m) (or_introl eq_refl)) as (y & l & Hm). cbn [snd] in Hm. rewrite (label_nth m y l Hm).
  destruct (String.eqb_spec l lab) as [->|NE].
  - rewrite (number_unique m n y x lab Hm Hn), Nat.eqb_refl. cbn [map fst]. f_equal. exact IH.
  - destruct (Nat.eqb_spec m n) as [->|]; [|exact IH]. exfalso. apply NE. rewrite Hn in Hm. now injection Hm.
Qed.
Lemma same_round : forall x e f, same_point (act e (vget x)) (act f (vget x)) -> round_image x e = round_image x f.
Proof. intros x e f H. apply v3_ext. intros i. rewrite !round_image_get. f_equal. apply mod1_eq_iff, H. Qed.
Lemma apart_round : forall x e f i, (forall n : Z, 1 / 100000 < Rabs (act e (vget x) i - act f (vget x) i - IZR n)) -> round_image x e <> round_image x f.
Proof.
  intros x e f i H E. apply (f_equal (fun v => vget v i)) in E. rewrite !round_image_get in E. set (a := act e (vget x) i) in *. set (b := act f (vget x) i) in *.
  specialize (H (Int_part a - Int_part b)%Z). rewrite minus_IZR in H. pose proof (np_round5_error (mod1 a)) as A. pose proof (np_round5_error (mod1 b)) as B. rewrite E in A.
  replace (a - b - (IZR (Int_part a) - IZR (Int_part b))) with (mod1 a - mod1 b) in H by (unfold mod1; ring).
  apply Rabs_le_between in A, B. assert (Rabs (mod1 a - mod1 b) <= 1 / 100000) by (apply Rabs_le_between; lra). lra.
Qed.
Theorem atoms_count : forall x lab, In (x, lab) atoms -> clear_images ops x ->
  exists l, orbit_of ops (vget x) l /\ ForallOrdPairs (fun p q => ~ same_point p q) l /\
    List.length l = List.length (filter (fun q => String.eqb (snd q) lab) (calc_atoms_in_unit_cell ops atoms)).
Proof.
  intros x lab Ha C. apply In_nth_error in Ha as [n Hn]. rewrite <- (map_length fst), (filter_map_snd n x lab Hn).
  set (P := map fst (filter (fun q => Nat.eqb (snd q) n) cells)).
  assert (NP : NoDup P).
  { unfold P. pose proof (NoDup_filter (fun q : V3 R * nat => Nat.eqb (snd q) n) cells_nodup) as N.
    assert (S : forall q, In q (filter (fun q : V3 R * nat => Nat.eqb (snd q) n) cells) -> snd q = n) by (intros q Hq; apply filter_In in Hq as [_ Hq]; now apply Nat.eqb_eq).
    revert N S. generalize (filter (fun q : V3 R * nat => Nat.eqb (snd q) n) cells) as l. intros l N S. induction N as [|[p m] l Hp N IH]; [constructor|]. cbn [map fst]. constructor.
    - intros K. apply in_map_iff in K as ([q k] & E & K). cbn [fst] in E. subst q. pose proof (S _ (or_introl eq_refl)) as E1. pose proof (S _ (or_intror K)) as E2. cbn [snd] in *. subst m k. contradiction.
    - apply IH. intros q Hq. apply S. now right. }
  assert (IP : forall p, In p P <-> exists e, In e ops /\ p = round_image x e).
  { intros p. unfold P. rewrite in_map_iff. split.
    - intros ([q m] & E & H). cbn [fst] in E. subst q. apply filter_In in H as [H E]. apply Nat.eqb_eq in E. cbn [snd] in E. subst m.
      apply cells_in, raw_in in H as (e & y & l & He & Hm & ->). rewrite Hn in Hm. injection Hm as <- <-. exists e. auto.
    - intros (e & He & ->). exists (round_image x e, n). split; [reflexivity|]. apply filter_In. split; [|apply Nat.eqb_refl]. apply cells_in, raw_in. exists e, x, lab. auto. }
  assert (Ch : forall P', NoDup P' -> (forall p, In p P' -> exists e, In e ops /\ p = round_image x e) ->
    exists l, (forall q, In q l -> exists e, In e ops /\ q = act e (vget x) /\ In (round_image x e) P') /\ (forall p, In p P' -> exists e, In e ops /\ round_image x e = p /\ In (act e (vget x)) l) /\
      ForallOrdPairs (fun p q => ~ same_point p q) l /\ List.length l = List.length P').
  { induction P' as [|p P' IH]; intros N H.
    - exists []. repeat split; try constructor; intros q [].
    - inversion N as [|? ? Np N']; subst. destruct (IH N' (fun q Hq => H q (or_intror Hq))) as (l & A & B & D & E). destruct (H p (or_introl eq_refl)) as (e & He & Ee).
      exists (act e (vget x) :: l). split; [|split; [|split]].
      + intros q [<-|Hq]; [exists e; split; [exact He|split; [reflexivity|left; exact Ee]]|]. destruct (A q Hq) as (f & Hf & Ef & Hin). exists f. split; [exact Hf|]. split; [exact Ef|now right].
      + intros q [<-|Hq]; [exists e; split; [exact He|split; [symmetry; exact Ee|now left]]|]. destruct (B q Hq) as (f & Hf & Ef & Hin). exists f. split; [exact Hf|]. split; [exact Ef|now right].
      + constructor; [|exact D]. apply Forall_forall. intros q Hq Sp. destruct (A q Hq) as (f & Hf & -> & Hin). apply Np. rewrite Ee, (same_round x e f Sp). exact Hin.
      + cbn [List.length]. now rewrite E. }
  destruct (Ch P NP (fun p Hp => proj1 (IP p) Hp)) as (l & A & B & D & E). exists l. split; [|split; [exact D|exact E]]. split.
  - intros q Hq. destruct (A q Hq) as (e & He & -> & _). exists e. split; [exact He|]. intros i. exists 0%Z. lra.
  - intros e He. destruct (B (round_image x e)) as (f & Hf & Ef & Hin); [apply IP; exists e; auto|]. exists (act f (vget x)). split; [exact Hin|].
    destruct (C e f He Hf) as [Sp|[i Ap]]; [exact Sp|]. exfalso. exact (apart_round x e f i Ap (eq_sym Ef)).
Qed.
End Atoms.

(** A coordinate of 0.999999 is listed as 1. *)
Theorem atoms_not_below_one : ~ forall ops atoms p lab, In (p, lab) (calc_atoms_in_unit_cell ops atoms) -> forall i, 0 <= vget p i < 1.
Proof.
  intros H. set (x := mkV (999999 / 1000000) 0 0). set (e := mkE (mkV 0 0 0)%Z 1 (mkM 1 0 0 0 1 0 0 0 1)%Z).
  specialize (H [e] [(x, "A"%string)] (round_image x e) "A"%string). assert (I : In (round_image x e, "A"%string) (calc_atoms_in_unit_cell [e] [(x, "A"%string)])) by (apply out_in; exists e, x; cbn; auto).
  specialize (H I X1). destruct H as [_ H]. rewrite round_image_get in H. unfold act, sum3, e, x in H. cbn [vget mget e_r e_b e_d m_11 m_12 m_13 v_1 v_2 v_3] in H.
  replace (1 * (999999 / 1000000) + 0 * 0 + 0 * 0 + 0 / 1) with (999999 / 1000000) in H by field. rewrite mod1_small in H by lra.
  unfold np_round in H. pose proof (rint_error (999999 / 1000000 * 10 ^ 5)) as E. apply Rabs_le_between in E. assert (99999 < rint (999999 / 1000000 * 10 ^ 5))%Z by (apply lt_IZR; lra).
  assert (L : (100000 <= rint (999999 / 1000000 * 10 ^ 5))%Z) by lia. apply IZR_le in L. revert L H. generalize (IZR (rint (999999 / 1000000 * 10 ^ 5))). intros r L H.
  apply (Rmult_lt_compat_r (10 ^ 5)) in H; [|lra]. unfold Rdiv in H. rewrite Rmult_assoc, Rinv_l in H by lra. lra.
Qed.
