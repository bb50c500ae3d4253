From Coq Require Import Reals Lra Lia List String Bool Arith ZArith.
From Verif Require Import Spec.Lin3 Spec.Cell Spec.Symm Spec.Density Model.MatrixOps Model.UnitCell Model.Background Model.Mem
  Proofs.BackgroundP Proofs.UnitCellP.
Import ListNotations.
Open Scope list_scope.
Open Scope R_scope.

(* ---- sums ---- *)
Lemma asum_scal : forall A (f : A -> R) c l, asum (map (fun x => f x * c) l) = asum (map f l) * c.
Proof. intros A f c l. induction l as [|x l IH]; cbn; [lra|]. unfold asum in IH. rewrite IH. lra. Qed.
Lemma asum_ext : forall A (f g : A -> R) l, (forall x, In x l -> f x = g x) -> asum (map f l) = asum (map g l).
Proof. intros A f g l H. f_equal. apply map_ext_in. exact H. Qed.
Lemma combine_map_l : forall A B C (f : A -> C) (l : list A) (m : list B),
  combine (map f l) m = map (fun p => (f (fst p), snd p)) (combine l m).
Proof. intros A B C f l. induction l as [|x l IH]; intros [|y m]; cbn; try reflexivity. f_equal. apply IH. Qed.

(* ---- collinear ---- *)
Lemma integral_eq : forall v n d m, integral v n d m = asum (map (fun p => fst p * snd p) (combine d m)) * (v / n).
Proof. intros. unfold integral. rewrite <- (asum_scal _ (fun p : R * R => fst p * snd p) (v / n)). reflexivity. Qed.
Lemma integral_scal : forall v n c d m, integral v n (map (fun x => c * x) d) m = c * integral v n d m.
Proof.
  intros. rewrite !integral_eq, combine_map_l, map_map.
  rewrite (asum_ext _ _ (fun p : R * R => (fst p * snd p) * c)) by (intros [a b] _; cbn; lra).
  rewrite (asum_scal _ (fun p : R * R => fst p * snd p) c). lra.
Qed.
Lemma renorm_col_row_eq : forall d m v n, n <> 0 -> v <> 0 -> integral v n d m <> 0 ->
  renorm_col_row d m v n = map (fun x => (1 / integral v n d m) * x) d.
Proof.
  intros d m v n Hn Hv Hi. unfold renorm_col_row. apply map_ext. intros x. rewrite integral_eq in *.
  set (s := asum _) in *. assert (s <> 0) by (intros E; apply Hi; rewrite E; lra).
  field. repeat split; assumption.
Qed.
Lemma renorm_col_integral : forall d m v n, n <> 0 -> v <> 0 -> integral v n d m <> 0 ->
  integral v n (renorm_col_row d m v n) m = 1.
Proof. intros. rewrite renorm_col_row_eq by assumption. rewrite integral_scal. field. assumption. Qed.
Lemma renorm_col_idem : forall d m v n, n <> 0 -> v <> 0 -> integral v n d m <> 0 ->
  renorm_col_row (renorm_col_row d m v n) m v n = renorm_col_row d m v n.
Proof.
  intros d m v n Hn Hv Hi. pose proof (renorm_col_integral d m v n Hn Hv Hi) as E.
  rewrite (renorm_col_row_eq (renorm_col_row d m v n)); [|assumption|assumption|rewrite E; lra].
  rewrite E. rewrite <- (map_id (renorm_col_row d m v n)) at 2. apply map_ext. intros. lra.
Qed.
Lemma integral_nonneg : forall v n d m, 0 < n -> 0 < v -> Forall (Rle 0) d -> Forall (Rle 0) m -> 0 <= integral v n d m.
Proof.
  intros v n d m Hn Hv Hd. revert m. induction Hd as [|x d Hx Hd IH]; intros m Hm; [unfold integral; cbn; lra|].
  destruct Hm as [|y m Hy Hm]; [unfold integral; cbn; lra|].
  unfold integral. cbn. assert (0 < v / n) by (apply Rdiv_lt_0_compat; assumption).
  specialize (IH m Hm). unfold integral in IH. assert (0 <= x * y) by (apply Rmult_le_pos; assumption).
  assert (0 <= x * y * (v / n)) by (apply Rmult_le_pos; lra). lra.
Qed.

Lemma renorm_col_row_eq0 : forall d m v n, n <> 0 -> v <> 0 ->
  renorm_col_row d m v n = map (fun x => (1 / integral v n d m) * x) d.
Proof.
  intros d m v n Hn Hv. destruct (Req_dec (integral v n d m) 0) as [E|E]; [|apply renorm_col_row_eq; assumption].
  unfold renorm_col_row. apply map_ext. intros x. rewrite integral_eq in *.
  set (s := asum _) in *. assert (E' : s = 0).
  { apply Rmult_integral in E as [E|E]; [exact E|]. exfalso. revert E. unfold Rdiv.
    apply Rmult_integral_contrapositive. split; [assumption|apply Rinv_neq_0_compat; assumption]. }
  rewrite E'. unfold Rdiv. rewrite Rmult_0_l, Rinv_0. lra.
Qed.

Theorem col_normalised : forall dcol m v n, n <> 0 -> v <> 0 ->
  (forall row, In row dcol -> integral v n row m <> 0) ->
  List.length (renormailize_density_col dcol m v n) = List.length dcol /\
  forall k, (k < List.length dcol)%nat ->
    let out := nth k (renormailize_density_col dcol m v n) [] in let inp := nth k dcol [] in
    List.length out = List.length inp /\ integral v n out m = 1 /\
    forall i, nth i out 0 = nth i inp 0 / integral v n inp m.
Proof.
  intros dcol m v n Hn Hv Hi. unfold renormailize_density_col. rewrite map_length. split; [reflexivity|].
  intros k Hk. cbn zeta.
  assert (E : nth k (map (fun row => renorm_col_row row m v n) dcol) [] = renorm_col_row (nth k dcol []) m v n).
  { rewrite (nth_indep _ [] (renorm_col_row [] m v n)) by (rewrite map_length; assumption). apply map_nth with (d := []) (f := fun row => renorm_col_row row m v n). }
  rewrite E. pose proof (Hi _ (nth_In dcol [] Hk)) as Hrow. set (row := nth k dcol []) in *.
  split; [unfold renorm_col_row; rewrite map_length; reflexivity|].
  split; [apply renorm_col_integral; assumption|].
  intros i. rewrite renorm_col_row_eq by assumption.
  rewrite <- (Rmult_0_r (1 / integral v n row m)) at 1. rewrite (map_nth (fun x => 1 / integral v n row m * x) row 0 i). unfold Rdiv. lra.
Qed.
Theorem col_idempotent : forall dcol m v n, n <> 0 -> v <> 0 ->
  (forall row, In row dcol -> integral v n row m <> 0) ->
  renormailize_density_col (renormailize_density_col dcol m v n) m v n = renormailize_density_col dcol m v n.
Proof.
  intros dcol m v n Hn Hv Hi. unfold renormailize_density_col. rewrite map_map. apply map_ext_in. intros row Hr.
  apply renorm_col_idem; auto.
Qed.
Theorem col_nonneg : forall dcol m v n, 0 < n -> 0 < v -> Forall (Rle 0) m ->
  (forall row x, In row dcol -> In x row -> 0 <= x) ->
  forall row x, In row (renormailize_density_col dcol m v n) -> In x row -> 0 <= x.
Proof.
  intros dcol m v n Hn Hv Hm Hd row x Hr Hx. unfold renormailize_density_col in Hr. apply in_map_iff in Hr as [r [<- Hr]].
  rewrite renorm_col_row_eq0 in Hx by lra. apply in_map_iff in Hx as [y [<- Hy]].
  assert (0 <= integral v n r m) by (apply integral_nonneg; try assumption; apply Forall_forall; intros; eapply Hd; eauto).
  apply Rmult_le_pos; [|eapply Hd; eauto].
  destruct (Req_dec (integral v n r m) 0) as [E|E]; [rewrite E; unfold Rdiv; rewrite Rinv_0; lra|].
  apply Rlt_le, Rdiv_lt_0_compat; lra.
Qed.

(* the sum of ones times multiplicities *)
Lemma ones_sum : forall m, asum (map (fun p => fst p * snd p) (combine (map (fun _ : R => 1) m) m)) = asum m.
Proof. induction m as [|x m IH]; cbn; [reflexivity|]. unfold asum in IH. cbn in IH. rewrite IH. lra. Qed.
Theorem col_uniform : forall m v n, 0 < n -> 0 < v -> fold_right Rplus 0 m = n ->
  get_uniform_density_col m v n = [map (fun _ => 1 / v) m; map (fun _ => 1 / v) m].
Proof.
  intros m v n Hn Hv Hs. unfold get_uniform_density_col, renormailize_density_col. cbn [map].
  assert (E : renorm_col_row (map (fun _ => 1) m) m v n = map (fun _ => 1 / v) m).
  { unfold renorm_col_row. rewrite map_map. apply map_ext. intros _. rewrite ones_sum. unfold asum. rewrite Hs.
    field. lra. }
  rewrite E. reflexivity.
Qed.

(* ---- chi ---- *)
Definition m_at (pts : list mpoint) (a : string) : R :=
  asum (map prod_den_mult (filter (fun p => String.eqb (mp_label p) a) pts)).
Lemma chi_step_map : forall pts c a (f : mpoint -> R),
  chi_step pts c a (map f pts) = map (fun p => if String.eqb (mp_label p) a then f p * (c / m_at pts a) else f p) pts.
Proof.
  intros pts c a f. unfold chi_step. fold (m_at pts a).
  assert (G : forall l, map (fun q : bool * R => if fst q then snd q * (c / m_at pts a) else snd q)
                    (combine (map (fun p => String.eqb (mp_label p) a) l) (map f l)) =
                  map (fun p => if String.eqb (mp_label p) a then f p * (c / m_at pts a) else f p) l).
  { induction l as [|p l IH]; cbn; [reflexivity|]. f_equal. exact IH. }
  destruct (existsb _ _) eqn:E; [apply G|].
  apply map_ext_in. intros p Hp. destruct (String.eqb (mp_label p) a) eqn:Ep; [|reflexivity].
  exfalso. assert (T : existsb (fun b => b) (map (fun p => String.eqb (mp_label p) a) pts) = true).
  { apply existsb_exists. exists true. split; [|reflexivity]. rewrite <- Ep. apply in_map with (f := fun p => String.eqb (mp_label p) a). exact Hp. }
  congruence.
Qed.
Lemma chi_fold : forall pts c L, NoDup L -> forall f,
  fold_left (fun norm a => chi_step pts c a norm) L (map f pts) =
  map (fun p => if in_dec string_dec (mp_label p) L then f p * (c / m_at pts (mp_label p)) else f p) pts.
Proof.
  intros pts c L HL. induction HL as [|a L Ha HL IH]; intros f; cbn [fold_left].
  { apply map_ext. intros p. destruct (in_dec _ _ _) as [[]|]; reflexivity. }
  rewrite chi_step_map, IH. apply map_ext. intros p.
  destruct (in_dec string_dec (mp_label p) L) as [i|i], (in_dec string_dec (mp_label p) (a :: L)) as [j|j],
    (String.eqb_spec (mp_label p) a) as [e|e]; try reflexivity;
  try (exfalso; subst a; tauto).
  - exfalso; apply j; right; exact i.
  - rewrite e; reflexivity.
  - exfalso. destruct j as [j|j]; [congruence|contradiction].
  - exfalso; apply j; left; congruence.
Qed.
Lemma chi_eq : forall pts v n,
  renormailize_density_chi pts v n = map (fun p => mp_density p * (n / v / m_at pts (mp_label p))) pts.
Proof.
  intros. unfold renormailize_density_chi. rewrite chi_fold by apply NoDup_nodup. apply map_ext_in. intros p Hp.
  destruct (in_dec _ _ _) as [i|i]; [reflexivity|]. exfalso. apply i. apply nodup_In. apply in_map. exact Hp.
Qed.
Lemma set_density_map : forall f pts,
  set_density (map f pts) pts = map (fun p => mkMP (f p) (mp_mult p) (mp_label p) (mp_amult p)) pts.
Proof. intros f pts. unfold set_density. induction pts as [|p l IH]; cbn; [reflexivity|]. f_equal. exact IH. Qed.
Lemma filter_map : forall A B (g : A -> B) (f : B -> bool) l, filter f (map g l) = map g (filter (fun x => f (g x)) l).
Proof. intros. induction l as [|x l IH]; cbn; [reflexivity|]. rewrite IH. destruct (f (g x)); reflexivity. Qed.
Lemma atom_integral_m_at : forall v n a pts, atom_integral v n a pts = m_at pts a * (v / n).
Proof.
  intros. unfold atom_integral, m_at. rewrite <- (asum_scal _ prod_den_mult (v / n)). unfold asum. f_equal.
  apply map_ext. intros p. unfold prod_den_mult, Rdiv. lra.
Qed.
Lemma chi_out_integral : forall pts v n, n <> 0 -> v <> 0 -> forall a,
  atom_integral v n a pts <> 0 ->
  atom_integral v n a (set_density (renormailize_density_chi pts v n) pts) = 1.
Proof.
  intros pts v n Hn Hv a Ha. rewrite chi_eq, set_density_map, atom_integral_m_at. rewrite atom_integral_m_at in Ha.
  assert (Hm : m_at pts a <> 0) by (intros E; apply Ha; rewrite E; lra).
  unfold m_at at 1. rewrite filter_map, map_map. cbn [mp_label].
  rewrite (asum_ext _ _ (fun p => prod_den_mult p * (n / v / m_at pts a))).
  - rewrite asum_scal. fold (m_at pts a). field. repeat split; assumption.
  - intros p Hp. apply filter_In in Hp as [_ Hp]. apply String.eqb_eq in Hp. unfold prod_den_mult. cbn [mp_density mp_mult mp_amult].
    rewrite Hp. unfold Rdiv. lra.
Qed.
Lemma map_nth_lt : forall A B (f : A -> B) l i d d', (i < List.length l)%nat -> nth i (map f l) d' = f (nth i l d).
Proof. intros A B f l. induction l as [|x l IH]; intros [|i] d d' H; cbn in *; try lia; [reflexivity|]. apply IH. lia. Qed.
Theorem chi_normalised : forall pts v n, n <> 0 -> v <> 0 ->
  (forall p, In p pts -> atom_integral v n (mp_label p) pts <> 0) ->
  List.length (renormailize_density_chi pts v n) = List.length pts /\
  (forall p, In p pts -> atom_integral v n (mp_label p) (set_density (renormailize_density_chi pts v n) pts) = 1) /\
  (forall i p, nth_error pts i = Some p ->
     nth i (renormailize_density_chi pts v n) 0 = mp_density p / atom_integral v n (mp_label p) pts).
Proof.
  intros pts v n Hn Hv Hi. split; [rewrite chi_eq, map_length; reflexivity|].
  split; [intros p Hp; apply chi_out_integral; auto|].
  intros i p Hp. rewrite chi_eq.
  assert (Hl : (i < List.length pts)%nat) by (apply nth_error_Some; congruence).
  rewrite (map_nth_lt _ _ _ pts i p 0 Hl). rewrite (nth_error_nth _ _ _ Hp). rewrite atom_integral_m_at.
  pose proof (Hi p (nth_error_In _ _ Hp)) as H. rewrite atom_integral_m_at in H.
  assert (m_at pts (mp_label p) <> 0) by (intros E; apply H; rewrite E; lra).
  field. repeat split; assumption.
Qed.
Theorem chi_idempotent : forall pts v n, n <> 0 -> v <> 0 ->
  (forall p, In p pts -> atom_integral v n (mp_label p) pts <> 0) ->
  renormailize_density_chi (set_density (renormailize_density_chi pts v n) pts) v n = renormailize_density_chi pts v n.
Proof.
  intros pts v n Hn Hv Hi. rewrite (chi_eq (set_density _ _)).
  assert (G : forall p, In p pts -> m_at (set_density (renormailize_density_chi pts v n) pts) (mp_label p) = n / v).
  { intros p Hp. pose proof (chi_out_integral pts v n Hn Hv (mp_label p) (Hi p Hp)) as H. rewrite atom_integral_m_at in H.
    apply (Rmult_eq_reg_r (v / n)); [|unfold Rdiv; apply Rmult_integral_contrapositive; split; [assumption|apply Rinv_neq_0_compat; assumption]].
    rewrite H. field. split; assumption. }
  rewrite chi_eq in *. rewrite set_density_map in *. rewrite map_map. cbn [mp_density mp_label]. apply map_ext_in.
  intros p Hp. rewrite (G p Hp).
  pose proof (Hi p Hp) as H. rewrite atom_integral_m_at in H.
  assert (m_at pts (mp_label p) <> 0) by (intros E; apply H; rewrite E; lra).
  field. repeat split; assumption.
Qed.
Lemma asum_nonneg : forall l, Forall (Rle 0) l -> 0 <= asum l.
Proof. intros l H. induction H as [|x l Hx Hl IH]; cbn; [lra|]. unfold asum in IH. lra. Qed.
Theorem chi_nonneg : forall pts v n, 0 < n -> 0 < v ->
  (forall p, In p pts -> 0 <= mp_density p /\ 0 <= mp_mult p /\ 0 < mp_amult p) ->
  forall x, In x (renormailize_density_chi pts v n) -> 0 <= x.
Proof.
  intros pts v n Hn Hv Hp x Hx. rewrite chi_eq in Hx. apply in_map_iff in Hx as [p [<- Hin]].
  assert (Hs : 0 <= m_at pts (mp_label p)).
  { apply asum_nonneg. apply Forall_forall. intros y Hy. apply in_map_iff in Hy as [q [<- Hq]].
    apply filter_In in Hq as [Hq _]. destruct (Hp q Hq) as [h1 [h2 h3]]. unfold prod_den_mult, Rdiv.
    apply Rmult_le_pos; [apply Rmult_le_pos; assumption|]. apply Rlt_le, Rinv_0_lt_compat; assumption. }
  destruct (Hp p Hin) as [h1 _]. apply Rmult_le_pos; [assumption|].
  assert (0 < n / v) by (apply Rdiv_lt_0_compat; assumption).
  destruct (Req_dec (m_at pts (mp_label p)) 0) as [E|E]; [rewrite E; unfold Rdiv; rewrite Rinv_0; lra|].
  apply Rlt_le, Rdiv_lt_0_compat; lra.
Qed.
Theorem chi_uniform : forall pts v n, 0 < n -> 0 < v ->
  (forall p, In p pts -> 0 < mp_mult p /\ 0 < mp_amult p) ->
  let out := set_density (get_uniform_density_chi pts v n) pts in
  (forall p, In p pts -> atom_integral v n (mp_label p) out = 1) /\
  (forall p q, In p out -> In q out -> mp_label p = mp_label q -> mp_density p = mp_density q).
Proof.
  intros pts v n Hn Hv Hp. cbn zeta. unfold get_uniform_density_chi.
  set (pts1 := set_density (map (fun _ => 1) pts) pts).
  assert (E1 : pts1 = map (fun p => mkMP 1 (mp_mult p) (mp_label p) (mp_amult p)) pts)
    by (unfold pts1; rewrite set_density_map; reflexivity).
  assert (Hset : set_density (renormailize_density_chi pts1 v n) pts = set_density (renormailize_density_chi pts1 v n) pts1).
  { generalize (renormailize_density_chi pts1 v n). rewrite E1. clear. intros l0. unfold set_density. revert l0.
    induction pts as [|p l IH]; intros [|x l0]; cbn; try reflexivity. f_equal. apply IH. }
  rewrite Hset. split.
  - intros p Hin. apply chi_out_integral; [lra|lra|]. rewrite atom_integral_m_at.
    assert (Hpos : 0 < m_at pts1 (mp_label p)).
    { assert (G : forall l, (forall q, In q l -> 0 < prod_den_mult q) -> forall q, In q l -> 0 < asum (map prod_den_mult l)).
      { induction l as [|q l IH]; intros Hl r Hr; [destruct Hr|]. cbn.
        assert (0 <= asum (map prod_den_mult l)).
        { apply asum_nonneg, Forall_forall. intros y Hy. apply in_map_iff in Hy as [z [<- Hz]]. apply Rlt_le, Hl. right; exact Hz. }
        unfold asum in *. pose proof (Hl q (or_introl eq_refl)). lra. }
      assert (Hin1 : In (mkMP 1 (mp_mult p) (mp_label p) (mp_amult p)) pts1).
      { rewrite E1. apply in_map with (f := fun p => mkMP 1 (mp_mult p) (mp_label p) (mp_amult p)). exact Hin. }
      unfold m_at. apply G with (q := mkMP 1 (mp_mult p) (mp_label p) (mp_amult p)).
      - intros q Hq. apply filter_In in Hq as [Hq _]. rewrite E1 in Hq. apply in_map_iff in Hq as [r [<- Hr]].
        unfold prod_den_mult. cbn. destruct (Hp r Hr). apply Rdiv_lt_0_compat; lra.
      - apply filter_In. split; [exact Hin1|]. cbn. apply String.eqb_refl. }
    assert (0 < v / n) by (apply Rdiv_lt_0_compat; assumption).
    apply Rgt_not_eq, Rmult_lt_0_compat; assumption.
  - rewrite chi_eq, set_density_map. intros p q Hin1 Hin2 El. apply in_map_iff in Hin1 as [r [<- Hr]].
    apply in_map_iff in Hin2 as [s [<- Hs]]. cbn in *. rewrite El. f_equal.
    rewrite E1 in Hr, Hs. apply in_map_iff in Hr as [r' [<- _]]. apply in_map_iff in Hs as [s' [<- _]]. reflexivity.
Qed.
