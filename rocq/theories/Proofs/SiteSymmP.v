(** Proofs about the selection of the site symmetry. *)
From Coq Require Import Reals ZArith List Bool Arith Lra Lia.
From Verif Require Import Spec.Lin3 Spec.Symm Spec.SiteSpec Model.Constraints Model.SiteSymm.
Import ListNotations.
Open Scope R_scope.

Lemma int_part_bounds : forall x, IZR (Int_part x) <= x < IZR (Int_part x) + 1.
Proof. intro x. destruct (base_Int_part x). split; lra. Qed.
Lemma int_part_unique : forall x n, IZR n <= x < IZR n + 1 -> n = Int_part x.
Proof.
  intros x n H. unfold Int_part. assert (E : (n + 1)%Z = up x) by (apply tech_up; rewrite plus_IZR; simpl; lra).
  rewrite <- E. ring.
Qed.
Lemma Rabs_le_between : forall x a, Rabs x <= a <-> - a <= x <= a.
Proof.
  intros x a. split; [|apply Rabs_le]. intro H. pose proof (Rle_abs x). pose proof (Rle_abs (- x)) as P. rewrite Rabs_Ropp in P. lra.
Qed.
Lemma rint_error : forall x, Rabs (IZR (rint x) - x) <= 1 / 2.
Proof.
  intro x. pose proof (int_part_bounds x). unfold rint. cbv zeta.
  destruct (Rlt_dec (x - IZR (Int_part x)) (1 / 2)); [|destruct (Rlt_dec (1 / 2) (x - IZR (Int_part x)))].
  - apply Rabs_le. lra.
  - rewrite plus_IZR. apply Rabs_le. lra.
  - destruct (Z.even (Int_part x)); [|rewrite plus_IZR]; apply Rabs_le; lra.
Qed.
Lemma np_round_error : forall k x, Rabs (np_round k x - x) <= 1 / 2 / 10 ^ k.
Proof.
  intros k x. unfold np_round. assert (P : 0 < 10 ^ k) by (apply pow_lt; lra).
  replace (IZR (rint (x * 10 ^ k)) / 10 ^ k - x) with ((IZR (rint (x * 10 ^ k)) - x * 10 ^ k) / 10 ^ k) by (field; lra).
  unfold Rdiv at 1. rewrite Rabs_mult, (Rabs_pos_eq (/ 10 ^ k)) by (left; apply Rinv_0_lt_compat; exact P).
  unfold Rdiv at 2. apply Rmult_le_compat_r; [left; apply Rinv_0_lt_compat; exact P|]. apply rint_error.
Qed.
Lemma rint_Z : forall n, rint (IZR n) = n.
Proof.
  intro n. unfold rint. cbv zeta.
  assert (E : Int_part (IZR n) = n) by (symmetry; apply int_part_unique; lra).
  rewrite E. destruct (Rlt_dec (IZR n - IZR n) (1 / 2)); [reflexivity|lra].
Qed.
Lemma np_round_exact : forall k n, np_round k (IZR n / 10 ^ k) = IZR n / 10 ^ k.
Proof.
  intros k n. unfold np_round. assert (P : 0 < 10 ^ k) by (apply pow_lt; lra).
  replace (IZR n / 10 ^ k * 10 ^ k) with (IZR n) by (field; lra). rewrite rint_Z. reflexivity.
Qed.

Lemma mod1_bounds : forall x, 0 <= mod1 x < 1.
Proof. intro x. unfold mod1. pose proof (int_part_bounds x). lra. Qed.
Lemma mod1_shift : forall x n, mod1 (x + IZR n) = mod1 x.
Proof.
  intros x n. unfold mod1. assert (E : Int_part (x + IZR n) = (Int_part x + n)%Z).
  { symmetry. apply int_part_unique. pose proof (int_part_bounds x). rewrite plus_IZR. lra. }
  rewrite E, plus_IZR. ring.
Qed.
Lemma mod1_small : forall x, 0 <= x < 1 -> mod1 x = x.
Proof. intros x H. unfold mod1. rewrite <- (int_part_unique x 0) by (simpl; lra). simpl. ring. Qed.
Lemma mod1_eq_iff : forall x y, mod1 x = mod1 y <-> exists n : Z, x = y + IZR n.
Proof.
  intros x y. split.
  - intro H. exists (Int_part x - Int_part y)%Z. rewrite minus_IZR. unfold mod1 in H. lra.
  - intros [n ->]. apply mod1_shift.
Qed.

Lemma v_eqb_iff : forall a b, v_eqb a b = true <-> a = b.
Proof.
  intros [a1 a2 a3] [b1 b2 b3]. unfold v_eqb. cbn [v_1 v_2 v_3]. split.
  - destruct (Req_EM_T a1 b1), (Req_EM_T a2 b2), (Req_EM_T a3 b3); cbn; intro H; congruence.
  - intro E. injection E as -> -> ->. destruct (Req_EM_T b1 b1), (Req_EM_T b2 b2), (Req_EM_T b3 b3); cbn; congruence.
Qed.
Lemma insert_in : forall a l c, In c (insert_unique a l) <-> c = a \/ In c l.
Proof.
  intros a l c. induction l as [|b r IH]; cbn [insert_unique].
  - cbn. intuition.
  - destruct (v_eqb a b) eqn:E.
    + apply v_eqb_iff in E. subst b. cbn. intuition.
    + destruct (v_ltb a b); cbn [In]; [|rewrite IH]; intuition.
Qed.
Lemma unique_in : forall l c, In c (np_unique l) <-> In c l.
Proof. intros l c. induction l as [|a r IH]; cbn; [reflexivity|]. rewrite insert_in. unfold np_unique in IH. rewrite IH. intuition. Qed.
Lemma index_of_inj : forall l a b, In a l -> index_of a l = index_of b l -> a = b.
Proof.
  intros l a b. induction l as [|c r IH]; cbn [index_of In]; [tauto|]. intros H E.
  destruct (v_eqb a c) eqn:A, (v_eqb b c) eqn:B; try discriminate.
  - apply v_eqb_iff in A, B. congruence.
  - destruct H as [<-|H]; [rewrite (proj2 (v_eqb_iff c c) eq_refl) in A; discriminate|]. apply IH; [exact H|congruence].
Qed.
Lemma first_near_only : forall x l c0, In c0 l -> (forall c, In c l -> (near x c = true <-> c = c0)) -> first_near x l = Some (index_of c0 l).
Proof.
  intros x l c0. induction l as [|c r IH]; cbn [In first_near index_of]; [tauto|]. intros H U.
  destruct (near x c) eqn:N.
  - apply U in N; [|left; reflexivity]. subst c. rewrite (proj2 (v_eqb_iff c0 c0) eq_refl). reflexivity.
  - destruct (v_eqb c0 c) eqn:E.
    + apply v_eqb_iff in E. subst c. rewrite (proj2 (U c0 (or_introl eq_refl)) eq_refl) in N. discriminate.
    + destruct H as [<-|H]; [rewrite (proj2 (v_eqb_iff c c) eq_refl) in E; discriminate|].
      rewrite IH; [reflexivity|exact H|intros d D; apply U; right; exact D].
Qed.

Definition base (v : V3 R) : V3 R := mkV (mod1 (v_1 v)) (mod1 (v_2 v)) (mod1 (v_3 v)).
Lemma base_get : forall v i, vget (base v) i = mod1 (vget v i).
Proof. intros v i. destruct i; reflexivity. Qed.
Lemma round_image_get : forall x e i, vget (round_image x e) i = np_round 5 (mod1 (act e (vget x) i)).
Proof. intros x e i. destruct i; reflexivity. Qed.
Lemma act_base : forall e v i, mod1 (act e (vget (base v)) i) = mod1 (act e (vget v) i).
Proof.
  intros e v i. apply mod1_eq_iff.
  exists (- (mget (e_r e) i X1 * Int_part (v_1 v) + mget (e_r e) i X2 * Int_part (v_2 v) + mget (e_r e) i X3 * Int_part (v_3 v)))%Z.
  rewrite opp_IZR, !plus_IZR, !mult_IZR. unfold act, sum3, base, vget, mod1. cbn [v_1 v_2 v_3]. ring.
Qed.
Lemma v3_ext : forall a b : V3 R, (forall i, vget a i = vget b i) -> a = b.
Proof. intros [a1 a2 a3] [b1 b2 b3] H. pose proof (H X1). pose proof (H X2). pose proof (H X3). cbn in *. congruence. Qed.

Definition rounded (v : V3 R) : V3 R := mkV (np_round 5 (mod1 (v_1 v))) (np_round 5 (mod1 (v_2 v))) (np_round 5 (mod1 (v_3 v))).
Lemma image_fixed : forall v e, same_point (act e (vget v)) (vget v) -> round_image (base v) e = rounded v.
Proof.
  intros v e H. apply v3_ext. intro i. rewrite round_image_get, act_base.
  assert (E : mod1 (act e (vget v) i) = mod1 (vget v i)) by (apply mod1_eq_iff; apply H).
  rewrite E. destruct i; reflexivity.
Qed.
Lemma np_round5_error : forall x, Rabs (np_round 5 x - x) <= 5 / 1000000.
Proof. intro x. pose proof (np_round_error 5 x). lra. Qed.
Lemma near_rounded : forall v, near (base v) (rounded v) = true.
Proof.
  intro v. unfold near, base, rounded. cbn [v_1 v_2 v_3].
  pose proof (np_round5_error (mod1 (v_1 v))) as A. pose proof (np_round5_error (mod1 (v_2 v))) as B. pose proof (np_round5_error (mod1 (v_3 v))) as C.
  apply Rabs_le_between in A, B, C.
  destruct (Rlt_dec _ _) as [|N]; [reflexivity|]. exfalso. apply N.
  set (a := mod1 (v_1 v)) in *. set (b := mod1 (v_2 v)) in *. set (c := mod1 (v_3 v)) in *.
  assert (S : forall p q, - (5 / 1000000) <= q - p <= 5 / 1000000 -> (p - q) ^ 2 <= 5 / 1000000).
  { intros p q H. assert (0 <= (5 / 1000000 - (q - p)) * (5 / 1000000 + (q - p))) by (apply Rmult_le_pos; lra). nra. }
  assert (T : forall p q, - (5 / 1000000) <= q - p <= 5 / 1000000 -> (p - q) ^ 2 <= 25 / 1000000000000).
  { intros p q H. assert (0 <= (5 / 1000000 - (q - p)) * (5 / 1000000 + (q - p))) by (apply Rmult_le_pos; lra). nra. }
  pose proof (T _ _ A). pose proof (T _ _ B). pose proof (T _ _ C). lra.
Qed.
(** an image that differs by 0.0032 or more in one coordinate (both taken modulo 1) is not near *)
Lemma far_image : forall v e, clearly_apart (act e (vget v)) (vget v) -> near (base v) (round_image (base v) e) = false.
Proof.
  intros v e [i H]. change (32 / 10000 <= Rabs (mod1 (act e (vget v) i) - mod1 (vget v i))) in H. unfold near. destruct (Rlt_dec _ _) as [L|]; [|reflexivity]. exfalso.
  assert (Q : (vget (base v) i - vget (round_image (base v) e) i) ^ 2 < 1 / 100000).
  { set (p := base v) in *. set (c := round_image p e) in *.
    pose proof (pow2_ge_0 (v_1 p - v_1 c)). pose proof (pow2_ge_0 (v_2 p - v_2 c)). pose proof (pow2_ge_0 (v_3 p - v_3 c)).
    destruct i; unfold vget; lra. }
  clear L. rewrite base_get, round_image_get, act_base in Q.
  set (a := mod1 (act e (vget v) i)) in *. set (b := mod1 (vget v i)) in *.
  pose proof (np_round5_error a) as A. apply Rabs_le_between in A.
  assert (D : 3195 / 1000000 <= Rabs (b - np_round 5 a)).
  { replace (b - np_round 5 a) with ((b - a) - (np_round 5 a - a)) by ring.
    rewrite Rabs_minus_sym in H. pose proof (Rabs_triang_inv (b - a) (np_round 5 a - a)).
    assert (Rabs (np_round 5 a - a) <= 5 / 1000000) by (apply Rabs_le_between; lra). lra. }
  rewrite <- (pow2_abs (b - np_round 5 a)) in Q. nra.
Qed.

Lemma site_found : forall symop v, (exists e, In e symop /\ same_point (act e (vget v)) (vget v)) ->
  exists l, calc_el_symm_for_xyz symop v = Some l /\ (forall e, In e l -> In e symop) /\
    exists e0, In e0 l /\ forall e, In e symop -> (In e l <-> round_image (base v) e = round_image (base v) e0).
Proof.
  intros symop v (e & He & F). unfold calc_el_symm_for_xyz. fold (base v).
  set (u := np_unique (map (round_image (base v)) symop)).
  assert (EX : exists c, In c u /\ near (base v) c = true).
  { exists (rounded v). split; [|apply near_rounded]. apply unique_in. rewrite <- (image_fixed v e F). apply in_map. exact He. }
  assert (FN : forall l, (exists c, In c l /\ near (base v) c = true) -> exists k c, first_near (base v) l = Some k /\ In c l /\ near (base v) c = true /\ index_of c l = k).
  { clear. induction l as [|d r IH]; intros (c & Hc & Nc); [contradiction|]. cbn [first_near]. destruct (near (base v) d) eqn:N.
    - exists 0%nat, d. repeat split; [left; reflexivity|exact N|]. cbn. rewrite (proj2 (v_eqb_iff d d) eq_refl). reflexivity.
    - destruct Hc as [<-|Hc]; [congruence|]. destruct IH as (k & c' & E & I1 & I2 & I3); [exists c; auto|].
      exists (S k), c'. rewrite E. repeat split; [right; exact I1|exact I2|]. cbn.
      destruct (v_eqb c' d) eqn:V; [apply v_eqb_iff in V; congruence|congruence]. }
  destruct (FN u EX) as (k & c & E & Ic & Nc & Xc). rewrite E. eexists. split; [reflexivity|].
  split; [intros e' H; apply filter_In in H; tauto|].
  assert (exists e0, In e0 symop /\ round_image (base v) e0 = c) as (e0 & I0 & R0).
  { unfold u in Ic. apply unique_in, in_map_iff in Ic. destruct Ic as (e0 & R0 & I0). exists e0. auto. }
  exists e0. split.
  - apply filter_In. split; [exact I0|]. rewrite R0. apply Nat.eqb_eq. exact Xc.
  - intros e' He'. rewrite filter_In, Nat.eqb_eq. split.
    + intros [_ H]. rewrite R0. apply (index_of_inj u); [|congruence]. apply unique_in, in_map. exact He'.
    + intro H. split; [exact He'|]. rewrite H, R0. exact Xc.
Qed.

Lemma site_exact : forall symop v, (exists e, In e symop /\ same_point (act e (vget v)) (vget v)) ->
  (forall e, In e symop -> same_point (act e (vget v)) (vget v) \/ clearly_apart (act e (vget v)) (vget v)) ->
  exists l, calc_el_symm_for_xyz symop v = Some l /\ forall e, In e l <-> In e symop /\ same_point (act e (vget v)) (vget v).
Proof.
  intros symop v (e1 & H1 & F1) D. unfold calc_el_symm_for_xyz. fold (base v).
  set (u := np_unique (map (round_image (base v)) symop)).
  assert (I0 : In (rounded v) u) by (apply unique_in; rewrite <- (image_fixed v e1 F1); apply in_map; exact H1).
  assert (K : forall e, In e symop -> (round_image (base v) e = rounded v <-> same_point (act e (vget v)) (vget v))).
  { intros e He. split; [|apply image_fixed]. intro E. destruct (D e He) as [|A]; [assumption|].
    apply far_image in A. rewrite E, near_rounded in A. discriminate. }
  rewrite (first_near_only (base v) u (rounded v) I0).
  - eexists. split; [reflexivity|]. intro e. rewrite filter_In, Nat.eqb_eq. split.
    + intros [He E]. split; [exact He|]. apply (K e He). apply (index_of_inj u); [|exact E]. apply unique_in, in_map. exact He.
    + intros [He F]. split; [exact He|]. rewrite (image_fixed v e F). reflexivity.
  - intros c Hc. split; [|intros ->; apply near_rounded]. intro N.
    unfold u in Hc. apply unique_in, in_map_iff in Hc. destruct Hc as (e & <- & He). apply K; [exact He|].
    destruct (D e He) as [|A]; [assumption|]. apply far_image in A. congruence.
Qed.

(** order and multiplicity of the elements are those of the list *)
Lemma site_sublist : forall symop v l, calc_el_symm_for_xyz symop v = Some l -> exists f, l = filter f symop.
Proof.
  intros symop v l. unfold calc_el_symm_for_xyz. destruct (first_near _ _); [|discriminate]. intro E. injection E as <-. eexists. reflexivity.
Qed.

(** * counterexample: an atom at x = 0.251 with the mirror x -> 1/2 - x *)
Definition op1 : Op := mkE (mkV 0 0 0)%Z 1 (mkM 1 0 0 0 1 0 0 0 1)%Z.
Definition opm : Op := mkE (mkV 1 0 0)%Z 2 (mkM (-1) 0 0 0 1 0 0 0 1)%Z.
Definition near_mirror : V3 R := mkV (251 / 1000) 0 0.
Lemma near_mirror_wrong : calc_el_symm_for_xyz [op1; opm] near_mirror = Some [opm].
Proof.
  assert (B : base near_mirror = near_mirror).
  { unfold base, near_mirror. cbn [v_1 v_2 v_3]. rewrite !mod1_small by lra. reflexivity. }
  unfold calc_el_symm_for_xyz. fold (base near_mirror). rewrite B. cbv zeta.
  assert (R1 : round_image near_mirror op1 = mkV (251 / 1000) 0 0).
  { unfold round_image, near_mirror, op1, sum3. cbn.
    replace (1 * (251 / 1000) + 0 * 0 + 0 * 0 + 0 / 1) with (251 / 1000) by lra.
    replace (0 * (251 / 1000) + 1 * 0 + 0 * 0 + 0 / 1) with 0 by lra. replace (0 * (251 / 1000) + 0 * 0 + 1 * 0 + 0 / 1) with 0 by lra.
    rewrite !mod1_small by lra.
    replace (251 / 1000) with (IZR 25100 / 10 ^ 5) by (simpl; lra). rewrite np_round_exact.
    replace 0 with (IZR 0 / 10 ^ 5) by (simpl; lra). rewrite np_round_exact. f_equal; simpl; lra. }
  assert (R2 : round_image near_mirror opm = mkV (249 / 1000) 0 0).
  { unfold round_image, near_mirror, opm, sum3. cbn.
    replace (-1 * (251 / 1000) + 0 * 0 + 0 * 0 + 1 / 2) with (249 / 1000) by lra.
    replace (0 * (251 / 1000) + 1 * 0 + 0 * 0 + 0 / 2) with 0 by lra. replace (0 * (251 / 1000) + 0 * 0 + 1 * 0 + 0 / 2) with 0 by lra.
    rewrite !mod1_small by lra.
    replace (249 / 1000) with (IZR 24900 / 10 ^ 5) by (simpl; lra). rewrite np_round_exact.
    replace 0 with (IZR 0 / 10 ^ 5) by (simpl; lra). rewrite np_round_exact. f_equal; simpl; lra. }
  cbn [map filter]. rewrite R1, R2.
  assert (U : np_unique [mkV (251 / 1000) 0 0; mkV (249 / 1000) 0 0] = [mkV (249 / 1000) 0 0; mkV (251 / 1000) 0 0]).
  { unfold np_unique. cbn [fold_right insert_unique].
    destruct (v_eqb (mkV (251 / 1000) 0 0) (mkV (249 / 1000) 0 0)) eqn:E.
    { apply v_eqb_iff in E. apply (f_equal v_1) in E. cbn in E. lra. }
    unfold v_ltb. cbn [v_1 v_2 v_3]. destruct (Rlt_dec (251 / 1000) (249 / 1000)); [lra|].
    destruct (Rlt_dec (249 / 1000) (251 / 1000)); [reflexivity|lra]. }
  rewrite U.
  assert (N : near near_mirror (mkV (249 / 1000) 0 0) = true).
  { unfold near, near_mirror. cbn [v_1 v_2 v_3]. destruct (Rlt_dec _ _) as [|X]; [reflexivity|]. exfalso. apply X. lra. }
  cbn [first_near]. rewrite N.
  assert (I1 : index_of (mkV (251 / 1000) 0 0) [mkV (249 / 1000) 0 0; mkV (251 / 1000) 0 0] = 1%nat).
  { cbn [index_of]. destruct (v_eqb (mkV (251 / 1000) 0 0) (mkV (249 / 1000) 0 0)) eqn:E.
    { apply v_eqb_iff in E. apply (f_equal v_1) in E. cbn in E. lra. }
    rewrite (proj2 (v_eqb_iff _ _) eq_refl). reflexivity. }
  assert (I2 : index_of (mkV (249 / 1000) 0 0) [mkV (249 / 1000) 0 0; mkV (251 / 1000) 0 0] = 0%nat).
  { cbn [index_of]. rewrite (proj2 (v_eqb_iff _ _) eq_refl). reflexivity. }
  rewrite I1, I2. reflexivity.
Qed.
Lemma near_mirror_not_fixed : ~ same_point (act opm (vget near_mirror)) (vget near_mirror).
Proof.
  intro H. destruct (H X1) as [n Hn]. unfold act, sum3, opm, near_mirror in Hn. cbn in Hn.
  assert (- (2 / 1000) = IZR n) by lra. assert (-1 < IZR n < 0) by lra. destruct H1 as [A B]. apply lt_IZR in A, B. lia.
Qed.
Lemma near_mirror_group : symmetry_group [op1; opm].
Proof.
  assert (A1 : forall x i, act op1 x i = x i) by (intros x i; destruct i; unfold act, sum3, op1; cbn; lra).
  assert (AM : forall x i, act opm (act opm x) i = x i) by (intros x i; destruct i; unfold act, sum3, opm; cbn; lra).
  assert (Z0 : forall f g : ix -> R, (forall i, f i = g i) -> same_point f g).
  { intros f g H i. exists 0%Z. rewrite H. simpl. ring. }
  repeat split.
  - intros e [<-|[<-|[]]]; reflexivity.
  - exists op1. split; [left; reflexivity|]. intro x. apply Z0, A1.
  - intros e f [<-|[<-|[]]] [<-|[<-|[]]].
    + exists op1. split; [left; reflexivity|]. intro x. apply Z0. intro i. rewrite !A1. reflexivity.
    + exists opm. split; [right; left; reflexivity|]. intro x. apply Z0. intro i. rewrite A1. reflexivity.
    + exists opm. split; [right; left; reflexivity|]. intro x. apply Z0. intro i. unfold act at 1 2. unfold sum3. rewrite !A1. reflexivity.
    + exists op1. split; [left; reflexivity|]. intro x. apply Z0. intro i. rewrite A1, AM. reflexivity.
  - intros e [<-|[<-|[]]].
    + exists op1. split; [left; reflexivity|]. intro x. apply Z0. intro i. rewrite !A1. reflexivity.
    + exists opm. split; [right; left; reflexivity|]. intro x. apply Z0. intro i. apply AM.
  - constructor; [|constructor; [constructor|constructor]]. constructor; [|constructor].
    intro H. destruct (H (fun _ => 0) X1) as [n Hn]. unfold act, sum3, op1, opm in Hn. cbn in Hn.
    assert (- (1 / 2) = IZR n) by lra. assert (-1 < IZR n < 0) by lra. destruct H1 as [A B]. apply lt_IZR in A, B. lia.
Qed.
(** the hypotheses of [site_exact] are met at (1/4, 0, 0) and at (1/10, 0, 0) *)
Lemma exact_met : forall e, In e [op1; opm] ->
  same_point (act e (vget (mkV (1 / 10) 0 0))) (vget (mkV (1 / 10) 0 0)) \/ clearly_apart (act e (vget (mkV (1 / 10) 0 0))) (vget (mkV (1 / 10) 0 0)).
Proof.
  intros e [<-|[<-|[]]].
  - left. intro i. exists 0%Z. destruct i; unfold act, sum3, op1; cbn; lra.
  - right. exists X1. unfold act, sum3, opm. cbn. replace (-1 * (1 / 10) + 0 * 0 + 0 * 0 + 1 / 2) with (4 / 10) by lra.
    rewrite !mod1_small by lra. rewrite Rabs_pos_eq; lra.
Qed.
