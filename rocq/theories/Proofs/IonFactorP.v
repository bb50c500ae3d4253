(** The forward X-ray amplitudes of ions. *)
From Coq Require Import Reals ZArith String List Ascii Bool Lra Lia.
From Coquelicot Require Import Coquelicot.
From Verif Require Import Spec.SlaterSpec Spec.Text Spec.IonSpec Spec.FormSpec Model.Strings Model.Numbers Model.Ions Model.Slater Model.RadialTable Model.IonFactor Proofs.SlaterP Proofs.IonsP Proofs.ShellsP Proofs.FormTablesP.
Import ListNotations.
Open Scope R_scope.

Fixpoint zfact (n : nat) : Z := match n with O => 1%Z | S k => (Z.of_nat n * zfact k)%Z end.
Lemma zfact_ok : forall n, IZR (zfact n) = INR (fact n).
Proof. induction n as [|n IH]; [reflexivity|]. change (zfact (S n)) with (Z.of_nat (S n) * zfact n)%Z. rewrite mult_IZR, IH, <- INR_IZR_INZ, fact_simpl, mult_INR. reflexivity. Qed.
Definition root_z (n1 : nat) (z1 : Z) (n2 : nat) (z2 : Z) : Z := Z.sqrt (4 * z1 * z2 * 10 ^ 18 / (zfact (2 * n1) * zfact (2 * n2))).
Definition overlap (w : Z) (n1 : nat) (z1 : Z) (n2 : nat) (z2 : Z) : Z :=
  ((2 * z1) ^ Z.of_nat n1 * (2 * z2) ^ Z.of_nat n2 * (zfact (n1 + n2) * w) / (z1 + z2) ^ Z.of_nat (n1 + n2 + 1))%Z.
Definition pair_z (a b : Z * nat * Z) : Z * Z :=
  let '(c1, n1, z1) := a in let '(c2, n2, z2) := b in
  let w := root_z n1 z1 n2 z2 in let t := overlap w n1 z1 n2 z2 in (c1 * c2 * t, Z.abs (c1 * c2) * (2 + (t + 1) / w))%Z.
Definition add2 (a b : Z * Z) : Z * Z := (fst a + fst b, snd a + snd b)%Z.
Definition row_z (a : Z * nat * Z) (l : list (Z * nat * Z)) : Z * Z := fold_right add2 (0, 0)%Z (map (pair_z a) l).
Fixpoint norm_z (orb : list (Z * nat * Z)) : Z * Z :=
  match orb with [] => (0, 0)%Z | a :: r => let s := row_z a r in add2 (add2 (pair_z a a) (add2 s s)) (norm_z r) end.
Definition one_z : Z := (10 ^ 25)%Z.
Definition term_ok (o : Z * nat * Z) : bool := let '(_, n, z) := o in (Nat.leb 1 n && Nat.leb n 6 && (0 <? z)%Z)%bool.

(** one pair of terms *)
Definition ratio_a (n1 : nat) (z1 : R) (n2 : nat) (z2 : R) : R := (2 * z1) ^ n1 * (2 * z2) ^ n2 * INR (fact (n1 + n2)) / (z1 + z2) ^ (n1 + n2 + 1).
Definition ratio_b (n1 : nat) (z1 : R) (n2 : nat) (z2 : R) : R := 4 * z1 * z2 / (INR (fact (2 * n1)) * INR (fact (2 * n2))).
Definition overlap_r (n1 : nat) (z1 : R) (n2 : nat) (z2 : R) : R := ratio_a n1 z1 n2 z2 * sqrt (ratio_b n1 z1 n2 z2).
Lemma norm_half : forall kappa n c z, 0 < kappa -> 0 < z -> coeff_norm bohr kappa (c, n, z) = (2 * (kappa / bohr * z)) ^ n * sqrt (2 * (kappa / bohr * z) / INR (fact (2 * n))).
Proof.
  intros kappa n c z K Z. assert (P : 0 < kappa * z / bohr) by (unfold bohr; apply Rdiv_lt_0_compat; [apply Rmult_lt_0_compat; assumption|lra]).
  unfold coeff_norm, zeta_ang. replace (kappa / bohr * z) with (kappa * z / bohr) by (unfold bohr; field). set (x := kappa * z / bohr) in *. replace (5 / 10) with (/ 2) by field.
  rewrite Rpower_plus, Rpower_pow, Rpower_sqrt by lra. rewrite sqrt_div by (try lra; apply INR_fact_lt_0). unfold Rdiv. ring.
Qed.
Lemma scale_out : forall g n1 z1 n2 z2, 0 < g -> 0 < z1 -> 0 < z2 ->
  (2 * (g * z1)) ^ n1 * sqrt (2 * (g * z1) / INR (fact (2 * n1))) * ((2 * (g * z2)) ^ n2 * sqrt (2 * (g * z2) / INR (fact (2 * n2)))) * (INR (fact (n1 + n2)) / (g * z1 + g * z2) ^ (n1 + n2 + 1)) =
  overlap_r n1 z1 n2 z2.
Proof.
  intros g n1 z1 n2 z2 G Z1 Z2. pose proof (INR_fact_lt_0 (2 * n1)) as F1. pose proof (INR_fact_lt_0 (2 * n2)) as F2.
  assert (E : sqrt (2 * (g * z1) / INR (fact (2 * n1))) * sqrt (2 * (g * z2) / INR (fact (2 * n2))) = g * sqrt (ratio_b n1 z1 n2 z2)).
  { rewrite <- sqrt_mult.
    - replace (2 * (g * z1) / INR (fact (2 * n1)) * (2 * (g * z2) / INR (fact (2 * n2)))) with (Rsqr g * ratio_b n1 z1 n2 z2) by (unfold ratio_b, Rsqr; field; split; apply Rgt_not_eq; assumption).
      rewrite sqrt_mult_alt by apply Rle_0_sqr. rewrite sqrt_Rsqr by lra. reflexivity.
    - apply Rlt_le, Rdiv_lt_0_compat; [apply Rmult_lt_0_compat; [lra|apply Rmult_lt_0_compat; assumption]|assumption].
    - apply Rlt_le, Rdiv_lt_0_compat; [apply Rmult_lt_0_compat; [lra|apply Rmult_lt_0_compat; assumption]|assumption]. }
  match goal with |- ?p1 * ?s1 * (?p2 * ?s2) * ?q = _ => replace (p1 * s1 * (p2 * s2) * q) with (p1 * p2 * (s1 * s2) * q) by ring end. rewrite E. unfold overlap_r, ratio_a.
  replace (2 * (g * z1)) with (g * (2 * z1)) by ring. replace (2 * (g * z2)) with (g * (2 * z2)) by ring. replace (g * z1 + g * z2) with (g * (z1 + z2)) by ring. rewrite !Rpow_mult_distr, !pow_add, !pow_1.
  generalize (sqrt (ratio_b n1 z1 n2 z2)) (INR (fact (n1 + n2))). intros x y. field. repeat split; try (apply pow_nonzero; lra); lra.
Qed.
Definition term_r (p : slater * slater) : R := fst (fst (fst p)) * fst (fst (snd p)) * overlap_r (snd (fst (fst p))) (snd (fst p)) (snd (fst (snd p))) (snd (snd p)).
Lemma pair_zero : forall kappa (p : slater * slater), 0 < kappa -> proper (fst p) -> proper (snd p) -> pair_coeff kappa p * pair_value kappa 0 p = term_r p.
Proof.
  intros kappa [[[c1 n1] z1] [[c2 n2] z2]] K P1 P2. destruct P1 as [N1 Z1], P2 as [N2 Z2]. unfold pair_coeff, pair_value, term_r. cbn [fst snd]. fold bohr. rewrite Rmult_0_r.
  rewrite (norm_half kappa n1 c1 z1 K Z1), (norm_half kappa n2 c2 z2 K Z2). unfold zeta_ang.
  assert (G : 0 < kappa / bohr) by (unfold bohr; apply Rdiv_lt_0_compat; lra).
  replace (kappa * z1 / bohr) with (kappa / bohr * z1) by (unfold bohr; field). replace (kappa * z2 / bohr) with (kappa / bohr * z2) by (unfold bohr; field).
  destruct (sc_zero (kappa / bohr * z1 + kappa / bohr * z2)) with (k := (n1 + n2 - 1)%nat) as [A _]; [apply Rplus_lt_0_compat; apply Rmult_lt_0_compat; assumption|]. rewrite A.
  replace (n1 + n2 - 1 + 1)%nat with (n1 + n2)%nat by lia. replace (n1 + n2 - 1 + 2)%nat with (n1 + n2 + 1)%nat by lia. rewrite <- (scale_out (kappa / bohr) n1 z1 n2 z2 G Z1 Z2). ring.
Qed.
Lemma scale_free : forall n1 z1 n2 z2 u, 0 < u -> 0 < z1 -> 0 < z2 -> overlap_r n1 (z1 / u) n2 (z2 / u) = overlap_r n1 z1 n2 z2.
Proof.
  intros n1 z1 n2 z2 u U Z1 Z2. assert (I : 0 < / u) by (apply Rinv_0_lt_compat, U). rewrite <- (scale_out 1 n1 (z1 / u) n2 (z2 / u)) by (try lra; apply Rdiv_lt_0_compat; assumption).
  rewrite <- (scale_out (/ u) n1 z1 n2 z2) by assumption. replace (1 * (z1 / u)) with (/ u * z1) by (unfold Rdiv; ring). replace (1 * (z2 / u)) with (/ u * z2) by (unfold Rdiv; ring). reflexivity.
Qed.
Lemma fact_small : forall n, (1 <= n <= 6)%nat -> (0 < zfact (2 * n) <= 479001600)%Z.
Proof. intros n H. assert (C : n = 1%nat \/ n = 2%nat \/ n = 3%nat \/ n = 4%nat \/ n = 5%nat \/ n = 6%nat) by lia. destruct C as [->|[->|[->|[->|[->| ->]]]]]; vm_compute; (split; [reflexivity|discriminate]). Qed.
Lemma zfact_pos : forall n, (0 < zfact n)%Z.
Proof. intros n. apply lt_IZR. rewrite zfact_ok. apply INR_fact_lt_0. Qed.
Lemma div_bounds : forall a b, (0 < b)%Z -> IZR (a / b) <= IZR a / IZR b < IZR (a / b) + 1.
Proof.
  intros a b B. pose proof (Z.div_mod a b) as E. pose proof (Z.mod_pos_bound a b B) as M. assert (Bp : 0 < IZR b) by (apply IZR_lt; exact B).
  assert (E' : IZR a = IZR b * IZR (a / b) + IZR (a mod b)) by (rewrite <- mult_IZR, <- plus_IZR; f_equal; apply E; lia). destruct M as [M1 M2]. apply IZR_le in M1. apply IZR_lt in M2.
  replace (IZR a / IZR b) with (IZR (a / b) + IZR (a mod b) / IZR b) by (rewrite E'; field; lra). split.
  - assert (0 <= IZR (a mod b) / IZR b) by (apply Rmult_le_pos; [lra|apply Rlt_le, Rinv_0_lt_compat, Bp]). lra.
  - assert (IZR (a mod b) / IZR b < 1) by (apply (Rmult_lt_reg_r (IZR b)); [exact Bp|unfold Rdiv; rewrite Rmult_assoc, Rinv_l, Rmult_1_r, Rmult_1_l by lra; exact M2]). lra.
Qed.
Lemma root_bounds : forall n1 z1 n2 z2, (1 <= n1 <= 6)%nat -> (1 <= n2 <= 6)%nat -> (0 < z1)%Z -> (0 < z2)%Z -> (0 < root_z n1 z1 n2 z2)%Z /\
  IZR (root_z n1 z1 n2 z2) <= 1000000000 * sqrt (ratio_b n1 (IZR z1) n2 (IZR z2)) < IZR (root_z n1 z1 n2 z2) + 1.
Proof.
  intros n1 z1 n2 z2 N1 N2 Z1 Z2. unfold root_z. destruct (fact_small n1 N1) as [A1 A2]. destruct (fact_small n2 N2) as [B1 B2].
  set (D := (zfact (2 * n1) * zfact (2 * n2))%Z) in *. set (P := (4 * z1 * z2 * 10 ^ 18)%Z) in *. assert (Dp : (0 < D)%Z) by (unfold D; apply Z.mul_pos_pos; assumption).
  assert (Q : (1 <= P / D)%Z).
  { apply Z.div_le_lower_bound; [exact Dp|]. unfold P, D. assert (zfact (2 * n1) * zfact (2 * n2) <= 479001600 * 479001600)%Z by (apply Z.mul_le_mono_nonneg; lia). assert (1 <= z1 * z2)%Z by nia. lia. }
  pose proof (div_bounds P D Dp) as [L1 L2]. assert (R : IZR P / IZR D = 1000000000 * 1000000000 * ratio_b n1 (IZR z1) n2 (IZR z2)).
  { unfold P, D, ratio_b. rewrite !mult_IZR, !zfact_ok. change (10 ^ 18)%Z with (1000000000 * 1000000000)%Z. rewrite !mult_IZR. field. split; apply INR_fact_neq_0. }
  rewrite R in *. clear R. assert (Sq : (0 <= P / D)%Z) by lia. pose proof (Z.sqrt_spec (P / D) Sq) as [S1 S2]. pose proof (Z.sqrt_nonneg (P / D)) as S0. set (w := Z.sqrt (P / D)) in *.
  assert (Wp : (0 < w)%Z) by nia. split; [exact Wp|]. set (b := ratio_b n1 (IZR z1) n2 (IZR z2)) in *.
  assert (Bb : 0 <= b) by (unfold b, ratio_b; apply Rmult_le_pos; [apply Rmult_le_pos; [apply Rmult_le_pos; [lra|]|]; apply IZR_le; lia|apply Rlt_le, Rinv_0_lt_compat, Rmult_lt_0_compat; apply INR_fact_lt_0]).
  pose proof (sqrt_sqrt b Bb) as X. pose proof (sqrt_pos b) as Y. apply IZR_le in S1. assert (S3 : (P / D + 1 <= Z.succ w * Z.succ w)%Z) by lia. apply IZR_le in S3. rewrite plus_IZR in S3. rewrite mult_IZR in S1, S3. rewrite succ_IZR in S3.
  assert (W : 0 < IZR w) by (apply IZR_lt; exact Wp). revert L1 L2 S1 S3 W X Y. generalize (IZR (P / D)) (IZR w) (sqrt b). intros q v r L1 L2 S1 S3 W X Y. split.
  - apply Rsqr_incr_0_var; [|lra]. unfold Rsqr. replace (1000000000 * r * (1000000000 * r)) with (1000000000 * 1000000000 * (r * r)) by ring. rewrite X. lra.
  - apply Rsqr_incrst_0; [|lra|lra]. unfold Rsqr. replace (1000000000 * r * (1000000000 * r)) with (1000000000 * 1000000000 * (r * r)) by ring. rewrite X. lra.
Qed.
Lemma overlap_bounds : forall n1 z1 n2 z2, (1 <= n1 <= 6)%nat -> (1 <= n2 <= 6)%nat -> (0 < z1)%Z -> (0 < z2)%Z ->
  let w := root_z n1 z1 n2 z2 in let t := overlap w n1 z1 n2 z2 in
  IZR t <= 1000000000 * overlap_r n1 (IZR z1) n2 (IZR z2) <= IZR (t + (2 + (t + 1) / w)).
Proof.
  intros n1 z1 n2 z2 N1 N2 Z1 Z2 w t. destruct (root_bounds n1 z1 n2 z2 N1 N2 Z1 Z2) as [W [B1 B2]]. fold w in W, B1, B2.
  assert (Sp : (0 < (z1 + z2) ^ Z.of_nat (n1 + n2 + 1))%Z) by (apply Z.pow_pos_nonneg; lia).
  pose proof (div_bounds ((2 * z1) ^ Z.of_nat n1 * (2 * z2) ^ Z.of_nat n2 * (zfact (n1 + n2) * w)) _ Sp) as [T1 T2]. fold (overlap w n1 z1 n2 z2) in T1, T2. fold t in T1, T2.
  assert (Ea : IZR ((2 * z1) ^ Z.of_nat n1 * (2 * z2) ^ Z.of_nat n2 * (zfact (n1 + n2) * w)) / IZR ((z1 + z2) ^ Z.of_nat (n1 + n2 + 1)) = ratio_a n1 (IZR z1) n2 (IZR z2) * IZR w).
  { unfold ratio_a. rewrite !mult_IZR, <- !pow_IZR, !mult_IZR, plus_IZR, zfact_ok. unfold Rdiv. ring. }
  rewrite Ea in T1, T2. unfold overlap_r. set (a := ratio_a n1 (IZR z1) n2 (IZR z2)) in *. set (b := sqrt _) in *.
  assert (Z1' : 0 < IZR z1) by (apply IZR_lt; exact Z1). assert (Z2' : 0 < IZR z2) by (apply IZR_lt; exact Z2).
  assert (Ap : 0 < a).
  { unfold a, ratio_a. apply Rdiv_lt_0_compat; [apply Rmult_lt_0_compat; [apply Rmult_lt_0_compat; apply pow_lt; lra|apply INR_fact_lt_0]|apply pow_lt; lra]. }
  assert (Wr : 0 < IZR w) by (apply IZR_lt; exact W). split.
  - apply Rle_trans with (a * IZR w); [exact T1|]. replace (1000000000 * (a * b)) with (a * (1000000000 * b)) by ring. apply Rmult_le_compat_l; lra.
  - pose proof (div_bounds (t + 1) w W) as [_ D2]. rewrite !plus_IZR in *. assert (U : a <= (IZR t + 1) / IZR w).
    { apply (Rmult_le_reg_r (IZR w)); [exact Wr|]. unfold Rdiv. rewrite Rmult_assoc, Rinv_l, Rmult_1_r by lra. lra. }
    replace (1000000000 * (a * b)) with (a * (1000000000 * b)) by ring. assert (V : a * (1000000000 * b) <= a * (IZR w + 1)) by (apply Rmult_le_compat_l; lra). lra.
Qed.
Lemma term_facts : forall o, term_ok o = true -> let '(_, n, z) := o in (1 <= n <= 6)%nat /\ (0 < z)%Z.
Proof. intros [[c n] z] H. unfold term_ok in H. apply andb_true_iff in H. destruct H as [H H3]. apply andb_true_iff in H. destruct H as [H1 H2]. apply Nat.leb_le in H1, H2. apply Z.ltb_lt in H3. split; [lia|exact H3]. Qed.
(** within 10^-25 times the slack *)
Definition within (x : R) (p : Z * Z) : Prop := Rabs (IZR one_z * x - IZR (fst p)) <= IZR (snd p).
Lemma within_add : forall x y p q, within x p -> within y q -> within (x + y) (add2 p q).
Proof.
  intros x y [p1 p2] [q1 q2] H1 H2. unfold within, add2 in *. cbn [fst snd] in *. rewrite !plus_IZR. replace (IZR one_z * (x + y) - (IZR p1 + IZR q1)) with ((IZR one_z * x - IZR p1) + (IZR one_z * y - IZR q1)) by ring.
  apply Rle_trans with (1 := Rabs_triang _ _). lra.
Qed.
Lemma within_zero : within 0 (0, 0)%Z.
Proof. unfold within. cbn [fst snd]. rewrite Rmult_0_r, Rminus_0_r, Rabs_R0. lra. Qed.
Lemma pair_within : forall a b, term_ok a = true -> term_ok b = true -> within (term_r (slater_of a, slater_of b)) (pair_z a b).
Proof.
  intros [[c1 n1] z1] [[c2 n2] z2] A B. destruct (term_facts _ A) as [N1 Z1]. destruct (term_facts _ B) as [N2 Z2]. pose proof (overlap_bounds n1 z1 n2 z2 N1 N2 Z1 Z2) as H. cbn zeta in H.
  unfold pair_z, within, term_r, slater_of. cbn [fst snd]. rewrite scale_free by (try lra; apply IZR_lt; assumption). set (w := root_z n1 z1 n2 z2) in *. set (t := overlap w n1 z1 n2 z2) in *. set (v := overlap_r n1 (IZR z1) n2 (IZR z2)) in *.
  change one_z with (100000000 * 100000000 * 1000000000)%Z. rewrite !mult_IZR. replace (100000000 * 100000000 * 1000000000 * (IZR c1 / 100000000 * (IZR c2 / 100000000) * v) - IZR c1 * IZR c2 * IZR t) with (IZR c1 * IZR c2 * (1000000000 * v - IZR t)) by field.
  rewrite Rabs_mult, abs_IZR, mult_IZR. apply Rmult_le_compat_l; [apply Rabs_pos|]. rewrite Rabs_pos_eq by lra. rewrite plus_IZR in H. lra.
Qed.
Lemma term_sym : forall a b, term_r (a, b) = term_r (b, a).
Proof.
  intros [[c1 n1] z1] [[c2 n2] z2]. unfold term_r, overlap_r, ratio_a, ratio_b. cbn [fst snd]. rewrite (Nat.add_comm n2 n1), (Rplus_comm z2 z1).
  replace (4 * z2 * z1 / (INR (fact (2 * n2)) * INR (fact (2 * n1)))) with (4 * z1 * z2 / (INR (fact (2 * n1)) * INR (fact (2 * n2)))) by (field; split; apply INR_fact_neq_0). unfold Rdiv. ring.
Qed.
Lemma sum_square : forall (f : slater * slater -> R) a l, (forall x y, f (x, y) = f (y, x)) ->
  sum (map f (list_prod (a :: l) (a :: l))) = f (a, a) + (sum (map (fun y => f (a, y)) l) + sum (map (fun y => f (a, y)) l)) + sum (map f (list_prod l l)).
Proof.
  intros f a l S. cbn [list_prod]. rewrite map_app, sum_app, map_map. cbn [map]. rewrite sum_cons.
  assert (E : sum (map f (list_prod l (a :: l))) = sum (map (fun y => f (a, y)) l) + sum (map f (list_prod l l))).
  { assert (G : forall m, sum (map f (list_prod l (a :: m))) = sum (map (fun y => f (a, y)) l) + sum (map f (list_prod l m))); [|apply G]. intros m. induction l as [|x l IH]; [cbn; ring|]. cbn [list_prod map]. rewrite !map_app, !sum_app. cbn [map]. rewrite !sum_cons, !map_map, IH, (S x a). ring. }
  rewrite E. ring.
Qed.
Lemma row_within : forall a l, term_ok a = true -> forallb term_ok l = true -> within (sum (map (fun y => term_r (slater_of a, y)) (map slater_of l))) (row_z a l).
Proof.
  intros a l A. unfold row_z. induction l as [|b l IH]; intros H; [apply within_zero|]. cbn [forallb] in H. apply andb_true_iff in H. destruct H as [H1 H2]. cbn [map fold_right]. rewrite sum_cons. apply within_add; [apply pair_within; assumption|apply IH, H2].
Qed.
Lemma norm_within : forall l, forallb term_ok l = true -> within (sum (map term_r (list_prod (map slater_of l) (map slater_of l)))) (norm_z l).
Proof.
  induction l as [|a l IH]; intros H; [apply within_zero|]. cbn [forallb] in H. apply andb_true_iff in H. destruct H as [H1 H2]. cbn [map norm_z]. rewrite sum_square by exact term_sym.
  apply within_add; [apply within_add; [apply pair_within; assumption|apply within_add; apply row_within; assumption]|apply IH, H2].
Qed.
Lemma terms_proper : forall l, forallb term_ok l = true -> List.Forall proper (map slater_of l).
Proof.
  induction l as [|a l IH]; intros H; [constructor|]. cbn [forallb] in H. apply andb_true_iff in H. destruct H as [H1 H2]. constructor; [|apply IH, H2]. destruct a as [[c n] z]. destruct (term_facts _ H1) as [N Z1]. unfold slater_of, proper. split; [lia|].
  apply Rdiv_lt_0_compat; [apply IZR_lt, Z1|lra].
Qed.
Lemma jl_forward : forall l kappa l_max, forallb term_ok l = true -> 0 < kappa -> exists j rest, calc_jl 0 (map slater_of l) kappa l_max = Some (j :: rest) /\ within j (norm_z l).
Proof.
  intros l kappa l_max H K. pose proof (terms_proper l H) as F. destruct (jl_head (map slater_of l) kappa 0 l_max F K) as [rest [E _]]. eexists. exists rest. split; [exact E|].
  replace (sum _) with (sum (map term_r (list_prod (map slater_of l) (map slater_of l)))); [apply norm_within, H|]. f_equal. apply map_ext_in. intros p I. destruct (in_prod_proper _ p F I) as [P1 P2]. symmetry. apply pair_zero; assumption.
Qed.
