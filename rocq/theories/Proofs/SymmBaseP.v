(** Basic facts about operations modulo lattice translations; translation sums (C12, C13). *)
From Coq Require Import Reals ZArith List Lra Lia Bool Znumtheory.
From Verif Require Import Spec.Lin3 Spec.Symm Model.Symmetry.
Import ListNotations.
Open Scope R_scope.

Lemma sp_refl : forall x, same_point x x.
Proof. intros x i. exists 0%Z. ring. Qed.
Lemma sp_sym : forall x y, same_point x y -> same_point y x.
Proof. intros x y H i. destruct (H i) as [n E]. exists (- n)%Z. rewrite E, opp_IZR. ring. Qed.
Lemma sp_trans : forall x y z, same_point x y -> same_point y z -> same_point x z.
Proof. intros x y z H1 H2 i. destruct (H1 i) as [n E], (H2 i) as [m F]. exists (m + n)%Z. rewrite E, F, plus_IZR. ring. Qed.
Lemma sp_ext : forall x y, (forall i, x i = y i) -> same_point x y.
Proof. intros x y H i. exists 0%Z. rewrite H. ring. Qed.
Lemma act_sp : forall e x y, same_point x y -> same_point (act e x) (act e y).
Proof.
  intros e x y H i. destruct (H X1) as [n1 E1], (H X2) as [n2 E2], (H X3) as [n3 E3].
  exists (mget (e_r e) i X1 * n1 + mget (e_r e) i X2 * n2 + mget (e_r e) i X3 * n3)%Z.
  unfold act, sum3. rewrite E1, E2, E3, !plus_IZR, !mult_IZR. ring.
Qed.

(** Integer / real bridges. *)
Lemma frac_int : forall a d : Z, (0 < d)%Z -> (exists n : Z, IZR a / IZR d = IZR n) <-> (a mod d = 0)%Z.
Proof.
  intros a d Hd. assert (Hr : IZR d <> 0) by (apply not_0_IZR; lia). split.
  - intros [n E]. apply Z.mod_divide; [lia|]. exists n. apply eq_IZR. rewrite mult_IZR, <- E. field. exact Hr.
  - intros E. apply Z.mod_divide in E; [|lia]. destruct E as [n E]. exists n. rewrite E, mult_IZR. field. exact Hr.
Qed.
Lemma frac_eqmod : forall a b d : Z, (0 < d)%Z -> (a mod d = b mod d)%Z -> exists n : Z, IZR a / IZR d = IZR b / IZR d + IZR n.
Proof.
  intros a b d Hd E. assert (Hr : IZR d <> 0) by (apply not_0_IZR; lia).
  exists (a / d - b / d)%Z.
  pose proof (Z.div_mod a d ltac:(lia)) as A. pose proof (Z.div_mod b d ltac:(lia)) as B.
  assert (E2 : (a = b + d * (a / d - b / d))%Z) by lia.
  apply (f_equal IZR) in E2. rewrite plus_IZR, mult_IZR in E2. rewrite E2. field. exact Hr.
Qed.
Lemma frac_scale : forall a d c : Z, (c <> 0)%Z -> (d <> 0)%Z -> IZR a / IZR d = IZR (a * c) / IZR (d * c).
Proof. intros a d c Hc Hd. rewrite !mult_IZR. field. split; apply not_0_IZR; assumption. Qed.
Lemma frac_div : forall a d g : Z, (g <> 0)%Z -> (d <> 0)%Z -> (g | a)%Z -> (g | d)%Z ->
  IZR (a / g) / IZR (d / g) = IZR a / IZR d.
Proof.
  intros a d g Hg Hd [x ->] [y ->]. rewrite !Z.div_mul by assumption. rewrite !mult_IZR.
  assert (y <> 0)%Z by (intros ->; apply Hd; ring). field. split; apply not_0_IZR; assumption.
Qed.

(** * C12 sum_b_elems *)
Lemma vget_mkV : forall A (a b c : A) i, vget (mkV a b c) i = match i with X1 => a | X2 => b | X3 => c end.
Proof. intros. destruct i; reflexivity. Qed.
Lemma sum_b_comp : forall b1 d1 b2 d2, (0 < d1)%Z -> (0 < d2)%Z ->
  let L := Z.lcm d1 d2 in
  exists g, (0 < g)%Z /\ (g | L)%Z /\ snd (sum_b_elems b1 d1 b2 d2) = (L / g)%Z /\
   (forall i, vget (fst (sum_b_elems b1 d1 b2 d2)) i = ((vget b1 i * (L / d1) + vget b2 i * (L / d2)) mod L / g)%Z) /\
   (forall i, (g | (vget b1 i * (L / d1) + vget b2 i * (L / d2)) mod L)%Z) /\
   (forall k, (forall i, (k | (vget b1 i * (L / d1) + vget b2 i * (L / d2)) mod L)%Z) -> (k | L)%Z -> (k | g)%Z).
Proof.
  intros b1 d1 b2 d2 H1 H2 L.
  assert (HL : (0 < L)%Z).
  { unfold L. pose proof (Z.lcm_nonneg d1 d2). assert (Z.lcm d1 d2 <> 0)%Z by (rewrite Z.lcm_eq_0; lia). lia. }
  unfold sum_b_elems. cbv zeta. fold L.
  set (x := ((v_1 b1 * (L / d1) + v_1 b2 * (L / d2)) mod L)%Z).
  set (y := ((v_2 b1 * (L / d1) + v_2 b2 * (L / d2)) mod L)%Z).
  set (z := ((v_3 b1 * (L / d1) + v_3 b2 * (L / d2)) mod L)%Z).
  set (g := Z.gcd (Z.gcd (Z.gcd x y) z) L).
  pose proof (Z.gcd_divide_l (Z.gcd (Z.gcd x y) z) L) as D1. fold g in D1.
  pose proof (Z.gcd_divide_r (Z.gcd (Z.gcd x y) z) L) as D2. fold g in D2.
  assert (Dz : (g | z)%Z) by (eapply Z.divide_trans; [exact D1 | apply Z.gcd_divide_r]).
  assert (Dxy : (g | Z.gcd x y)%Z) by (eapply Z.divide_trans; [exact D1 | apply Z.gcd_divide_l]).
  assert (Dx : (g | x)%Z) by (eapply Z.divide_trans; [exact Dxy | apply Z.gcd_divide_l]).
  assert (Dy : (g | y)%Z) by (eapply Z.divide_trans; [exact Dxy | apply Z.gcd_divide_r]).
  exists g. cbn [fst snd]. split.
  { assert (0 <= g)%Z by apply Z.gcd_nonneg. assert (g <> 0)%Z; [|lia]. intros E. rewrite E in D2. destruct D2 as [q E2]. lia. }
  split; [exact D2|]. split; [reflexivity|]. split; [intros []; reflexivity|]. split.
  - intros []; assumption.
  - intros k Hk HkL. apply Z.gcd_greatest; [apply Z.gcd_greatest; [apply Z.gcd_greatest|]|]; try assumption.
    + apply (Hk X1). + apply (Hk X2). + apply (Hk X3).
Qed.
Lemma lcm_pos : forall a b, (0 < a)%Z -> (0 < b)%Z -> (0 < Z.lcm a b)%Z.
Proof. intros a b Ha Hb. pose proof (Z.lcm_nonneg a b). assert (Z.lcm a b <> 0)%Z by (rewrite Z.lcm_eq_0; lia). lia. Qed.

Lemma sum_b_value : forall b1 d1 b2 d2, (0 < d1)%Z -> (0 < d2)%Z ->
  same_point (frac (fst (sum_b_elems b1 d1 b2 d2)) (snd (sum_b_elems b1 d1 b2 d2)))
             (fun i => frac b1 d1 i + frac b2 d2 i).
Proof.
  intros b1 d1 b2 d2 H1 H2 i.
  destruct (sum_b_comp b1 d1 b2 d2 H1 H2) as (g & Hg & Dg & Ed & Eb & Db & _). cbv zeta in *.
  pose proof (lcm_pos d1 d2 H1 H2) as HL. unfold frac. rewrite Ed, Eb.
  rewrite frac_div; [|lia|lia|apply Db|exact Dg].
  destruct (frac_eqmod ((vget b1 i * (Z.lcm d1 d2 / d1) + vget b2 i * (Z.lcm d1 d2 / d2)) mod Z.lcm d1 d2)
     (vget b1 i * (Z.lcm d1 d2 / d1) + vget b2 i * (Z.lcm d1 d2 / d2)) (Z.lcm d1 d2) HL) as [n En].
  { apply Z.mod_mod. lia. }
  exists n. rewrite En. f_equal.
  destruct (Z.divide_lcm_l d1 d2) as [q1 E1]. destruct (Z.divide_lcm_r d1 d2) as [q2 E2].
  assert (Q1 : (Z.lcm d1 d2 / d1 = q1)%Z) by (rewrite E1; apply Z.div_mul; lia).
  assert (Q2 : (Z.lcm d1 d2 / d2 = q2)%Z) by (rewrite E2; apply Z.div_mul; lia).
  rewrite Q1, Q2, plus_IZR, !mult_IZR.
  assert (R1 : IZR (Z.lcm d1 d2) = IZR q1 * IZR d1) by (rewrite <- mult_IZR; f_equal; exact E1).
  assert (R2 : IZR (Z.lcm d1 d2) = IZR q2 * IZR d2) by (rewrite <- mult_IZR; f_equal; exact E2).
  assert (N1 : IZR d1 <> 0) by (apply not_0_IZR; lia). assert (N2 : IZR d2 <> 0) by (apply not_0_IZR; lia).
  assert (NL : IZR (Z.lcm d1 d2) <> 0) by (apply not_0_IZR; lia).
  apply Rmult_eq_reg_r with (IZR (Z.lcm d1 d2)); [|exact NL].
  transitivity (IZR (vget b1 i) * IZR q1 + IZR (vget b2 i) * IZR q2).
  { field. exact NL. }
  rewrite Rmult_plus_distr_r. rewrite R1 at 1. rewrite R2. field. split; assumption.
Qed.
Lemma sum_b_reduced : forall b1 d1 b2 d2, (0 < d1)%Z -> (0 < d2)%Z ->
  let r := sum_b_elems b1 d1 b2 d2 in
  (0 < snd r)%Z /\ (forall i, 0 <= vget (fst r) i < snd r)%Z /\
  (forall k, (0 < k)%Z -> (k | snd r)%Z -> (forall i, (k | vget (fst r) i)%Z) -> k = 1%Z).
Proof.
  intros b1 d1 b2 d2 H1 H2. cbv zeta.
  destruct (sum_b_comp b1 d1 b2 d2 H1 H2) as (g & Hg & Dg & Ed & Eb & Db & Gr). cbv zeta in *.
  pose proof (lcm_pos d1 d2 H1 H2) as HL.
  destruct Dg as [q Eq]. assert (Hq : (Z.lcm d1 d2 / g = q)%Z) by (rewrite Eq; apply Z.div_mul; lia).
  assert (Hqp : (0 < q)%Z) by nia.
  rewrite Ed, Hq. split; [exact Hqp|]. split.
  - intros i. rewrite Eb. destruct (Db i) as [m Em]. rewrite Em, Z.div_mul by lia.
    pose proof (Z.mod_pos_bound (vget b1 i * (Z.lcm d1 d2 / d1) + vget b2 i * (Z.lcm d1 d2 / d2)) (Z.lcm d1 d2) HL). nia.
  - intros k Hk Dk Dn.
    assert (D : (k * g | g)%Z).
    { apply Gr.
      - intros i. specialize (Dn i). rewrite Eb in Dn. destruct (Db i) as [m Em]. rewrite Em in *.
        rewrite Z.div_mul in Dn by lia. apply Z.mul_divide_mono_r. exact Dn.
      - rewrite Eq. apply Z.mul_divide_mono_r. exact Dk. }
    destruct D as [t Et]. assert (E1 : (t * k * g = 1 * g)%Z) by lia. apply Z.mul_cancel_r in E1; [|lia].
    assert (Dk1 : (k | 1)%Z) by (exists t; lia). apply Z.divide_1_r in Dk1. lia.
Qed.

(** * C13 sum_elem_symm_b *)
Lemma sum_elem_ok : forall b1 d1 b2 d2, (0 < d1)%Z -> (0 < d2)%Z ->
  (forall i j, (Z.gcd (vget b1 i * d2 + vget b2 i * d1) (d1 * d2) | Z.gcd (vget b1 j * d2 + vget b2 j * d1) (d1 * d2))%Z \/
               (Z.gcd (vget b1 j * d2 + vget b2 j * d1) (d1 * d2) | Z.gcd (vget b1 i * d2 + vget b2 i * d1) (d1 * d2))%Z) ->
  let r := sum_elem_symm_b b1 d1 b2 d2 in
  (0 < snd r)%Z /\ forall i, frac (fst r) (snd r) i = frac b1 d1 i + frac b2 d2 i.
Proof.
  intros b1 d1 b2 d2 H1 H2 Hch. cbv zeta. unfold sum_elem_symm_b. cbn [fst snd v_1 v_2 v_3].
  set (den := (d1 * d2)%Z). assert (Hden : (0 < den)%Z) by (unfold den; nia).
  set (N := fun i => (vget b1 i * d2 + vget b2 i * d1)%Z).
  set (G := fun i => Z.gcd (N i) den).
  change (v_1 b1 * d2 + v_1 b2 * d1)%Z with (N X1). change (v_2 b1 * d2 + v_2 b2 * d1)%Z with (N X2).
  change (v_3 b1 * d2 + v_3 b2 * d1)%Z with (N X3).
  change (Z.gcd (N X1) den) with (G X1). change (Z.gcd (N X2) den) with (G X2). change (Z.gcd (N X3) den) with (G X3).
  assert (Gp : forall i, (0 < G i)%Z).
  { intros i. assert (0 <= G i)%Z by apply Z.gcd_nonneg. assert (G i <> 0)%Z; [|lia].
    intros E. apply Z.gcd_eq_0 in E. lia. }
  assert (Hch' : forall i j, (G i <= G j)%Z -> (G i | G j)%Z).
  { intros i j Hle. destruct (Hch i j) as [D|D]; [exact D|]. fold (N i) (N j) den in D. fold (G i) (G j) in D.
    assert (G j <= G i)%Z by (apply Z.divide_pos_le; [apply Gp|exact D]).
    replace (G i) with (G j) by lia. apply Z.divide_refl. }
  set (g := Z.min (Z.min (G X1) (G X2)) (G X3)).
  assert (Hmin : exists k, g = G k /\ forall i, (g <= G i)%Z).
  { unfold g. destruct (Z.min_spec (Z.min (G X1) (G X2)) (G X3)) as [[? E]|[? E]]; rewrite E;
    destruct (Z.min_spec (G X1) (G X2)) as [[? E']|[? E']]; rewrite ?E' in *;
    [exists X1|exists X2|exists X3|exists X3]; split; try reflexivity; intros []; lia. }
  destruct Hmin as (k & Ek & Hle).
  assert (Hg : (0 < g)%Z) by (rewrite Ek; apply Gp).
  assert (Dall : forall i, (g | G i)%Z) by (intros i; rewrite Ek; apply Hch'; rewrite <- Ek; apply Hle).
  assert (Dn : forall i, (g | N i)%Z) by (intros i; eapply Z.divide_trans; [apply Dall | apply Z.gcd_divide_l]).
  assert (Dd : (g | den)%Z) by (eapply Z.divide_trans; [apply (Dall X1) | apply Z.gcd_divide_r]).
  split.
  { destruct Dd as [q E]. rewrite E, Z.div_mul by lia. nia. }
  intros i. unfold frac.
  replace (vget (mkV (N X1 / g)%Z (N X2 / g)%Z (N X3 / g)%Z) i) with (N i / g)%Z by (destruct i; reflexivity).
  rewrite frac_div; [|lia|lia|apply Dn|exact Dd].
  unfold N, den. rewrite plus_IZR, !mult_IZR. field. split; apply not_0_IZR; lia.
Qed.
Lemma sum_elem_refuted : exists b1 d1 b2 d2, (0 < d1)%Z /\ (0 < d2)%Z /\
  let r := sum_elem_symm_b b1 d1 b2 d2 in ~ same_point (frac (fst r) (snd r)) (fun i => frac b1 d1 i + frac b2 d2 i).
Proof.
  exists (mkV 1 0 0)%Z, 2%Z, (mkV 0 1 0)%Z, 3%Z. split; [lia|]. split; [lia|]. cbv zeta.
  replace (sum_elem_symm_b (mkV 1 0 0)%Z 2 (mkV 0 1 0)%Z 3) with (mkV 1 1 0, 3)%Z by reflexivity.
  intros H. destruct (H X1) as [n E]. unfold frac in E. cbn in E.
  assert (E2 : IZR (6 * n) = IZR (-1)) by (rewrite mult_IZR; lra).
  apply eq_IZR in E2. lia.
Qed.
