(** Maps of a density over the cell: images of a grid index, sorted unique lists, the last assignment (C102). *)
From Coq Require Import Reals ZArith List Lra Lia Bool Sorted.
From Verif Require Import Spec.Lin3 Spec.Symm Spec.DensityMap Model.MatrixOps Model.Symmetry Model.DensityMaps Proofs.SymmBaseP Proofs.SymmGridP.
Import ListNotations.
Open Scope list_scope.
Open Scope Z_scope.

(** ** images *)
Definition raw_s (e : Op) (s : V3 Z * Z) (p n : V3 Z) (i : ix) : Z := raw e p n i + vget (fst s) i * (vget n i / snd s).
Lemma comp_div : forall D d ni sd b s r1 r2 r3 p1 p2 p3 n1 n2 n3 : Z, 0 < D -> 0 < d -> 0 < n1 -> 0 < n2 -> 0 < n3 -> 0 < ni -> 0 < sd ->
  (n1 | D) -> (n2 | D) -> (n3 | D) -> (ni | D) -> (d | ni) -> (sd | ni) -> (r1 <> 0 -> ni = n1) -> (r2 <> 0 -> ni = n2) -> (r3 <> 0 -> ni = n3) ->
  ((r1 * (p1 * D / n1) + r2 * (p2 * D / n2) + r3 * (p3 * D / n3)) * d + b * D + s * (d * D) / sd) * ni / (d * D)
  = r1 * p1 + r2 * p2 + r3 * p3 + b * (ni / d) + s * (ni / sd).
Proof.
  intros D d ni sd b s r1 r2 r3 p1 p2 p3 n1 n2 n3 HD Hd H1 H2 H3 Hi Hs [k1 D1] [k2 D2] [k3 D3] [ki Di] [q Q] [t T] R1 R2 R3.
  rewrite D1 at 1. rewrite D2 at 1. rewrite D3 at 1. rewrite !Z.mul_assoc, !Z.div_mul by lia.
  replace (ni / d) with q by (rewrite Q, Z.div_mul; lia). replace (ni / sd) with t by (rewrite T, Z.div_mul; lia).
  assert (S : s * d * D / sd = s * d * (ki * t)).
  { rewrite Di, T. replace (s * d * (ki * (t * sd))) with (s * d * (ki * t) * sd) by ring. apply Z.div_mul; lia. }
  rewrite S.
  assert (E1 : r1 * k1 * ni = r1 * D). { destruct (Z.eq_dec r1 0) as [->|N]; [ring|]. rewrite (R1 N), D1. ring. }
  assert (E2 : r2 * k2 * ni = r2 * D). { destruct (Z.eq_dec r2 0) as [->|N]; [ring|]. rewrite (R2 N), D2. ring. }
  assert (E3 : r3 * k3 * ni = r3 * D). { destruct (Z.eq_dec r3 0) as [->|N]; [ring|]. rewrite (R3 N), D3. ring. }
  assert (E4 : ki * t * ni = D * t) by (rewrite Di; ring).
  replace (((r1 * (p1 * k1) + r2 * (p2 * k2) + r3 * (p3 * k3)) * d + b * D + s * d * (ki * t)) * ni)
    with ((p1 * (r1 * k1 * ni) + p2 * (r2 * k2 * ni) + p3 * (r3 * k3 * ni)) * d + b * D * ni + s * d * (ki * t * ni)) by ring.
  rewrite E1, E2, E3, E4.
  replace ((p1 * (r1 * D) + p2 * (r2 * D) + p3 * (r3 * D)) * d + b * D * ni + s * d * (D * t))
    with ((r1 * p1 + r2 * p2 + r3 * p3 + b * q + s * t) * (d * D)) by (rewrite Q; ring).
  rewrite Z.div_mul by nia. ring.
Qed.
Lemma p1_get : forall n e s p i, grid_pos n -> grid_compatible n e -> shift_compatible n s ->
  vget (p1_index n e s p) i = raw_s e s p n i mod vget n i.
Proof.
  intros n e s p i Hn (Hd & Hdiv & Hmix) (Hs & Hsd).
  pose proof (Hn X1) as N1. pose proof (Hn X2) as N2. pose proof (Hn X3) as N3.
  set (D := Z.lcm (Z.lcm (v_1 n) (v_2 n)) (v_3 n)).
  assert (HD : 0 < D) by (apply lcm_pos; [apply lcm_pos; assumption|assumption]).
  assert (D1 : (v_1 n | D)) by (eapply Z.divide_trans; [apply Z.divide_lcm_l|apply Z.divide_lcm_l]).
  assert (D2 : (v_2 n | D)) by (eapply Z.divide_trans; [apply Z.divide_lcm_r|apply Z.divide_lcm_l]).
  assert (D3 : (v_3 n | D)) by apply Z.divide_lcm_r.
  pose proof (Hdiv i) as Hdi. pose proof (Hsd i) as Hsi. pose proof (fun j => Hmix i j) as Hm.
  unfold p1_index, raw_s, raw. fold D. cbv zeta. destruct e as [[b1 b2 b3] d [r11 r12 r13 r21 r22 r23 r31 r32 r33]], p as [p1 p2 p3], s as [[s1 s2 s3] sd], n as [n1 n2 n3].
  cbn [e_b e_d e_r fst snd v_1 v_2 v_3] in *.
  destruct i; unfold z_m_v; cbn [vget v_1 v_2 v_3 mget m_11 m_12 m_13 m_21 m_22 m_23 m_31 m_32 m_33] in *; f_equal;
    apply comp_div; auto;
    first [exact (Hm X1)|exact (Hm X2)|exact (Hm X3)|idtac].
Qed.
Lemma p1_exact : forall n e s p, grid_pos n -> grid_compatible n e -> shift_compatible n s ->
  in_grid n (p1_index n e s p) /\
  same_point (grid_fract n (p1_index n e s p)) (fun i => act e (grid_fract n p) i + frac (fst s) (snd s) i)%R.
Proof.
  intros n e s p Hn He Hs. split.
  - intros i. rewrite p1_get by assumption. apply Z.mod_pos_bound, Hn.
  - intros i. unfold grid_fract at 1. rewrite p1_get by assumption.
    pose proof (apply_exact e p n Hn He i) as [k1 E1]. unfold grid_fract at 1 in E1. rewrite apply_get in E1.
    destruct (frac_eqmod (raw_s e s p n i mod vget n i) (raw_s e s p n i) (vget n i) (Hn i)) as [k2 E2]. { apply Z.mod_mod. specialize (Hn i). lia. }
    destruct (frac_eqmod (raw e p n i mod vget n i) (raw e p n i) (vget n i) (Hn i)) as [k3 E3]. { apply Z.mod_mod. specialize (Hn i). lia. }
    exists (k2 - k3 + k1). rewrite E2. unfold raw_s. rewrite plus_IZR, plus_IZR, minus_IZR.
    assert (A : act e (grid_fract n p) i = (IZR (raw e p n i) / IZR (vget n i) + IZR k3 - IZR k1)%R) by (rewrite E3 in E1; lra). rewrite A.
    unfold frac. destruct Hs as (Hs & Hd). destruct (Hd i) as [t T]. rewrite T at 1. rewrite Z.div_mul by lia.
    specialize (Hn i). assert (t <> 0) by (intros ->; lia).
    rewrite mult_IZR. replace (IZR (vget n i)) with (IZR t * IZR (snd s))%R by (rewrite <- mult_IZR; f_equal; lia).
    field. split; apply not_0_IZR; lia.
Qed.
Lemma inverted_exact : forall n p, grid_pos n -> in_grid n (p1_inverted n p) /\ same_point (grid_fract n (p1_inverted n p)) (fun i => - grid_fract n p i)%R.
Proof.
  intros n p Hn.
  assert (G : forall i, vget (p1_inverted n p) i = (-1 * vget p i) mod vget n i) by (intros []; reflexivity).
  split.
  - intros i. rewrite G. apply Z.mod_pos_bound, Hn.
  - intros i. unfold grid_fract. rewrite G. destruct (frac_eqmod ((-1 * vget p i) mod vget n i) (-1 * vget p i) (vget n i) (Hn i)) as [k E].
    { apply Z.mod_mod. specialize (Hn i). lia. }
    exists k. rewrite E. rewrite mult_IZR. specialize (Hn i). field. apply not_0_IZR. lia.
Qed.
Lemma neg_sp : forall x y : ix -> R, same_point x y -> same_point (fun i => - x i)%R (fun i => - y i)%R.
Proof. intros x y H i. destruct (H i) as [k E]. exists (- k). rewrite E, opp_IZR. ring. Qed.
Lemma images_related : forall n elems shift (centro : bool) p q, grid_pos n -> (forall e, In e elems -> grid_compatible n e) ->
  (forall s, In s shift -> shift_compatible n s) ->
  let direct := flat_map (fun e => map (fun s => p1_index n e s p) shift) elems in
  In q (if centro then direct ++ map (p1_inverted n) direct else direct) <-> in_grid n q /\ related n elems shift centro p q.
Proof.
  intros n elems shift centro p q Hn He Hs direct.
  assert (ID : forall x, In x direct <-> exists e s, In e elems /\ In s shift /\ x = p1_index n e s p).
  { intros x. unfold direct. rewrite in_flat_map. split.
    - intros (e & Ie & H). apply in_map_iff in H. destruct H as (s & <- & Is). eauto.
    - intros (e & s & Ie & Is & ->). exists e. split; [exact Ie|]. apply in_map_iff. eauto. }
  assert (P : forall e s x, In e elems -> In s shift -> in_grid n x ->
    (x = p1_index n e s p <-> same_point (fun i => 1 * (act e (grid_fract n p) i + frac (fst s) (snd s) i))%R (grid_fract n x))).
  { intros e s x Ie Is Gx. destruct (p1_exact n e s p Hn (He e Ie) (Hs s Is)) as (G & E). split.
    - intros ->. apply sp_sym. eapply sp_trans; [exact E|]. apply sp_ext. intros i. ring.
    - intros H. apply (grid_same n); try assumption. apply sp_sym. eapply sp_trans; [exact E|]. eapply sp_trans; [|exact H]. apply sp_ext. intros i. ring. }
  assert (M : forall e s x, In e elems -> In s shift -> in_grid n x ->
    (x = p1_inverted n (p1_index n e s p) <-> same_point (fun i => -1 * (act e (grid_fract n p) i + frac (fst s) (snd s) i))%R (grid_fract n x))).
  { intros e s x Ie Is Gx. destruct (p1_exact n e s p Hn (He e Ie) (Hs s Is)) as (G & E). destruct (inverted_exact n (p1_index n e s p) Hn) as (G2 & E2).
    assert (E3 : same_point (grid_fract n (p1_inverted n (p1_index n e s p))) (fun i => -1 * (act e (grid_fract n p) i + frac (fst s) (snd s) i))%R).
    { eapply sp_trans; [exact E2|]. eapply sp_trans; [apply neg_sp, E|]. apply sp_ext. intros i. ring. }
    split.
    - intros ->. apply sp_sym, E3.
    - intros H. apply (grid_same n); try assumption. apply sp_sym. eapply sp_trans; [exact E3|exact H]. }
  assert (GD : forall x, In x direct -> in_grid n x).
  { intros x H. apply ID in H. destruct H as (e & s & Ie & Is & ->). apply p1_exact; auto. }
  split.
  - intros H.
    assert (C : (In q direct) \/ (centro = true /\ In q (map (p1_inverted n) direct))).
    { destruct centro; [|left; exact H]. apply in_app_iff in H. tauto. }
    destruct C as [C|[C1 C]].
    + split; [apply GD, C|]. apply ID in C as Q. destruct Q as (e & s & Ie & Is & Q). exists e, s, 1%R. split; [exact Ie|]. split; [exact Is|].
      split; [left; reflexivity|]. apply P; auto.
    + apply in_map_iff in C. destruct C as (x & <- & C). apply ID in C. destruct C as (e & s & Ie & Is & ->).
      assert (G : in_grid n (p1_inverted n (p1_index n e s p))) by (apply inverted_exact; assumption).
      split; [exact G|]. exists e, s, (-1)%R. split; [exact Ie|]. split; [exact Is|]. split; [right; auto|]. apply M; auto.
  - intros (G & e & s & sign & Ie & Is & [->|[-> ->]] & H).
    + assert (In q direct) by (apply ID; exists e, s; split; [|split]; auto; apply P; auto).
      destruct centro; [apply in_app_iff; left|]; assumption.
    + apply in_app_iff. right. apply in_map_iff. exists (p1_index n e s p). split; [symmetry; apply M; auto|]. apply ID. eauto.
Qed.
