(** Site-symmetry constraints are projections (C22, C23, C24). *)
From Coq Require Import Reals ZArith List Lra Lia Bool Permutation.
From Verif Require Import Spec.Lin3 Spec.Symm Spec.Cell Model.MatrixOps Model.UnitCell Model.Symmetry Model.Constraints
  Proofs.MatrixOpsP Proofs.UnitCellP Proofs.SymmBaseP Proofs.SymmGroupP Proofs.SymmExP.
Import ListNotations.
Open Scope R_scope.

(** * sums *)
Lemma nsum_ext : forall {A} (f g : A -> R) l, (forall a, In a l -> f a = g a) -> nsum f l = nsum g l.
Proof.
  intros A f g l. induction l as [|a l IH]; intros H; simpl; [reflexivity|].
  rewrite (H a) by (left; reflexivity). rewrite IH by (intros; apply H; right; assumption). reflexivity.
Qed.
Lemma nsum_plus : forall {A} (f g : A -> R) l, nsum (fun a => f a + g a) l = nsum f l + nsum g l.
Proof. intros A f g l. induction l as [|a l IH]; simpl; [ring|rewrite IH; ring]. Qed.
Lemma nsum_scal : forall {A} c (f : A -> R) l, nsum (fun a => c * f a) l = c * nsum f l.
Proof. intros A c f l. induction l as [|a l IH]; simpl; [ring|rewrite IH; ring]. Qed.
Lemma nsum_const : forall {A} c (l : list A), nsum (fun _ => c) l = size l * c.
Proof.
  intros A c l. unfold size. induction l as [|a l IH]; [simpl; ring|].
  change (nsum (fun _ : A => c) (a :: l)) with (c + nsum (fun _ : A => c) l). cbn [length]. rewrite IH, S_INR. ring.
Qed.
Lemma nsum_perm : forall {A} (f : A -> R) l l', Permutation l l' -> nsum f l = nsum f l'.
Proof. intros A f l l' P. induction P; simpl; lra. Qed.
Lemma nsum_map : forall {A B} (f : B -> R) (g : A -> B) l, nsum f (map g l) = nsum (fun a => f (g a)) l.
Proof. intros A B f g l. induction l as [|a l IH]; simpl; [reflexivity|rewrite IH; reflexivity]. Qed.
Lemma size_map : forall {A B} (g : A -> B) l, size (map g l) = size l.
Proof. intros. unfold size. rewrite map_length. reflexivity. Qed.
Lemma size_pos : forall {A} (a : A) l, In a l -> 0 < size l.
Proof. intros A a l H. unfold size. apply lt_0_INR. destruct l; [contradiction|simpl; lia]. Qed.

(** * integer matrices *)
Lemma m3_ext : forall (a b : M3 Z), (forall i j, mget a i j = mget b i j) -> a = b.
Proof.
  intros [a11 a12 a13 a21 a22 a23 a31 a32 a33] [b11 b12 b13 b21 b22 b23 b31 b32 b33] H.
  pose proof (H X1 X1). pose proof (H X1 X2). pose proof (H X1 X3). pose proof (H X2 X1). pose proof (H X2 X2).
  pose proof (H X2 X3). pose proof (H X3 X1). pose proof (H X3 X2). pose proof (H X3 X3). cbn in *. congruence.
Qed.
Definition gmul (a b : M3 Z * Z) : M3 Z * Z := (z_m1_m2 (fst a) (fst b), (snd a * snd b)%Z).
Lemma z_m1_m2_get : forall a b i j, mget (z_m1_m2 a b) i j = (mget a i X1 * mget b X1 j + mget a i X2 * mget b X2 j + mget a i X3 * mget b X3 j)%Z.
Proof. intros [a11 a12 a13 a21 a22 a23 a31 a32 a33] [b11 b12 b13 b21 b22 b23 b31 b32 b33] [] []; reflexivity. Qed.
Lemma rot_mul_iff : forall c a b, rot_mul c a b <-> c = gmul a b.
Proof.
  intros [c tc] [a ta] [b tb]. unfold rot_mul, gmul. cbn [fst snd]. split.
  - intros [H ->]. f_equal. apply m3_ext. intros i j. rewrite H, z_m1_m2_get. reflexivity.
  - intros E. inversion E. split; [|reflexivity]. intros. apply z_m1_m2_get.
Qed.
Lemma gmul_assoc : forall a b c, gmul a (gmul b c) = gmul (gmul a b) c.
Proof.
  intros [a ta] [b tb] [c tc]. unfold gmul. cbn [fst snd]. f_equal; [|ring].
  apply m3_ext. intros i j. rewrite !z_m1_m2_get. ring.
Qed.
Lemma gmul_one_l : forall a, gmul rot_one a = a.
Proof.
  intros [a ta]. unfold gmul, rot_one. cbn [fst snd]. f_equal; [|ring].
  apply m3_ext. intros i j. rewrite z_m1_m2_get. destruct i; cbn [mget m_11 m_12 m_13 m_21 m_22 m_23 m_31 m_32 m_33]; ring.
Qed.
Lemma group_perm : forall l a, point_group l -> In a l -> Permutation (map (gmul a) l) l.
Proof.
  intros l a (Nd & _ & Cl & Iv) Ha.
  destruct (Iv a Ha) as (b & Hb & E). apply rot_mul_iff in E.
  apply NoDup_Permutation_bis.
  - apply FinFun.Injective_map_NoDup; [|exact Nd]. intros x y H.
    rewrite <- (gmul_one_l x), <- (gmul_one_l y), E, <- !gmul_assoc, H. reflexivity.
  - rewrite map_length. reflexivity.
  - intros x Hx. apply in_map_iff in Hx. destruct Hx as (y & <- & Hy).
    destruct (Cl a y Ha Hy) as (c & Hc & M). apply rot_mul_iff in M. subst c. exact Hc.
Qed.
Lemma group_sum : forall l a (f : M3 Z * Z -> R), point_group l -> In a l -> nsum (fun b => f (gmul a b)) l = nsum f l.
Proof. intros l a f G Ha. rewrite <- nsum_map. apply nsum_perm. apply group_perm; assumption. Qed.

(** * A site group acts by a point group *)
Lemma composition_rot : forall g e f, (0 < e_d g)%Z -> (0 < e_d e)%Z -> (0 < e_d f)%Z -> is_composition g e f ->
  forall i j, mget (e_r g) i j = mget (z_m1_m2 (e_r e) (e_r f)) i j.
Proof.
  intros g e f Hg He Hf H i.
  destruct (linear_integral (fun j => mget (e_r g) i j - mget (z_m1_m2 (e_r e) (e_r f)) i j)%Z
     (act g (fun _ => 0) i - act e (act f (fun _ => 0)) i)) as [L _].
  - intros u. destruct (H u i) as [n E]. exists n.
    assert (A : act g u i - act e (act f u) i =
      IZR (mget (e_r g) i X1 - mget (z_m1_m2 (e_r e) (e_r f)) i X1) * u X1 + IZR (mget (e_r g) i X2 - mget (z_m1_m2 (e_r e) (e_r f)) i X2) * u X2 +
      IZR (mget (e_r g) i X3 - mget (z_m1_m2 (e_r e) (e_r f)) i X3) * u X3 + (act g (fun _ => 0) i - act e (act f (fun _ => 0)) i)).
    { unfold act, sum3. rewrite !minus_IZR, !z_m1_m2_spec. unfold sum3. ring. }
    rewrite <- A. lra.
  - intros j. specialize (L j). lia.
Qed.
Lemma same_rot_fix : forall e f x, same_point (act e x) x -> same_point (act f x) x -> e_r e = e_r f -> same_op e f.
Proof.
  intros e f x He Hf R y i. destruct (He i) as [n En], (Hf i) as [m Em]. exists (n - m)%Z.
  unfold act in *. rewrite R in *. rewrite minus_IZR. lra.
Qed.
Lemma site_point_group : forall l x, symmetry_group l -> (forall e, In e l -> same_point (act e x) x) -> point_group (rotations l).
Proof.
  intros l x (Hd & (e0 & He0 & I0) & Hc & Hi & Hn) Hx.
  assert (Inr : forall e, In e l -> In (e_r e, 1%Z) (rotations l)) by (intros e He; unfold rotations; apply in_map_iff; exists e; auto).
  split; [|split; [|split]].
  - unfold rotations. assert (F : ForallOrdPairs (fun e f => e_r e <> e_r f) l).
    { revert Hn. apply fop_weaken. intros e f He Hf N E. apply N. apply (same_rot_fix e f x); auto. }
    clear - F. induction F as [|a l Ha Hl IH]; simpl; constructor; [|exact IH].
    intros H. apply in_map_iff in H. destruct H as (b & E & Hb). rewrite Forall_forall in Ha. apply (Ha b Hb). congruence.
  - assert (E : e_r e0 = (mkM 1 0 0 0 1 0 0 0 1)%Z).
    { apply m3_ext. intros i j.
      destruct (linear_integral (fun k => mget (e_r e0) i k - (match i, k with X1, X1 => 1 | X2, X2 => 1 | X3, X3 => 1 | _, _ => 0 end))%Z (act e0 (fun _ => 0) i)) as [L _].
      - intros u. destruct (I0 u i) as [n E]. exists n.
        transitivity (act e0 u i - u i); [|lra]. unfold act, sum3. rewrite !minus_IZR. destruct i; ring.
      - specialize (L j). cbn beta in L. destruct i, j; cbn [mget m_11 m_12 m_13 m_21 m_22 m_23 m_31 m_32 m_33] in *; lia. }
    unfold rot_one. rewrite <- E. apply Inr, He0.
  - intros a b Ha Hb. unfold rotations in Ha, Hb. apply in_map_iff in Ha. apply in_map_iff in Hb.
    destruct Ha as (e & <- & He), Hb as (f & <- & Hf). destruct (Hc e f He Hf) as (g & Hg & C).
    exists (e_r g, 1%Z). split; [apply Inr, Hg|]. apply rot_mul_iff. unfold gmul. cbn [fst snd]. f_equal.
    apply m3_ext. apply composition_rot; auto.
  - intros a Ha. unfold rotations in Ha. apply in_map_iff in Ha. destruct Ha as (e & <- & He).
    destruct (Hi e He) as (f & Hf & C). exists (e_r f, 1%Z). split; [apply Inr, Hf|]. apply rot_mul_iff. unfold gmul, rot_one. cbn [fst snd]. f_equal.
    apply m3_ext. intros i j.
    rewrite <- (composition_rot (mkE (mkV 0 0 0) 1 (mkM 1 0 0 0 1 0 0 0 1))%Z f e); auto.
    + reflexivity.
    + intros u k. destruct (C u k) as [n E]. exists (- n)%Z. rewrite E, opp_IZR. unfold act, sum3. destruct k; cbn; field.
Qed.
(** The elements selected for an atom form a group that fixes the atom. *)
Lemma site_elems_group : forall l b d, symmetry_group l -> (0 < d)%Z ->
  symmetry_group (site_elems l (AtomPos b d)) /\ forall e, In e (site_elems l (AtomPos b d)) -> same_point (act e (frac b d)) (frac b d).
Proof.
  intros l b d (Hd & (e0 & He0 & I0) & Hc & Hi & Hn) Hp.
  assert (S : forall e, In e (site_elems l (AtomPos b d)) <-> In e l /\ same_point (act e (frac b d)) (frac b d)).
  { intros e. unfold site_elems. rewrite filter_In. split.
    - intros [He F]. split; [exact He|]. apply flags_position in F; auto.
    - intros [He F]. split; [exact He|]. apply flags_position; auto. }
  split; [|intros e He; apply S in He; apply He].
  split; [|split; [|split; [|split]]].
  - intros e He. apply S in He. apply Hd, He.
  - exists e0. split; [apply S; auto|exact I0].
  - intros e f He Hf. apply S in He. apply S in Hf. destruct He as [He Fe], Hf as [Hf Ff].
    destruct (Hc e f He Hf) as (g & Hg & C). exists g. split; [|exact C]. apply S. split; [exact Hg|].
    eapply sp_trans; [apply C|]. eapply sp_trans; [apply act_sp, Ff|exact Fe].
  - intros e He. apply S in He. destruct He as [He Fe]. destruct (Hi e He) as (f & Hf & C). exists f. split; [|exact C].
    apply S. split; [exact Hf|]. eapply sp_trans; [apply act_sp, sp_sym, Fe|apply C].
  - unfold site_elems. apply fop_filter. exact Hn.
Qed.

(** * C22 *)
Lemma m_real_get : forall m i j, mget (m_real m) i j = IZR (mget m i j).
Proof. intros m [] []; reflexivity. Qed.
Definition x0 (x : V3 R) : V3 R := mkV (mod1 (v_1 x)) (mod1 (v_2 x)) (mod1 (v_3 x)).
Lemma x0_get : forall x i, vget (x0 x) i = mod1 (vget x i).
Proof. intros x []; reflexivity. Qed.
Lemma sc_fract_get : forall l x i j, mget (fst (calc_sc_fract_sc_b l x)) i j = nsum (fun e => IZR (mget (e_r e) i j)) l / size l.
Proof. intros l x [] []; reflexivity. Qed.
Lemma sc_b_get : forall l x i, 0 < size l ->
  vget (snd (calc_sc_fract_sc_b l x)) i = vget (x0 x) i - sum3 (fun j => mget (fst (calc_sc_fract_sc_b l x)) i j * vget (x0 x) j).
Proof.
  intros l x i Hs.
  assert (E : vget (snd (calc_sc_fract_sc_b l x)) i = nsum (fun e => vget (x0 x) i - sum3 (fun j => IZR (mget (e_r e) i j) * vget (x0 x) j)) l / size l).
  { destruct i; unfold calc_sc_fract_sc_b; cbn [snd vget v_1 v_2 v_3]; f_equal; apply nsum_ext; intros e _; unfold v_map2; cbn [v_1 v_2 v_3];
    fold (x0 x); match goal with |- _ + (_ - ?a - _) = _ - ?b => assert (H : a = b) end;
    try (change (mkV (mod1 (v_1 x)) (mod1 (v_2 x)) (mod1 (v_3 x))) with (x0 x)).
    all: try match goal with |- v_1 (calc_m_v ?m ?v) = _ => change (v_1 (calc_m_v m v)) with (vget (calc_m_v m v) X1); rewrite m_v_spec; unfold sum3; rewrite !m_real_get; reflexivity end.
    all: try match goal with |- v_2 (calc_m_v ?m ?v) = _ => change (v_2 (calc_m_v m v)) with (vget (calc_m_v m v) X2); rewrite m_v_spec; unfold sum3; rewrite !m_real_get; reflexivity end.
    all: try match goal with |- v_3 (calc_m_v ?m ?v) = _ => change (v_3 (calc_m_v m v)) with (vget (calc_m_v m v) X3); rewrite m_v_spec; unfold sum3; rewrite !m_real_get; reflexivity end.
    all: rewrite H; change (mod1 (v_1 x)) with (v_1 (x0 x)); change (mod1 (v_2 x)) with (v_2 (x0 x)); change (mod1 (v_3 x)) with (v_3 (x0 x)); ring. }
  rewrite E. unfold sum3.
  assert (N : nsum (fun e => vget (x0 x) i - (IZR (mget (e_r e) i X1) * vget (x0 x) X1 + IZR (mget (e_r e) i X2) * vget (x0 x) X2 + IZR (mget (e_r e) i X3) * vget (x0 x) X3)) l =
    size l * vget (x0 x) i - (vget (x0 x) X1 * nsum (fun e => IZR (mget (e_r e) i X1)) l + vget (x0 x) X2 * nsum (fun e => IZR (mget (e_r e) i X2)) l + vget (x0 x) X3 * nsum (fun e => IZR (mget (e_r e) i X3)) l)).
  { rewrite <- nsum_const, <- !nsum_scal, <- !nsum_plus.
    rewrite (nsum_ext _ (fun a => vget (x0 x) i + (-1) * (vget (x0 x) X1 * IZR (mget (e_r a) i X1) + vget (x0 x) X2 * IZR (mget (e_r a) i X2) + vget (x0 x) X3 * IZR (mget (e_r a) i X3)))) by (intros; ring).
    rewrite nsum_plus, nsum_scal. ring. }
  rewrite N, !sc_fract_get. field. lra.
Qed.
Definition Pm (l : list Op) (i j : ix) : R := nsum (fun e => IZR (mget (e_r e) i j)) l / size l.
Lemma apply_sc_get : forall l x y i, 0 < size l ->
  vget (apply_sc_fract (calc_sc_fract_sc_b l x) y) i =
  vget (x0 x) i + sum3 (fun j => Pm l i j * (vget (x0 y) j - vget (x0 x) j)).
Proof.
  intros l x y i Hs.
  assert (E : vget (apply_sc_fract (calc_sc_fract_sc_b l x) y) i = vget (calc_m_v (fst (calc_sc_fract_sc_b l x)) (x0 y)) i + vget (snd (calc_sc_fract_sc_b l x)) i)
    by (destruct i; reflexivity).
  rewrite E, m_v_spec, sc_b_get by assumption. unfold sum3. rewrite !sc_fract_get. unfold Pm. ring.
Qed.
Lemma P_left : forall l, point_group (rotations l) -> forall e, In e l -> forall i j, sum3 (fun k => IZR (mget (e_r e) i k) * Pm l k j) = Pm l i j.
Proof.
  intros l G e He i j.
  assert (Ie : In (e_r e, 1%Z) (rotations l)) by (unfold rotations; apply in_map_iff; exists e; auto).
  assert (Q : forall p q, Pm l p q = nsum (fun b => IZR (mget (fst b) p q)) (rotations l) / size l).
  { intros p q. unfold Pm, rotations. rewrite nsum_map. reflexivity. }
  rewrite (Q i j). rewrite <- (group_sum _ _ (fun b => IZR (mget (fst b) i j)) G Ie). cbn [gmul fst].
  unfold sum3. rewrite !Q.
  rewrite (nsum_ext (fun b => IZR (mget (fst (gmul (e_r e, 1%Z) b)) i j)) (fun b => IZR (mget (e_r e) i X1) * IZR (mget (fst b) X1 j) + IZR (mget (e_r e) i X2) * IZR (mget (fst b) X2 j) + IZR (mget (e_r e) i X3) * IZR (mget (fst b) X3 j))).
  - rewrite !nsum_plus, !nsum_scal. unfold Rdiv. ring.
  - intros b _. unfold gmul. cbn [fst]. rewrite z_m1_m2_spec. reflexivity.
Qed.
Lemma mod1_sp : forall x : V3 R, same_point (vget (x0 x)) (vget x).
Proof. intros x i. exists (- Int_part (vget x i))%Z. rewrite x0_get. unfold mod1. rewrite opp_IZR. ring. Qed.
Section Site.
  Variables (l : list Op) (x : V3 R).
  Hypothesis G : symmetry_group l.
  Hypothesis F : forall e, In e l -> same_point (act e (vget x)) (vget x).
  Let Hs : 0 < size l.
  Proof. destruct G as (_ & (e & He & _) & _). exact (size_pos e l He). Qed.
  Let PG : point_group (rotations l).
  Proof. exact (site_point_group l (vget x) G F). Qed.
  (** every result is a position fixed by all site operations *)
  Lemma sc_fixed : forall y e, In e l ->
    same_point (act e (vget (apply_sc_fract (calc_sc_fract_sc_b l x) y))) (vget (apply_sc_fract (calc_sc_fract_sc_b l x) y)).
  Proof.
    intros y e He i.
    assert (F0 : same_point (act e (vget (x0 x))) (vget (x0 x))).
    { eapply sp_trans; [apply act_sp, mod1_sp|]. eapply sp_trans; [apply F, He|]. apply sp_sym, mod1_sp. }
    destruct (F0 i) as [n E]. exists n. unfold act in *. unfold sum3 in *. rewrite !apply_sc_get by exact Hs. unfold sum3.
    pose proof (P_left l PG e He i) as PL. unfold sum3 in PL.
    pose proof (PL X1) as P1. pose proof (PL X2) as P2. pose proof (PL X3) as P3.
    rewrite <- P1, <- P2, <- P3. 
    transitivity (IZR (mget (e_r e) i X1) * vget (x0 x) X1 + IZR (mget (e_r e) i X2) * vget (x0 x) X2 +
      IZR (mget (e_r e) i X3) * vget (x0 x) X3 + IZR (vget (e_b e) i) / IZR (e_d e) +
      ((IZR (mget (e_r e) i X1) * Pm l X1 X1 + IZR (mget (e_r e) i X2) * Pm l X2 X1 + IZR (mget (e_r e) i X3) * Pm l X3 X1) * (vget (x0 y) X1 - vget (x0 x) X1) +
       (IZR (mget (e_r e) i X1) * Pm l X1 X2 + IZR (mget (e_r e) i X2) * Pm l X2 X2 + IZR (mget (e_r e) i X3) * Pm l X3 X2) * (vget (x0 y) X2 - vget (x0 x) X2) +
       (IZR (mget (e_r e) i X1) * Pm l X1 X3 + IZR (mget (e_r e) i X2) * Pm l X2 X3 + IZR (mget (e_r e) i X3) * Pm l X3 X3) * (vget (x0 y) X3 - vget (x0 x) X3))).
    - ring.
    - rewrite E. ring.
  Qed.
  (** the atom itself is not moved *)
  Lemma sc_atom_kept : same_point (vget (apply_sc_fract (calc_sc_fract_sc_b l x) x)) (vget x).
  Proof.
    eapply sp_trans; [|apply mod1_sp]. apply sp_ext. intros i. rewrite apply_sc_get by exact Hs. unfold sum3. ring.
  Qed.
  (** positions of the invariant family inside the cell are kept *)
  Lemma sc_family_kept : forall y, (forall i, 0 <= vget x i < 1) -> (forall i, 0 <= vget y i < 1) ->
    (forall e, In e l -> forall i, sum3 (fun j => IZR (mget (e_r e) i j) * (vget y j - vget x j)) = vget y i - vget x i) ->
    forall i, vget (apply_sc_fract (calc_sc_fract_sc_b l x) y) i = vget y i.
  Proof.
    intros y Bx By Fy i.
    assert (M : forall z : V3 R, (forall k, 0 <= vget z k < 1) -> forall k, vget (x0 z) k = vget z k).
    { intros z Bz k. rewrite x0_get. unfold mod1. specialize (Bz k).
      assert (I : Int_part (vget z k) = 0%Z).
      { unfold Int_part. assert (U : up (vget z k) = 1%Z) by (symmetry; apply tech_up; simpl; lra). rewrite U. reflexivity. }
      rewrite I. lra. }
    rewrite apply_sc_get by exact Hs. unfold sum3. rewrite !(M x Bx), !(M y By).
    assert (A : Pm l i X1 * (vget y X1 - vget x X1) + Pm l i X2 * (vget y X2 - vget x X2) + Pm l i X3 * (vget y X3 - vget x X3) = vget y i - vget x i).
    { unfold Pm. transitivity (nsum (fun e => (vget y X1 - vget x X1) * IZR (mget (e_r e) i X1) + (vget y X2 - vget x X2) * IZR (mget (e_r e) i X2) + (vget y X3 - vget x X3) * IZR (mget (e_r e) i X3)) l / size l).
      - rewrite !nsum_plus, !nsum_scal. field. lra.
      - rewrite (nsum_ext _ (fun _ => vget y i - vget x i)).
        + rewrite nsum_const. field. lra.
        + intros e He. rewrite <- (Fy e He i). unfold sum3. ring. }
    rewrite A. ring.
  Qed.
End Site.
(** Mirror (x,y,z) -> (-y,-x,z): family (t,-t,z).  The atom at the origin, displaced along the allowed direction. *)
Definition mirror_group : list Op := [op_id; mkE (mkV 0 0 0) 1 (mkM 0 (-1) 0 (-1) 0 0 0 0 1)]%Z.
Lemma mirror_is_group : symmetry_group mirror_group.
Proof.
  set (s := (mkE (mkV 0 0 0) 1 (mkM 0 (-1) 0 (-1) 0 0 0 0 1))%Z).
  split; [|split; [|split; [|split]]].
  - intros e [<-|[<-|[]]]; reflexivity.
  - exists op_id. split; [left; reflexivity|]. hunt_sp.
  - intros e f [<-|[<-|[]]] [<-|[<-|[]]];
    first [exists op_id; split; [cbn; tauto|unfold is_composition; hunt_sp] | exists s; split; [cbn; tauto|unfold is_composition; hunt_sp]].
  - intros e He. exists e. split; [exact He|]. destruct He as [<-|[<-|[]]]; hunt_sp.
  - repeat constructor. intros H. destruct (H (fun i => match i with X1 => 1/2 | _ => 0 end) X1) as [n E].
    unfold act, sum3 in E. cbn in E.
    assert (E2 : IZR 1 = IZR (2 * n)) by (rewrite mult_IZR; lra). apply eq_IZR in E2. lia.
Qed.
Lemma sc_family_refuted : exists l x y, symmetry_group l /\
  (forall e, In e l -> forall i, act e (vget x) i = vget x i) /\
  (forall e, In e l -> forall i, act e (vget y) i = vget y i) /\
  ~ same_point (vget (apply_sc_fract (calc_sc_fract_sc_b l x) y)) (vget y).
Proof.
  exists mirror_group, (mkV 0 0 0), (mkV (1/10) (-1/10) 0). split; [exact mirror_is_group|].
  split; [|split].
  - intros e [<-|[<-|[]]] []; unfold act, sum3; cbn; field.
  - intros e [<-|[<-|[]]] []; unfold act, sum3; cbn; field.
  - intros H. destruct (H X1) as [n E]. rewrite apply_sc_get in E by (unfold size; simpl; lra).
    unfold sum3 in E. rewrite !x0_get in E. unfold Pm, size in E. cbn [vget v_1 v_2 v_3] in E. 
    assert (I0 : Int_part 0 = 0%Z) by (unfold Int_part; rewrite <- (tech_up 0 1); [reflexivity|simpl; lra|simpl; lra]).
    assert (I1 : Int_part (1/10) = 0%Z) by (unfold Int_part; rewrite <- (tech_up (1/10) 1); [reflexivity|simpl; lra|simpl; lra]).
    assert (I2 : Int_part (-1/10) = (-1)%Z) by (unfold Int_part; rewrite <- (tech_up (-1/10) 0); [reflexivity|simpl; lra|simpl; lra]).
    unfold mod1 in E. rewrite I0, I1, I2 in E. cbn in E.
    assert (E2 : IZR (2 * n) = IZR (-1)) by (rewrite mult_IZR; lra). apply eq_IZR in E2. lia.
Qed.

(** * C23: the beta average *)
Definition rz (m : M3 Z) : ix -> ix -> R := fun i j => IZR (mget m i j).
Lemma nsum_lin6 : forall {A} (f1 f2 f3 f4 f5 f6 : A -> R) c1 c2 c3 c4 c5 c6 n (l : list A), 
  nsum f1 l / n * c1 + nsum f2 l / n * c2 + nsum f3 l / n * c3 + nsum f4 l / n * c4 + nsum f5 l / n * c5 + nsum f6 l / n * c6 =
  nsum (fun a => f1 a * c1 + f2 a * c2 + f3 a * c3 + f4 a * c4 + f5 a * c5 + f6 a * c6) l / n.
Proof.
  intros. unfold Rdiv. set (v := / n). clearbody v. induction l as [|a l IH]; cbn [nsum fold_right] in *; [ring|].
  fold (nsum f1 l) (nsum f2 l) (nsum f3 l) (nsum f4 l) (nsum f5 l) (nsum f6 l) in *.
  fold (nsum (fun a => f1 a * c1 + f2 a * c2 + f3 a * c3 + f4 a * c4 + f5 a * c5 + f6 a * c6) l) in *. lra.
Qed.
Lemma sc_beta_get : forall l q i j,
  qget (apply6 (calc_sc_beta l) q) i j = nsum (fun e => conj (rz (e_r e)) (qget q) i j) l / size l.
Proof.
  intros l q i j. destruct i, j; unfold apply6, calc_sc_beta, q_row_dot, q_mean; cbn [qget q_11 q_22 q_33 q_12 q_13 q_23];
  rewrite nsum_lin6; f_equal; apply nsum_ext; intros [b d [r11 r12 r13 r21 r22 r23 r31 r32 r33]] _; unfold conj, rz, sum3; destruct q as [q11 q22 q33 q12 q13 q23];
  cbn [e_r m_real mget m_11 m_12 m_13 m_21 m_22 m_23 m_31 m_32 m_33 r_r_t qget q_11 q_22 q_33 q_12 q_13 q_23]; ring.
Qed.
Lemma conj_gmul : forall a b q i j, conj (rz (fst (gmul a b))) q i j = conj (rz (fst a)) (conj (rz (fst b)) q) i j.
Proof. intros a b q i j. unfold gmul, conj, rz. cbn [fst]. unfold sum3 at 1 2 3 4. rewrite !z_m1_m2_spec. unfold sum3. ring. Qed.
Lemma nsum_lin9 : forall {A} (f : A -> ix -> ix -> R) (c : ix -> ix -> R) n (l : list A),
  sum3 (fun k => sum3 (fun m => c k m * (nsum (fun a => f a k m) l / n))) = nsum (fun a => sum3 (fun k => sum3 (fun m => c k m * f a k m))) l / n.
Proof.
  intros A f c n l. unfold sum3. rewrite !nsum_plus, !nsum_scal. unfold Rdiv. ring.
Qed.
Section Beta.
  Variable l : list Op.
  Hypothesis PG : point_group (rotations l).
  Variable q : Q6 R.
  Lemma beta_invariant : forall e, In e l -> forall i j,
    conj (rz (e_r e)) (qget (apply6 (calc_sc_beta l) q)) i j = qget (apply6 (calc_sc_beta l) q) i j.
  Proof.
    intros e He i j.
    assert (Ie : In (e_r e, 1%Z) (rotations l)) by (unfold rotations; apply in_map_iff; exists e; auto).
    rewrite sc_beta_get.
    transitivity (sum3 (fun k => sum3 (fun m => (rz (e_r e) i k * rz (e_r e) j m) * (nsum (fun f => conj (rz (e_r f)) (qget q) k m) l / size l)))).
    - unfold conj at 1. apply sum3_ext; intros k; apply sum3_ext; intros m. rewrite sc_beta_get. ring.
    - rewrite nsum_lin9.
      f_equal.
      transitivity (nsum (fun b => conj (rz (fst (gmul (e_r e, 1%Z) b))) (qget q) i j) (rotations l)).
      + unfold rotations. rewrite nsum_map. apply nsum_ext. intros f _. rewrite conj_gmul. cbn [fst]. unfold conj at 2.
        apply sum3_ext; intros k; apply sum3_ext; intros m. ring.
      + rewrite (group_sum _ _ (fun b => conj (rz (fst b)) (qget q) i j) PG Ie). unfold rotations. rewrite nsum_map. reflexivity.
  Qed.
  Lemma beta_kept : (forall e, In e l -> forall i j, conj (rz (e_r e)) (qget q) i j = qget q i j) ->
    apply6 (calc_sc_beta l) q = q.
  Proof.
    intros H.
    assert (Hs : 0 < size l).
    { destruct PG as (_ & O & _). unfold rotations in O. apply in_map_iff in O. destruct O as (e & _ & He). exact (size_pos e l He). }
    assert (E : forall i j, qget (apply6 (calc_sc_beta l) q) i j = qget q i j).
    { intros i j. rewrite sc_beta_get. rewrite (nsum_ext _ (fun _ => qget q i j)) by (intros; apply H; assumption).
      rewrite nsum_const. field. lra. }
    pose proof (E X1 X1). pose proof (E X2 X2). pose proof (E X3 X3). pose proof (E X1 X2). pose proof (E X1 X3). pose proof (E X2 X3).
    destruct (apply6 (calc_sc_beta l) q) as [a1 a2 a3 a4 a5 a6], q as [b1 b2 b3 b4 b5 b6]. cbn in *. congruence.
  Qed.
End Beta.
Lemma beta_idem : forall l q, point_group (rotations l) -> apply6 (calc_sc_beta l) (apply6 (calc_sc_beta l) q) = apply6 (calc_sc_beta l) q.
Proof. intros l q G. apply beta_kept; [exact G|]. intros. apply beta_invariant; assumption. Qed.

(** * C24: susceptibility in Cartesian axes *)
Definition mul (a b : ix -> ix -> R) : ix -> ix -> R := fun i j => sum3 (fun k => a i k * b k j).
Definition tr (a : ix -> ix -> R) : ix -> ix -> R := fun i j => a j i.
Lemma mat_ext : forall a b : ix -> ix -> R, (forall i j, a i j = b i j) -> a = b.
Proof. intros a b H. apply FunctionalExtensionality.functional_extensionality; intros i. apply FunctionalExtensionality.functional_extensionality; intros j. apply H. Qed.
Lemma mul_assoc : forall a b c, mul a (mul b c) = mul (mul a b) c.
Proof. intros. apply mat_ext. intros. unfold mul, sum3. ring. Qed.
Lemma mul_one_l : forall a, mul delta a = a.
Proof. intros. apply mat_ext. intros i j. unfold mul, sum3. destruct i; unfold delta; ring. Qed.
Lemma mul_one_r : forall a, mul a delta = a.
Proof. intros. apply mat_ext. intros i j. unfold mul, sum3. destruct j; unfold delta; ring. Qed.
Lemma det_mul' : forall a b, det3 (mul a b) = det3 a * det3 b.
Proof. intros. unfold det3, mul, sum3. ring. Qed.
Lemma inv_exists : forall a, det3 a <> 0 -> exists b, mul a b = delta /\ mul b a = delta.
Proof.
  intros r Hd.
  exists (fun i j : ix => match i, j with
    | X1, X1 => (r X2 X2 * r X3 X3 - r X2 X3 * r X3 X2) / det3 r | X1, X2 => (r X1 X3 * r X3 X2 - r X1 X2 * r X3 X3) / det3 r
    | X1, X3 => (r X1 X2 * r X2 X3 - r X1 X3 * r X2 X2) / det3 r
    | X2, X1 => (r X2 X3 * r X3 X1 - r X2 X1 * r X3 X3) / det3 r | X2, X2 => (r X1 X1 * r X3 X3 - r X1 X3 * r X3 X1) / det3 r
    | X2, X3 => (r X1 X3 * r X2 X1 - r X1 X1 * r X2 X3) / det3 r
    | X3, X1 => (r X2 X1 * r X3 X2 - r X2 X2 * r X3 X1) / det3 r | X3, X2 => (r X1 X2 * r X3 X1 - r X1 X1 * r X3 X2) / det3 r
    | X3, X3 => (r X1 X1 * r X2 X2 - r X1 X2 * r X2 X1) / det3 r end).
  split; apply mat_ext; intros i j; destruct i, j; unfold mul, sum3, delta; unfold det3 in Hd |- *; field; exact Hd.
Qed.
Lemma mul_cancel_r : forall a b c, det3 c <> 0 -> mul a c = mul b c -> a = b.
Proof.
  intros a b c Hc H. destruct (inv_exists c Hc) as (d & D & _).
  rewrite <- (mul_one_r a), <- (mul_one_r b), <- D, !mul_assoc, H. reflexivity.
Qed.
Lemma det_rot : forall l a, point_group l -> In a l -> det3 (rz (fst a)) <> 0 /\ (snd a * snd a = 1)%Z.
Proof.
  intros l a (_ & _ & _ & Iv) Ha. destruct (Iv a Ha) as (b & _ & [E T]).
  assert (M : mul (rz (fst b)) (rz (fst a)) = delta).
  { apply mat_ext. intros i j. unfold mul, rz, sum3. rewrite <- !mult_IZR, <- !plus_IZR, <- E. destruct i, j; reflexivity. }
  split.
  - intros Z. assert (D : det3 (mul (rz (fst b)) (rz (fst a))) = 1) by (rewrite M; unfold det3, delta; ring).
    rewrite det_mul', Z in D. lra.
  - cbn [rot_one snd] in T. symmetry in T. apply Z.eq_mul_1 in T as T'. destruct T' as [T'|T']; rewrite T' in T; nia.
Qed.
Notation pairs := signed_rotations.
Section Chi.
  Variable uc : U6 R.
  Hypothesis N : nondegenerate uc.
  Let M := calc_m_m uc.
  Lemma det_M : det3 (mget M) <> 0.
  Proof. unfold M. rewrite det_m_volume by exact N. apply Rgt_not_eq. apply volume_pos. exact N. Qed.
  (** matrix of the rotation in Cartesian axes *)
  Definition cart (a : M3 Z * Z) : M3 R := calc_m1_m2_inv_m1 M (m_real (fst a)).
  Lemma cart_spec : forall a, mul (mget (cart a)) (mget M) = mul (mget M) (rz (fst a)).
  Proof.
    intros a. apply mat_ext. intros i j. unfold mul. unfold cart. rewrite (m1_m2_inv_m1_spec _ _ i j det_M).
    apply sum3_ext. intros k. rewrite m_real_get. reflexivity.
  Qed.
  Lemma cart_unique : forall a A, mul A (mget M) = mul (mget M) (rz (fst a)) -> A = mget (cart a).
  Proof. intros a A H. apply (mul_cancel_r _ _ (mget M)); [exact det_M|]. rewrite H, cart_spec. reflexivity. Qed.
  Lemma rz_gmul : forall a b, rz (fst (gmul a b)) = mul (rz (fst a)) (rz (fst b)).
  Proof. intros a b. apply mat_ext. intros i j. unfold rz, gmul, mul. cbn [fst]. apply z_m1_m2_spec. Qed.
  Lemma cart_mul : forall a b, mget (cart (gmul a b)) = mul (mget (cart a)) (mget (cart b)).
  Proof.
    intros a b. symmetry. apply cart_unique. rewrite rz_gmul, <- mul_assoc, cart_spec, mul_assoc, cart_spec, mul_assoc. reflexivity.
  Qed.
  Lemma det_cart : forall a, det3 (rz (fst a)) <> 0 -> det3 (mget (cart a)) <> 0.
  Proof.
    intros a H E. assert (D : det3 (mul (mget (cart a)) (mget M)) = det3 (mul (mget M) (rz (fst a)))) by (rewrite cart_spec; reflexivity).
    rewrite !det_mul', E in D. pose proof det_M. assert (P : det3 (mget M) * det3 (rz (fst a)) = 0) by lra.
    apply Rmult_integral in P. tauto.
  Qed.
  Variable l : list (Op * Z).
  Hypothesis PG : point_group (pairs l).
  Variable chi : ix -> ix -> R.
  (** any family B_s with B_s A_s = A_s chi *)
  Variable B : M3 Z * Z -> ix -> ix -> R.
  Hypothesis HB : forall a, In a (pairs l) -> mul (B a) (mget (cart a)) = mul (mget (cart a)) chi.
  Lemma HB_gmul : forall u s, In u (pairs l) -> In s (pairs l) -> mul (mget (cart u)) (B s) = mul (B (gmul u s)) (mget (cart u)).
  Proof.
    intros u s Hu Hs. destruct (det_rot _ _ PG Hs) as [Ds _].
    apply (mul_cancel_r _ _ (mget (cart s))); [apply det_cart, Ds|].
    assert (In (gmul u s) (pairs l)) as Hus.
    { destruct PG as (_ & _ & Cl & _). destruct (Cl u s Hu Hs) as (c & Hc & E). apply rot_mul_iff in E. subst c. exact Hc. }
    rewrite <- !mul_assoc, (HB s Hs), <- cart_mul, (HB _ Hus), cart_mul, mul_assoc. reflexivity.
  Qed.
  Definition avg : ix -> ix -> R := fun i j => nsum (fun a => IZR (snd a) * B a i j) (pairs l) / size l.
  Lemma avg_invariant : forall u, In u (pairs l) -> forall i j,
    mul (mget (cart u)) avg i j = IZR (snd u) * mul avg (mget (cart u)) i j.
  Proof.
    intros u Hu i j. destruct (det_rot _ _ PG Hu) as [_ Tu].
    assert (L3 : forall (c : ix -> R) (f : M3 Z * Z -> ix -> R), sum3 (fun k => c k * (nsum (fun a => f a k) (pairs l) / size l)) = nsum (fun a => sum3 (fun k => c k * f a k)) (pairs l) / size l).
    { intros c f. unfold sum3. rewrite !nsum_plus, !nsum_scal. unfold Rdiv. ring. }
    unfold mul at 1. unfold avg at 1. rewrite (L3 (fun k => mget (cart u) i k) (fun a k => IZR (snd a) * B a k j)).
    unfold mul, avg.
    transitivity (IZR (snd u) * sum3 (fun k => mget (cart u) k j * (nsum (fun a => IZR (snd a) * B a i k) (pairs l) / size l)));
      [|f_equal; apply sum3_ext; intros k; ring].
    rewrite (L3 (fun k => mget (cart u) k j) (fun a k => IZR (snd a) * B a i k)).
    rewrite <- (group_sum _ _ (fun a => sum3 (fun k => mget (cart u) k j * (IZR (snd a) * B a i k))) PG Hu).
    transitivity (nsum (fun a => IZR (snd u) * sum3 (fun k => mget (cart u) k j * (IZR (snd (gmul u a)) * B (gmul u a) i k))) (pairs l) / size l);
      [|rewrite nsum_scal; unfold Rdiv; ring].
    f_equal. apply nsum_ext. intros s Hs.
    transitivity (IZR (snd s) * mul (mget (cart u)) (B s) i j); [unfold mul, sum3; ring|].
    rewrite (HB_gmul u s Hu Hs). unfold gmul. cbn [snd]. rewrite mult_IZR.
    assert (T : IZR (snd u) * IZR (snd u) = 1) by (rewrite <- mult_IZR, Tu; reflexivity).
    transitivity ((IZR (snd u) * IZR (snd u)) * (IZR (snd s) * mul (B (z_m1_m2 (fst u) (fst s), (snd u * snd s)%Z)) (mget (cart u)) i j)); [rewrite T; ring|].
    unfold mul, sum3. ring.
  Qed.
  Lemma avg_kept : (forall u, In u (pairs l) -> forall i j, mul (mget (cart u)) chi i j = IZR (snd u) * mul chi (mget (cart u)) i j) ->
    forall i j, avg i j = chi i j.
  Proof.
    intros H i j.
    assert (Hs : 0 < size l).
    { destruct PG as (_ & O & _). unfold signed_rotations in O. apply in_map_iff in O. destruct O as (e & _ & He). exact (size_pos e l He). }
    unfold avg. rewrite (nsum_ext _ (fun _ => chi i j)).
    - rewrite nsum_const. unfold signed_rotations. rewrite size_map. field. lra.
    - intros a Ha. destruct (det_rot _ _ PG Ha) as [Da Ta].
      assert (E : (fun i j => IZR (snd a) * B a i j) = chi).
      { apply (mul_cancel_r _ _ (mget (cart a))); [apply det_cart, Da|]. apply mat_ext. intros p q.
        assert (T : IZR (snd a) * IZR (snd a) = 1) by (rewrite <- mult_IZR, Ta; reflexivity).
        transitivity (IZR (snd a) * mul (B a) (mget (cart a)) p q); [unfold mul, sum3; ring|].
        rewrite (HB a Ha), (H a Ha). rewrite <- Rmult_assoc, T. ring. }
      change ((fun i j => IZR (snd a) * B a i j) i j = chi i j). rewrite E. reflexivity.
  Qed.
End Chi.
Lemma m_row_mean : forall {A} (f : A -> M3 R) t (l : list A) m,
  m_row_dot (m_mean (fun e => m_scale (t e) (f e)) l) m = nsum (fun e => t e * m_row_dot (f e) m) l / size l.
Proof.
  intros A f t l m. unfold m_row_dot.
  transitivity (sum3 (fun k => sum3 (fun p => mget m k p * (nsum (fun e => mget (f e) k p * t e) l / size l)))).
  - apply sum3_ext; intros k; apply sum3_ext; intros p. destruct k, p; apply Rmult_comm.
  - rewrite nsum_lin9. f_equal. apply nsum_ext. intros e _. unfold sum3. ring.
Qed.
Lemma q_row_mean : forall {A} (f : A -> Q6 R) t (l : list A) q,
  q_row_dot (q_mean (fun e => q_scale (t e) (f e)) l) q = nsum (fun e => t e * q_row_dot (f e) q) l / size l.
Proof.
  intros A f t l q. unfold q_row_dot, q_mean, q_scale. cbn [q_11 q_22 q_33 q_12 q_13 q_23]. rewrite nsum_lin6. f_equal.
  apply nsum_ext. intros e _. ring.
Qed.
Section ChiFull.
  Variables (uc : U6 R) (l : list (Op * Z)).
  Hypothesis N : nondegenerate uc.
  Hypothesis PG : point_group (pairs l).
  Lemma in_pairs : forall e, In e l -> In (e_r (fst e), snd e) (pairs l).
  Proof. intros e He. unfold signed_rotations. apply in_map_iff. exists e. auto. Qed.
  Lemma pairs_det : forall a, In a (pairs l) -> det3 (mget (cart uc a)) <> 0.
  Proof. intros a Ha. apply det_cart; [exact N|]. apply (det_rot _ _ PG Ha). Qed.
  Let Bf (m : M3 R) (a : M3 Z * Z) := mget (calc_m1_m2_inv_m1 (cart uc a) m).
  Let Bq (q : Q6 R) (a : M3 Z * Z) := mget (calc_m_q_inv_m (cart uc a) q).
  Lemma Bf_ok : forall m a, In a (pairs l) -> mul (Bf m a) (mget (cart uc a)) = mul (mget (cart uc a)) (mget m).
  Proof. intros m a Ha. apply mat_ext. intros i j. unfold mul, Bf. apply m1_m2_inv_m1_spec. apply pairs_det, Ha. Qed.
  Lemma Bq_ok : forall q a, In a (pairs l) -> mul (Bq q a) (mget (cart uc a)) = mul (mget (cart uc a)) (qget q).
  Proof. intros q a Ha. apply mat_ext. intros i j. unfold mul, Bq. apply m_q_inv_m_spec. apply pairs_det, Ha. Qed.
  Lemma full_is_avg : forall m i j, mget (apply9 (calc_sc_chi_full l uc) m) i j = avg l (Bf m) i j.
  Proof.
    intros m i j.
    transitivity (nsum (fun e => IZR (snd e) * m_row_dot (mget (calc_mm_as_m1_m2_inv_m1 (cart uc (e_r (fst e), snd e))) i j) m) l / size l).
    - rewrite <- (m_row_mean (fun e => mget (calc_mm_as_m1_m2_inv_m1 (cart uc (e_r (fst e), snd e))) i j) (fun e => IZR (snd e))).
      destruct i, j; reflexivity.
    - unfold avg, signed_rotations. rewrite nsum_map. cbn [snd]. f_equal. apply nsum_ext. intros e He. f_equal. unfold Bf.
      rewrite mm_m_spec; [reflexivity|]. apply pairs_det, in_pairs, He.
  Qed.
  Lemma sym_is_avg : forall q i j, (match i, j with X2, X1 => False | X3, X1 => False | X3, X2 => False | _, _ => True end) ->
    qget (apply6 (calc_sc_chi l uc) q) i j = avg l (Bq q) i j.
  Proof.
    intros q i j Hij.
    transitivity (nsum (fun e => IZR (snd e) * q_row_dot (mget (calc_mm_as_m_q_inv_m (cart uc (e_r (fst e), snd e))) i j) q) l / size l).
    - rewrite <- (q_row_mean (fun e => mget (calc_mm_as_m_q_inv_m (cart uc (e_r (fst e), snd e))) i j) (fun e => IZR (snd e))).
      destruct i, j; try contradiction; reflexivity.
    - unfold avg, signed_rotations. rewrite nsum_map. cbn [snd]. f_equal. apply nsum_ext. intros e He. f_equal. unfold Bq.
      rewrite mm_q_spec; [reflexivity|]. apply pairs_det, in_pairs, He.
  Qed.
  Lemma cart_is : forall e A, in_frame (mget (calc_m_m uc)) (fst e) A -> A = mget (cart uc (e_r (fst e), snd e)).
  Proof. intros e A H. apply cart_unique; [exact N|]. apply mat_ext. intros i j. exact (H i j). Qed.
  Lemma chi_full_invariant : forall m e A, In e l -> in_frame (mget (calc_m_m uc)) (fst e) A -> forall i j,
    sum3 (fun k => A i k * mget (apply9 (calc_sc_chi_full l uc) m) k j) =
    IZR (snd e) * sum3 (fun k => mget (apply9 (calc_sc_chi_full l uc) m) i k * A k j).
  Proof.
    intros m e A He HA i j. rewrite (cart_is e A HA).
    pose proof (avg_invariant uc N l PG (mget m) (Bf m) (Bf_ok m) _ (in_pairs e He) i j) as H. cbn [snd] in H. unfold mul in H.
    rewrite (sum3_ext _ (fun k => mget (cart uc (e_r (fst e), snd e)) i k * avg l (Bf m) k j)) by (intros; rewrite full_is_avg; reflexivity).
    rewrite H. f_equal. apply sum3_ext. intros k. rewrite full_is_avg. reflexivity.
  Qed.
  Lemma chi_full_kept : forall m, (forall e A, In e l -> in_frame (mget (calc_m_m uc)) (fst e) A -> forall i j,
      sum3 (fun k => A i k * mget m k j) = IZR (snd e) * sum3 (fun k => mget m i k * A k j)) ->
    forall i j, mget (apply9 (calc_sc_chi_full l uc) m) i j = mget m i j.
  Proof.
    intros m H i j. rewrite full_is_avg. apply (avg_kept uc N l PG (mget m) (Bf m) (Bf_ok m)).
    intros u Hu. unfold signed_rotations in Hu. apply in_map_iff in Hu. destruct Hu as (e & <- & He). intros p q. cbn [snd].
    apply (H e _ He). intros a b. pose proof (cart_spec uc N (e_r (fst e), snd e)) as C.
    exact (f_equal (fun f => f a b) C).
  Qed.
  (** the six-number version: the operations preserve lengths, so every A is orthogonal *)
  Hypothesis MI : forall e, In e l -> metric_invariant uc (fst e).
  Lemma cart_orth : forall e, In e l -> mul (tr (mget (cart uc (e_r (fst e), snd e)))) (mget (cart uc (e_r (fst e), snd e))) = delta.
  Proof.
    intros e He. set (A := mget (cart uc (e_r (fst e), snd e))).
    set (Mm := mget (calc_m_m uc)).
    assert (C : mul A Mm = mul Mm (rz (e_r (fst e)))) by exact (cart_spec uc N (e_r (fst e), snd e)).
    assert (G : mul (tr Mm) Mm = metric uc) by (apply mat_ext; intros i j; apply (mt_m_metric uc N)).
    assert (I : mul (tr (rz (e_r (fst e)))) (mul (metric uc) (rz (e_r (fst e)))) = metric uc).
    { apply mat_ext. intros i j. rewrite <- (MI e He i j). unfold mul, tr, rz, sum3. ring. }
    assert (Tm : forall a b, tr (mul a b) = mul (tr b) (tr a)) by (intros; apply mat_ext; intros; unfold tr, mul, sum3; ring).
    apply (mul_cancel_r _ _ Mm); [apply det_M, N|].
    assert (X : mul (tr Mm) (mul (mul (tr A) A) Mm) = mul (tr Mm) (mul delta Mm)).
    { rewrite mul_one_l, G, <- I, <- G. rewrite <- !mul_assoc, C, !mul_assoc, <- Tm, C, Tm. rewrite <- !mul_assoc. reflexivity. }
    destruct (inv_exists (tr Mm)) as (v & _ & V).
    { assert (D : det3 (tr Mm) = det3 Mm) by (unfold det3, tr; ring). rewrite D. apply det_M, N. }
    transitivity (mul v (mul (tr Mm) (mul (mul (tr A) A) Mm))); [rewrite (mul_assoc v), V, mul_one_l; reflexivity|].
    rewrite X. rewrite (mul_assoc v), V, mul_one_l. reflexivity.
  Qed.
  Lemma Bq_sym : forall q a, In a (pairs l) -> forall i j, Bq q a i j = Bq q a j i.
  Proof.
    intros q a Ha i j. pose proof (Bq_ok q a Ha) as K.
    assert (O : mul (mget (cart uc a)) (tr (mget (cart uc a))) = delta).
    { unfold signed_rotations in Ha. apply in_map_iff in Ha. destruct Ha as (e & <- & He). apply mat_ext. intros p r. apply left_inverse_right.
      intros p' r'. exact (f_equal (fun f => f p' r') (cart_orth e He)). }
    assert (E : Bq q a = mul (mul (mget (cart uc a)) (qget q)) (tr (mget (cart uc a)))).
    { rewrite <- K, <- mul_assoc, O, mul_one_r. reflexivity. }
    rewrite E. unfold mul, tr, sum3. destruct q as [q11 q22 q33 q12 q13 q23]. cbn [qget q_11 q_22 q_33 q_12 q_13 q_23]. ring.
  Qed.
  Lemma chi_is_avg : forall q i j, qget (apply6 (calc_sc_chi l uc) q) i j = avg l (Bq q) i j.
  Proof.
    intros q i j.
    assert (S : forall p r, avg l (Bq q) p r = avg l (Bq q) r p).
    { intros p r. unfold avg. f_equal. apply nsum_ext. intros a Ha. rewrite (Bq_sym q a Ha p r). reflexivity. }
    destruct i, j; try (apply sym_is_avg; exact I).
    - rewrite S. apply (sym_is_avg q X1 X2). exact I.
    - rewrite S. apply (sym_is_avg q X1 X3). exact I.
    - rewrite S. apply (sym_is_avg q X2 X3). exact I.
  Qed.
  Lemma chi_invariant : forall q e A, In e l -> in_frame (mget (calc_m_m uc)) (fst e) A -> forall i j,
    sum3 (fun k => A i k * qget (apply6 (calc_sc_chi l uc) q) k j) =
    IZR (snd e) * sum3 (fun k => qget (apply6 (calc_sc_chi l uc) q) i k * A k j).
  Proof.
    intros q e A He HA i j. rewrite (cart_is e A HA).
    pose proof (avg_invariant uc N l PG (qget q) (Bq q) (Bq_ok q) _ (in_pairs e He) i j) as H. cbn [snd] in H. unfold mul in H.
    rewrite (sum3_ext _ (fun k => mget (cart uc (e_r (fst e), snd e)) i k * avg l (Bq q) k j)) by (intros; rewrite chi_is_avg; reflexivity).
    rewrite H. f_equal. apply sum3_ext. intros k. rewrite chi_is_avg. reflexivity.
  Qed.
  Lemma chi_kept : forall q, (forall e A, In e l -> in_frame (mget (calc_m_m uc)) (fst e) A -> forall i j,
      sum3 (fun k => A i k * qget q k j) = IZR (snd e) * sum3 (fun k => qget q i k * A k j)) ->
    apply6 (calc_sc_chi l uc) q = q.
  Proof.
    intros q H.
    assert (E : forall i j, qget (apply6 (calc_sc_chi l uc) q) i j = qget q i j).
    { intros i j. rewrite chi_is_avg. apply (avg_kept uc N l PG (qget q) (Bq q) (Bq_ok q)).
      intros u Hu. unfold signed_rotations in Hu. apply in_map_iff in Hu. destruct Hu as (e & <- & He). intros p r. cbn [snd].
      apply (H e _ He). intros a b. pose proof (cart_spec uc N (e_r (fst e), snd e)) as C.
      exact (f_equal (fun f => f a b) C). }
    pose proof (E X1 X1). pose proof (E X2 X2). pose proof (E X3 X3). pose proof (E X1 X2). pose proof (E X1 X3). pose proof (E X2 X3).
    destruct (apply6 (calc_sc_chi l uc) q) as [a1 a2 a3 a4 a5 a6], q as [b1 b2 b3 b4 b5 b6]. cbn in *. congruence.
  Qed.
End ChiFull.

(** * Theorem forms *)
Lemma beta_site : forall full b d q, symmetry_group full -> (0 < d)%Z ->
  forall e, In e (site_elems full (AtomPos b d)) -> forall i j,
  conj (rot_real e) (qget (apply6 (calc_sc_beta (site_elems full (AtomPos b d))) q)) i j = qget (apply6 (calc_sc_beta (site_elems full (AtomPos b d))) q) i j.
Proof.
  intros full b d q G Hd e He i j. destruct (site_elems_group full b d G Hd) as [Gs Fs].
  exact (beta_invariant _ (site_point_group _ _ Gs Fs) q e He i j).
Qed.
Lemma beta_site_kept : forall full b d q, symmetry_group full -> (0 < d)%Z ->
  (forall e, In e (site_elems full (AtomPos b d)) -> forall i j, conj (rot_real e) (qget q) i j = qget q i j) ->
  apply6 (calc_sc_beta (site_elems full (AtomPos b d))) q = q.
Proof.
  intros full b d q G Hd H. destruct (site_elems_group full b d G Hd) as [Gs Fs].
  exact (beta_kept _ (site_point_group _ _ Gs Fs) q H).
Qed.
Lemma site_elems_iff : forall l b d, (forall e, In e l -> (0 < e_d e)%Z) -> (0 < d)%Z -> forall e,
  In e (site_elems l (AtomPos b d)) <-> In e l /\ same_point (act e (frac b d)) (frac b d).
Proof.
  intros l b d Hd Hp e. unfold site_elems. rewrite filter_In. split.
  - intros [He F]. split; [exact He|]. apply flags_position in F; auto.
  - intros [He F]. split; [exact He|]. apply flags_position; auto.
Qed.
Definition vfrac (b : V3 Z) (d : Z) : V3 R := mkV (IZR (v_1 b) / IZR d) (IZR (v_2 b) / IZR d) (IZR (v_3 b) / IZR d).
Lemma vfrac_get : forall b d, vget (vfrac b d) = frac b d.
Proof. intros. apply FunctionalExtensionality.functional_extensionality. intros []; reflexivity. Qed.
Lemma sc_site_fixed : forall full b d x y, symmetry_group full -> (0 < d)%Z -> (forall i, vget x i = frac b d i) ->
  forall e, In e full -> same_point (act e (vget x)) (vget x) ->
  let x' := apply_sc_fract (calc_sc_fract_sc_b (site_elems full (AtomPos b d)) x) y in
  same_point (act e (vget x')) (vget x').
Proof.
  intros full b d x y G Hd Hx e He Fx. assert (X : vget x = frac b d) by (apply FunctionalExtensionality.functional_extensionality; exact Hx).
  destruct (site_elems_group full b d G Hd) as [Gs Fs]. apply sc_fixed; [exact Gs|rewrite X; exact Fs|].
  apply site_elems_iff; [apply G|exact Hd|]. split; [exact He|]. rewrite <- X. exact Fx.
Qed.
Lemma sc_site_kept : forall full b d x, symmetry_group full -> (0 < d)%Z -> (forall i, vget x i = frac b d i) ->
  same_point (vget (apply_sc_fract (calc_sc_fract_sc_b (site_elems full (AtomPos b d)) x) x)) (vget x).
Proof.
  intros full b d x G Hd Hx. assert (X : vget x = frac b d) by (apply FunctionalExtensionality.functional_extensionality; exact Hx).
  destruct (site_elems_group full b d G Hd) as [Gs Fs]. apply sc_atom_kept. exact Gs.
Qed.
(** * C63 *)
Lemma flags_lost : exists l x, symmetry_group l /\ (forall e, In e l -> same_point (act e (vget x)) (vget x)) /\
  let sc := calc_sc_fract_sc_b l x in
  constr_flags (fst sc) (mkV true true false) = mkV false false false /\
  exists y z : V3 R, vget y X1 <> vget z X1 /\ (forall i, 0 <= vget y i < 1) /\ (forall i, 0 <= vget z i < 1) /\
    vget (apply_sc_fract sc y) X1 <> vget (apply_sc_fract sc z) X1.
Proof.
  exists mirror_group, (mkV 0 0 0). split; [exact mirror_is_group|]. split.
  { intros e [<-|[<-|[]]] []; exists 0%Z; unfold act, sum3; cbn; field. }
  cbv zeta. split.
  - unfold constr_flags, calc_m_v, calc_sc_fract_sc_b, nsum, size, row_dot. cbn.
    repeat match goal with |- context [Req_EM_T ?a 0] => destruct (Req_EM_T a 0) as [?|Hn]; [|exfalso; apply Hn; field] end. reflexivity.
  - exists (mkV (1/10) 0 0), (mkV 0 0 0). split; [cbn; lra|]. split; [intros []; cbn; lra|]. split; [intros []; cbn; lra|].
    rewrite !apply_sc_get by (unfold size; simpl; lra). unfold sum3. rewrite !x0_get. unfold Pm, size. cbn [vget v_1 v_2 v_3].
    assert (I0 : Int_part 0 = 0%Z) by (unfold Int_part; rewrite <- (tech_up 0 1); [reflexivity|simpl; lra|simpl; lra]).
    assert (I1 : Int_part (1/10) = 0%Z) by (unfold Int_part; rewrite <- (tech_up (1/10) 1); [reflexivity|simpl; lra|simpl; lra]).
    unfold mod1. rewrite I0, I1. cbn. lra.
Qed.
(** flags are kept when the constraint matrix has no cancellation, e.g. for a general position *)
Lemma flags_general : forall x f, constr_flags (fst (calc_sc_fract_sc_b [op_id] x)) f = f.
Proof.
  intros x [[] [] []]; unfold constr_flags, calc_m_v, calc_sc_fract_sc_b, nsum, size, row_dot; cbn;
  repeat match goal with |- context [Req_EM_T ?a 0] => destruct (Req_EM_T a 0) as [?H|?H] end; try reflexivity; exfalso; try lra;
  match goal with H : _ <> _ |- _ => apply H; field | H : _ = _ |- _ => lra end.
Qed.
(** * example: mirror (-y,-x,z) with time reversal in a tetragonal cell *)
Definition mirror_op : Op := (mkE (mkV 0 0 0) 1 (mkM 0 (-1) 0 (-1) 0 0 0 0 1))%Z.
Definition tetra : U6 R := mkU 3 3 5 (PI / 2) (PI / 2) (PI / 2).
Lemma mirror_signed_group : forall t, (t = 1 \/ t = -1)%Z -> point_group (signed_rotations [(op_id, 1%Z); (mirror_op, t)]).
Proof.
  intros t Ht. unfold signed_rotations. cbn [map fst snd op_id mirror_op e_r].
  split; [|split; [|split]].
  - repeat constructor; simpl; [|tauto]. intros [E|[]]. discriminate.
  - left. reflexivity.
  - intros a b [<-|[<-|[]]] [<-|[<-|[]]];
    [exists rot_one; split; [left; reflexivity|] | eexists; split; [right; left; reflexivity|] | eexists; split; [right; left; reflexivity|] | exists rot_one; split; [left; reflexivity|]];
    split; try (intros [] []; reflexivity); cbn [snd rot_one]; destruct Ht; subst t; reflexivity.
  - intros a Ha. exists a. split; [exact Ha|]. destruct Ha as [<-|[<-|[]]]; split; try (intros [] []; reflexivity); cbn [snd rot_one]; destruct Ht; subst t; reflexivity.
Qed.
Lemma tetra_ok : nondegenerate tetra /\ metric_invariant tetra op_id /\ metric_invariant tetra mirror_op.
Proof.
  split; [|split].
  - unfold nondegenerate, tetra. cbn [u_a u_b u_c u_al u_be u_ga]. rewrite cos_PI2. pose proof PI_RGT_0. repeat split; lra.
  - intros [] []; unfold sum3, metric; cbn; rewrite ?cos_PI2; ring.
  - intros [] []; unfold sum3, metric; cbn; rewrite ?cos_PI2; ring.
Qed.
