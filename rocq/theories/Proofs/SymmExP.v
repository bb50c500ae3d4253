(** Reformulations used by Props/PSymm.v, and concrete groups meeting the hypotheses. *)
From Coq Require Import Reals ZArith List Lra Lia Bool Znumtheory Zpow_facts.
From Verif Require Import Spec.Lin3 Spec.Symm Spec.Cell Model.MatrixOps Model.UnitCell Model.Symmetry
  Proofs.SymmBaseP Proofs.SymmGroupP Proofs.SymmGridP Proofs.UnitCellP.
Import ListNotations.
Open Scope R_scope.

Lemma flags_position : forall e b d, (0 < e_d e)%Z -> (0 < d)%Z ->
  (calc_symm_flags e (AtomPos b d) = true <-> same_point (act e (frac b d)) (frac b d)).
Proof.
  intros e b d He Hd. rewrite (flags_stabiliser e (AtomPos b d) He Hd). cbn [atom_pos].
  split; [intros H; apply (H (fun _ => 0))|auto].
Qed.
Lemma flags_family : forall e a, (0 < e_d e)%Z -> (0 < e_d a)%Z ->
  (calc_symm_flags e (AtomFull a) = true <-> forall u, same_point (act e (act a u)) (act a u)).
Proof. intros e a He Ha. exact (flags_stabiliser e (AtomFull a) He Ha). Qed.

Lemma fop_map : forall {A B} (f : A -> B) (R : B -> B -> Prop) l, ForallOrdPairs (fun a b => R (f a) (f b)) l -> ForallOrdPairs R (map f l).
Proof.
  intros A B f R l H. induction H as [|a l Ha Hl IH]; simpl; constructor; [|assumption].
  rewrite Forall_forall in *. intros y Hy. apply in_map_iff in Hy. destruct Hy as (x & <- & Hx). auto.
Qed.
Lemma multiplicity_position : forall l b d, symmetry_group l -> (0 < d)%Z ->
  exists pts : list (ix -> R),
    (forall p, In p pts -> exists e, In e l /\ p = act e (frac b d)) /\
    ForallOrdPairs (fun p q => ~ same_point p q) pts /\
    (forall e, In e l -> exists p, In p pts /\ same_point (act e (frac b d)) p) /\
    calc_multiplicity l (AtomPos b d) = length pts.
Proof.
  intros l b d G Hd. destruct (multiplicity_orbit l (AtomPos b d) G Hd) as (o & O1 & O2 & O3 & O4). cbn [atom_pos] in *.
  exists (map (fun e => act e (frac b d)) o). split; [|split; [|split]].
  - intros p Hp. apply in_map_iff in Hp. destruct Hp as (e & <- & He). exists e. auto.
  - apply fop_map. revert O2. apply fop_weaken. intros e f _ _ H1 H2. apply H1. auto.
  - intros e He. destruct (O3 e He) as (f & Hf & Ef). exists (act f (frac b d)). split; [|apply (Ef (fun _ => 0))].
    apply in_map_iff. exists f. auto.
  - rewrite map_length. exact O4.
Qed.
Lemma multiplicity_family : forall l a, symmetry_group l -> (0 < e_d a)%Z ->
  exists orbit, (forall f, In f orbit -> In f l) /\
    ForallOrdPairs (fun e f => ~ forall u, same_point (act e (act a u)) (act f (act a u))) orbit /\
    (forall e, In e l -> exists f, In f orbit /\ forall u, same_point (act e (act a u)) (act f (act a u))) /\
    calc_multiplicity l (AtomFull a) = length orbit.
Proof. intros l a G Ha. exact (multiplicity_orbit l (AtomFull a) G Ha). Qed.

(** C13: both denominators powers of one prime *)
Lemma gcd_chain_prime : forall b1 d1 b2 d2 p k, prime p -> (0 <= k)%Z -> (d1 * d2 = p ^ k)%Z -> gcd_chain b1 d1 b2 d2.
Proof.
  intros b1 d1 b2 d2 p k Hp Hk E i j. rewrite E.
  assert (P0 : (0 < p)%Z) by (pose proof (prime_ge_2 p Hp); lia).
  assert (D : forall a, exists m, (0 <= m)%Z /\ Z.gcd a (p ^ k) = (p ^ m)%Z).
  { intros a. destruct (Zdivide_power_2 (Z.gcd a (p ^ k)) p k Hk (Z.gcd_nonneg _ _) Hp (Z.gcd_divide_r _ _)) as [m M].
    destruct (Z.le_gt_cases 0 m) as [H|H]; [exists m; auto|].
    rewrite (Z.pow_neg_r p m) in M by lia. apply Z.gcd_eq_0_r in M. pose proof (Z.pow_pos_nonneg p k P0 Hk). lia. }
  destruct (D (vget b1 i * d2 + vget b2 i * d1)%Z) as (m & Hm & ->), (D (vget b1 j * d2 + vget b2 j * d1)%Z) as (m' & Hm' & ->).
  destruct (Z.le_ge_cases m m') as [H|H]; [left|right].
  - exists (p ^ (m' - m))%Z. rewrite <- Z.pow_add_r by lia. f_equal. lia.
  - exists (p ^ (m - m'))%Z. rewrite <- Z.pow_add_r by lia. f_equal. lia.
Qed.
Lemma sum_elem_prime : forall b1 d1 b2 d2 p k, (0 < d1)%Z -> (0 < d2)%Z -> prime p -> (0 <= k)%Z -> (d1 * d2 = p ^ k)%Z ->
  let r := sum_elem_symm_b b1 d1 b2 d2 in
  (0 < snd r)%Z /\ forall i, frac (fst r) (snd r) i = frac b1 d1 i + frac b2 d2 i.
Proof. intros b1 d1 b2 d2 p k H1 H2 Hp Hk E. apply sum_elem_ok; auto. exact (gcd_chain_prime b1 d1 b2 d2 p k Hp Hk E). Qed.

(** C19: pure centring translations *)

Lemma mag_centring : forall eo to ec tc p k, (0 < e_d eo)%Z -> (0 < e_d ec)%Z -> e_r ec = (mkM 1 0 0 0 1 0 0 0 1)%Z ->
  prime p -> (0 <= k)%Z -> (e_d eo * e_d ec = p ^ k)%Z ->
  is_composition (fst (mag_compose (eo, to) (ec, tc))) ec eo /\ snd (mag_compose (eo, to) (ec, tc)) = (to * tc)%Z.
Proof.
  intros eo to ec tc p k Ho Hc Er Hp Hk E. apply mag_compose_ok; auto.
  - rewrite Er. destruct (e_r eo) as [a b c d e f g h i]. unfold z_m1_m2. f_equal; ring.
  - exact (gcd_chain_prime _ _ _ _ p k Hp Hk E).
Qed.

(** Concrete groups. *)
Definition op_id : Op := (mkE (mkV 0 0 0) 1 (mkM 1 0 0 0 1 0 0 0 1))%Z.
Definition op_inv : Op := (mkE (mkV 0 0 0) 1 (mkM (-1) 0 0 0 (-1) 0 0 0 (-1)))%Z.
Definition op_screw : Op := (mkE (mkV 0 1 0) 2 (mkM (-1) 0 0 0 1 0 0 0 (-1)))%Z.
Definition op_glide : Op := (mkE (mkV 0 1 0) 2 (mkM 1 0 0 0 (-1) 0 0 0 1))%Z.
Definition p21m : list Op := [op_id; op_screw; op_inv; op_glide].
Ltac spt n1 n2 n3 := intros x; intros []; [exists n1|exists n2|exists n3]; unfold act, sum3; cbn; lra.
Ltac hunt_sp := intros x [];
  match goal with |- exists n : Z, _ => first
    [ exists 0%Z; unfold act, sum3; cbn; lra | exists 1%Z; unfold act, sum3; cbn; lra | exists (-1)%Z; unfold act, sum3; cbn; lra ] end.
Lemma p21m_group : symmetry_group p21m.
Proof.
  split; [|split; [|split; [|split]]].
  - intros e [<-|[<-|[<-|[<-|[]]]]]; reflexivity.
  - exists op_id. split; [left; reflexivity|]. hunt_sp.
  - intros e f He Hf. 
    assert (H : exists g, In g p21m /\ is_composition g e f).
    { destruct He as [<-|[<-|[<-|[<-|[]]]]], Hf as [<-|[<-|[<-|[<-|[]]]]];
      first [ exists op_id; split; [cbn; tauto|unfold is_composition; hunt_sp]
            | exists op_screw; split; [cbn; tauto|unfold is_composition; hunt_sp]
            | exists op_inv; split; [cbn; tauto|unfold is_composition; hunt_sp]
            | exists op_glide; split; [cbn; tauto|unfold is_composition; hunt_sp] ]. }
    exact H.
  - intros e He. exists e. split; [exact He|]. destruct He as [<-|[<-|[<-|[<-|[]]]]]; hunt_sp.
  - assert (D : forall e f, mget (e_r e) X1 X1 <> mget (e_r f) X1 X1 \/ mget (e_r e) X2 X2 <> mget (e_r f) X2 X2 -> e_b e = (mkV 0 0 0)%Z \/ True ->
       (forall i j, i <> j -> mget (e_r e) i j = 0%Z /\ mget (e_r f) i j = 0%Z) -> ~ same_op e f).
    { intros e f Hd _ Ho S. 
      assert (K : forall i, mget (e_r e) i i = mget (e_r f) i i).
      { intros i. destruct (S (fun _ => 0) i) as [n0 E0].
        assert (O : forall t j, sum3 (fun k => IZR (mget (e_r j) i k) * half_at i t k) = IZR (mget (e_r j) i i) * t)
          by (intros t j; destruct i; unfold sum3, half_at; ring).
        destruct (Z.eq_dec (mget (e_r e) i i) (mget (e_r f) i i)) as [|N]; [assumption|exfalso].
        set (dd := (mget (e_r e) i i - mget (e_r f) i i)%Z).
        assert (Nd : IZR dd <> 0) by (apply not_0_IZR; unfold dd; lia).
        destruct (S (half_at i (/ (2 * IZR dd))) i) as [n E]. unfold act in E, E0. rewrite !O in E.
        assert (Z0 : forall j, sum3 (fun k => IZR (mget (e_r j) i k) * 0) = 0) by (intros; unfold sum3; ring).
        rewrite !Z0 in E0.
        assert (G : 1 = IZR (2 * (n - n0))).
        { rewrite mult_IZR, minus_IZR. replace 1 with (2 * (IZR dd * / (2 * IZR dd))) by (field; exact Nd).
          f_equal. unfold dd at 1. rewrite minus_IZR. lra. }
        apply eq_IZR in G. lia. }
      pose proof (K X1). pose proof (K X2). tauto. }
    repeat (constructor; [repeat (constructor; [apply D; [cbn; try (left; discriminate); right; discriminate|tauto|intros [] []; cbn; tauto]|]); constructor|]).
    constructor.
Qed.
Lemma p21m_compatible : forall e, In e p21m -> grid_compatible (mkV 4 6 10)%Z e.
Proof.
  intros e [<-|[<-|[<-|[<-|[]]]]]; (split; [reflexivity|split]);
  try (intros [] []; cbn; congruence); intros []; cbn; try (exists 4%Z; reflexivity); try (exists 6%Z; reflexivity); try (exists 10%Z; reflexivity);
  try (exists 2%Z; reflexivity); try (exists 3%Z; reflexivity); try (exists 5%Z; reflexivity).
Qed.
(** position on the mirror plane has multiplicity 2, general position 4 *)
Example p21m_mult : calc_multiplicity p21m (AtomPos (mkV 1 5 1)%Z 20) = 2%nat /\ calc_multiplicity p21m (AtomPos (mkV 1 2 3)%Z 7) = 4%nat.
Proof. split; reflexivity. Qed.
Example p21m_asym : exists o, calc_asymmetric_unit_cell_indexes (mkV 2 4 2)%Z p21m = Some o /\ length o = 8%nat.
Proof. eexists. split; vm_compute; reflexivity. Qed.
Lemma equivalent_members : forall h red c h', In h' (calc_equivalent_reflections h red c) <->
  exists e, In e red /\ (h' = hkl_r h e \/ (c = true /\ forall i, vget h' i = (- vget (hkl_r h e) i)%Z)).
Proof.
  intros h red c h'. unfold calc_equivalent_reflections.
  assert (O : forall v w : V3 Z, w = z_opp_v v <-> forall i, vget w i = (- vget v i)%Z).
  { intros [v1 v2 v3] [w1 w2 w3]. unfold z_opp_v. cbn [v_1 v_2 v_3]. split.
    - intros E i. rewrite E. destruct i; cbn [vget v_1 v_2 v_3]; ring.
    - intros H. pose proof (H X1). pose proof (H X2). pose proof (H X3). cbn [vget v_1 v_2 v_3] in *. f_equal; lia. }
  assert (A : forall g, In g (map (hkl_r h) red) <-> exists e, In e red /\ g = hkl_r h e).
  { intros g. rewrite in_map_iff. split; intros (e & H1 & H2); exists e; auto. }
  destruct c.
  - rewrite in_app_iff, A. split.
    + intros [(e & He & ->)|H]; [exists e; auto|]. apply in_map_iff in H. destruct H as (g & <- & Hg). apply A in Hg.
      destruct Hg as (e & He & ->). exists e. split; [assumption|]. right. split; [reflexivity|]. apply O. reflexivity.
    + intros (e & He & [->|[_ H]]); [left; eauto|]. right. apply in_map_iff. exists (hkl_r h e). split; [symmetry; apply O; exact H|apply A; eauto].
  - rewrite A. split; [intros (e & He & ->); eauto|]. intros (e & He & [->|[H _]]); [eauto|discriminate].
Qed.
Lemma mono_invariant : nondegenerate (mkU 3 4 5 (PI / 2) (PI / 3) (PI / 2)) /\
  forall e, In e p21m -> metric_invariant (mkU 3 4 5 (PI / 2) (PI / 3) (PI / 2)) e.
Proof.
  split.
  - unfold nondegenerate. cbn [u_a u_b u_c u_al u_be u_ga]. rewrite cos_PI2, cos_PI3. pose proof PI_RGT_0. repeat split; lra.
  - intros e [<-|[<-|[<-|[<-|[]]]]] i j; destruct i, j; unfold sum3, metric; cbn; rewrite ?cos_PI2; ring.
Qed.
