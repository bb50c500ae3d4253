(** Proofs about Model/UnitCell.v: metric, volume, orthogonalisation matrices. *)
From Coq Require Import Reals Lra Psatz.
From Verif Require Import Spec.Lin3 Spec.Cell Model.MatrixOps Model.UnitCell Proofs.MatrixOpsP.
Open Scope R_scope.

Lemma sum3_ext : forall f g, (forall i, f i = g i) -> sum3 f = sum3 g.
Proof. intros f g H. unfold sum3. rewrite !H. reflexivity. Qed.

(** Facts about a non-degenerate cell. *)
Lemma nd_facts : forall uc, nondegenerate uc ->
  0 < u_a uc /\ 0 < u_b uc /\ 0 < u_c uc /\
  0 < sin (u_al uc) /\ 0 < sin (u_be uc) /\ 0 < sin (u_ga uc) /\
  0 < calc_phi_sq uc /\ 0 < calc_phi uc /\
  calc_phi uc ^ 2 = 1 - (cos (u_al uc))^2 - (cos (u_be uc))^2 - (cos (u_ga uc))^2
      + 2 * cos (u_al uc) * cos (u_be uc) * cos (u_ga uc) /\
  calc_phi_sq uc = calc_phi uc ^ 2 /\
  (sin (u_al uc))^2 = 1 - (cos (u_al uc))^2 /\
  (sin (u_be uc))^2 = 1 - (cos (u_be uc))^2 /\
  (sin (u_ga uc))^2 = 1 - (cos (u_ga uc))^2.
Proof.
  intros uc (Ha & Hb & Hc & Hal & Hbe & Hga & Hp).
  assert (Hq : 0 < calc_phi_sq uc) by (unfold calc_phi_sq, Rsqr; lra).
  assert (Hs : forall x, (sin x)^2 = 1 - (cos x)^2).
  { intro x. pose proof (sin2_cos2 x) as E. unfold Rsqr in E. lra. }
  assert (E : calc_phi uc ^ 2 = calc_phi_sq uc).
  { unfold calc_phi. rewrite <- (sqrt_sqrt (calc_phi_sq uc)) at 2; [ring | lra]. }
  repeat split; try assumption; try apply Hs; try (apply sin_gt_0; tauto).
  - apply sqrt_lt_R0; assumption.
  - rewrite E. unfold calc_phi_sq, Rsqr. ring.
  - symmetry; exact E.
Qed.

(** Abstracts the trigonometric values away: a,b,c,sa,sb,sg,ph > 0 and four polynomial relations. *)
Ltac cell uc H :=
  let Ha := fresh "Ha" in let Hb := fresh "Hb" in let Hc := fresh "Hc" in
  let Hsa := fresh "Hsa" in let Hsb := fresh "Hsb" in let Hsg := fresh "Hsg" in
  let Hq := fresh "Hq" in let Hph := fresh "Hph" in
  let Eph := fresh "Eph" in let Eq := fresh "Eq" in
  let Esa := fresh "Esa" in let Esb := fresh "Esb" in let Esg := fresh "Esg" in
  destruct (nd_facts uc H) as (Ha & Hb & Hc & Hsa & Hsb & Hsg & Hq & Hph & Eph & Eq & Esa & Esb & Esg);
  clear H;
  repeat (change (sqrt (calc_phi_sq uc)) with (calc_phi uc));
  rewrite ?Eq in *; clear Eq;
  generalize dependent (calc_phi uc);
  generalize dependent (sin (u_al uc)); generalize dependent (sin (u_be uc)); generalize dependent (sin (u_ga uc));
  generalize dependent (cos (u_al uc)); generalize dependent (cos (u_be uc)); generalize dependent (cos (u_ga uc));
  generalize dependent (u_a uc); generalize dependent (u_b uc); generalize dependent (u_c uc);
  let a := fresh "a" in let b := fresh "b" in let c := fresh "c" in
  let ca := fresh "ca" in let cb := fresh "cb" in let cg := fresh "cg" in
  let sa := fresh "sa" in let sb := fresh "sb" in let sg := fresh "sg" in let ph := fresh "ph" in
  intros c Hc b Hb a Ha cg cb ca sg Hsg Esg sb Hsb Esb sa Hsa Esa ph Hq Hph Eph.
Ltac unfc := cbv [calc_m_g calc_m_reciprocal_g calc_volume_uc calc_volume_ruc calc_m_m calc_m_inv_m calc_m_b
   calc_m_inv_b calc_m_m_norm calc_m_inv_m_norm calc_m_b_norm calc_m_inv_b_norm calc_m_inv_m_b_norm
   calc_m_inv_b_norm_m calc_m_g_norm calc_m_reciprocal_g_norm metric axis_len axis_cos
   is_inverse is_mul det3 dot sum3 mget qget vget delta Rsqr
   m_11 m_12 m_13 m_21 m_22 m_23 m_31 m_32 m_33 q_11 q_22 q_33 q_12 q_13 q_23 v_1 v_2 v_3].
Ltac nz := repeat split; try (apply Rgt_not_eq; assumption); try (apply not_eq_sym, Rlt_not_eq; assumption); try lra.
Ltac cfield := match goal with
  Ep : ?ph ^ 2 = _, Ea : ?sa ^ 2 = 1 - ?ca ^ 2, Eb : ?sb ^ 2 = 1 - ?cb ^ 2, Eg : ?sg ^ 2 = 1 - ?cg ^ 2 |- _ =>
    first [ field; nz; fail | field [Ep Ea Eb Eg]; nz ] end.

Lemma m_g_metric : forall uc i j, qget (calc_m_g uc) i j = metric uc i j.
Proof. intros uc [] []; unfc; ring. Qed.

Lemma g_inverse : forall uc, nondegenerate uc ->
  is_inverse (qget (calc_m_g uc)) (qget (calc_m_reciprocal_g uc)).
Proof. intros uc H. split; intros [] []; unfc; cell uc H; cfield. Qed.
Lemma det_g : forall uc, nondegenerate uc -> det3 (qget (calc_m_g uc)) = (calc_volume_uc uc)^2.
Proof. intros uc H. unfc; cell uc H; cfield. Qed.
Lemma volume_pos : forall uc, nondegenerate uc -> 0 < calc_volume_uc uc.
Proof. intros uc H. unfc; cell uc H. repeat apply Rmult_lt_0_compat; assumption. Qed.
Lemma volume_prod : forall uc, nondegenerate uc -> calc_volume_uc uc * calc_volume_ruc uc = 1.
Proof. intros uc H. unfc; cell uc H; cfield. Qed.

(** Orthogonalisation matrices *)
Lemma mt_m_metric : forall uc, nondegenerate uc -> forall i j,
  sum3 (fun k => mget (calc_m_m uc) k i * mget (calc_m_m uc) k j) = metric uc i j.
Proof. intros uc H [] []; unfc; cell uc H; cfield. Qed.
Lemma bt_b_reciprocal : forall uc, nondegenerate uc -> forall i j,
  sum3 (fun k => mget (calc_m_b uc) k i * mget (calc_m_b uc) k j) = qget (calc_m_reciprocal_g uc) i j.
Proof. intros uc H [] []; unfc; cell uc H; cfield. Qed.
Lemma m_inverse : forall uc, nondegenerate uc -> is_inverse (mget (calc_m_m uc)) (mget (calc_m_inv_m uc)).
Proof. intros uc H. split; intros [] []; unfc; cell uc H; cfield. Qed.
Lemma b_inverse : forall uc, nondegenerate uc -> is_inverse (mget (calc_m_b uc)) (mget (calc_m_inv_b uc)).
Proof. intros uc H. split; intros [] []; unfc; cell uc H; cfield. Qed.
Lemma m_norm_inverse : forall uc, nondegenerate uc -> is_inverse (mget (calc_m_m_norm uc)) (mget (calc_m_inv_m_norm uc)).
Proof. intros uc H. split; intros [] []; unfc; cell uc H; cfield. Qed.
Lemma b_norm_inverse : forall uc, nondegenerate uc -> is_inverse (mget (calc_m_b_norm uc)) (mget (calc_m_inv_b_norm uc)).
Proof. intros uc H. split; intros [] []; unfc; cell uc H; cfield. Qed.
Lemma mn_metric : forall uc, nondegenerate uc -> forall i j,
  sum3 (fun k => mget (calc_m_m_norm uc) k i * mget (calc_m_m_norm uc) k j) = axis_cos uc i j.
Proof. intros uc H [] []; unfc; cell uc H; cfield. Qed.
Lemma bn_metric : forall uc, nondegenerate uc -> forall i j,
  sum3 (fun k => mget (calc_m_b_norm uc) k i * mget (calc_m_b_norm uc) k j) = qget (calc_m_reciprocal_g_norm uc) i j.
Proof. intros uc H [] []; unfc; cell uc H; cfield. Qed.
Lemma rg_norm : forall uc, nondegenerate uc -> forall i j,
  (qget (calc_m_reciprocal_g_norm uc) i j) ^ 2 * (qget (calc_m_reciprocal_g uc) i i * qget (calc_m_reciprocal_g uc) j j)
  = (qget (calc_m_reciprocal_g uc) i j)^2.
Proof. intros uc H [] []; unfc; cell uc H; cfield. Qed.
Lemma inv_m_b_norm_prod : forall uc, nondegenerate uc ->
  is_mul (mget (calc_m_inv_m uc)) (mget (calc_m_b_norm uc)) (mget (calc_m_inv_m_b_norm uc)).
Proof. intros uc H [] []; unfc; cell uc H; cfield. Qed.
Lemma inv_b_norm_m_prod : forall uc, nondegenerate uc ->
  is_mul (mget (calc_m_inv_b_norm uc)) (mget (calc_m_m uc)) (mget (calc_m_inv_b_norm_m uc)).
Proof. intros uc H [] []; unfc; cell uc H; cfield. Qed.
Lemma det_m_volume : forall uc, nondegenerate uc -> det3 (mget (calc_m_m uc)) = calc_volume_uc uc.
Proof. intros uc H; unfc; cell uc H; cfield. Qed.
Lemma det_b_volume : forall uc, nondegenerate uc -> det3 (mget (calc_m_b uc)) = calc_volume_ruc uc.
Proof. intros uc H; unfc; cell uc H; cfield. Qed.
(** B is the matrix of the dual basis: B^T M = identity (both in the Cartesian frame x||a*, z||c). *)
Lemma b_m_dual : forall uc, nondegenerate uc -> forall i j,
  sum3 (fun k => mget (calc_m_b uc) k i * mget (calc_m_m uc) k j) = delta i j.
Proof. intros uc H [] []; unfc; cell uc H; cfield. Qed.

(** Reciprocal cell *)
Lemma acos_ratio : forall n d p, 0 < d -> 0 < p -> d ^ 2 - n ^ 2 = p ^ 2 ->
  cos (acos (n / d)) = n / d /\ sin (acos (n / d)) = p / d /\ 0 < acos (n / d) < PI.
Proof.
  intros n d p Hd Hp E.
  assert (Hx : (n / d) ^ 2 = 1 - (p / d)^2).
  { apply (Rmult_eq_reg_r (d^2)). 2: nra. field_simplify; [lra| |]; lra. }
  assert (Hpd : 0 < p / d) by (apply Rdiv_lt_0_compat; assumption).
  assert (H1 : -1 <= n / d <= 1) by nra.
  assert (C : cos (acos (n/d)) = n/d) by (apply cos_acos; exact H1).
  assert (S : sin (acos (n/d)) = p/d).
  { rewrite sin_acos by exact H1. replace (1 - (n/d)²) with ((p/d)²) by (unfold Rsqr; lra).
    apply sqrt_Rsqr. lra. }
  split; [exact C|]. split; [exact S|].
  pose proof (acos_bound (n/d)) as [B1 B2].
  split.
  - destruct B1 as [|B1]; [assumption|]. rewrite <- B1 in S. rewrite sin_0 in S. lra.
  - destruct B2 as [|B2]; [assumption|]. rewrite B2 in S. rewrite sin_PI in S. lra.
Qed.

Lemma recip_facts : forall uc, nondegenerate uc ->
  let r := calc_reciprocal uc in
  let ca := cos (u_al uc) in let cb := cos (u_be uc) in let cg := cos (u_ga uc) in
  let sa := sin (u_al uc) in let sb := sin (u_be uc) in let sg := sin (u_ga uc) in
  let ph := calc_phi uc in
  u_a r = sa / (u_a uc * ph) /\ u_b r = sb / (u_b uc * ph) /\ u_c r = sg / (u_c uc * ph) /\
  cos (u_al r) = (cb * cg - ca) / (sb * sg) /\ cos (u_be r) = (cg * ca - cb) / (sg * sa) /\
  cos (u_ga r) = (ca * cb - cg) / (sa * sb) /\
  sin (u_al r) = ph / (sb * sg) /\ sin (u_be r) = ph / (sg * sa) /\ sin (u_ga r) = ph / (sa * sb) /\
  0 < u_al r < PI /\ 0 < u_be r < PI /\ 0 < u_ga r < PI.
Proof.
  intros uc H. cbv zeta. unfold calc_reciprocal, calc_volume_uc. cbn [u_a u_b u_c u_al u_be u_ga].
  cell uc H.
  assert (A1 : (sb * sg)^2 - (cb * cg - ca)^2 = ph^2) by ring [Eph Esa Esb Esg].
  assert (A2 : (sg * sa)^2 - (cg * ca - cb)^2 = ph^2) by ring [Eph Esa Esb Esg].
  assert (A3 : (sa * sb)^2 - (ca * cb - cg)^2 = ph^2) by ring [Eph Esa Esb Esg].
  apply acos_ratio in A1; [|apply Rmult_lt_0_compat; assumption|assumption].
  apply acos_ratio in A2; [|apply Rmult_lt_0_compat; assumption|assumption].
  apply acos_ratio in A3; [|apply Rmult_lt_0_compat; assumption|assumption].
  destruct A1 as (C1 & S1 & B1), A2 as (C2 & S2 & B2), A3 as (C3 & S3 & B3).
  rewrite C1, C2, C3, S1, S2, S3.
  do 3 (split; [field; nz|]). repeat split; tauto.
Qed.

Lemma recip_phi_sq : forall uc, nondegenerate uc ->
  calc_phi_sq (calc_reciprocal uc) = (calc_phi uc ^ 2 / (sin (u_al uc) * sin (u_be uc) * sin (u_ga uc)))^2.
Proof.
  intros uc H. pose proof (recip_facts uc H) as F. cbv zeta in F.
  destruct F as (_ & _ & _ & C1 & C2 & C3 & _).
  unfold calc_phi_sq. rewrite C1, C2, C3. clear C1 C2 C3. unfold Rsqr. cell uc H. cfield.
Qed.

Lemma recip_nondegenerate : forall uc, nondegenerate uc -> nondegenerate (calc_reciprocal uc).
Proof.
  intros uc H. pose proof (recip_facts uc H) as F. cbv zeta in F.
  pose proof (recip_phi_sq uc H) as P.
  destruct F as (A & B & C & C1 & C2 & C3 & _ & _ & _ & B1 & B2 & B3).
  unfold nondegenerate. rewrite A, B, C.
  assert (Q : 0 < calc_phi_sq (calc_reciprocal uc)).
  { rewrite P. destruct (nd_facts uc H) as (?&?&?&?&?&?&?&?&_).
    apply pow_lt, Rdiv_lt_0_compat; [apply pow_lt; assumption|].
    repeat apply Rmult_lt_0_compat; assumption. }
  assert (Q' : 0 < 1 - cos (u_al (calc_reciprocal uc)) ^ 2 - cos (u_be (calc_reciprocal uc)) ^ 2 -
    cos (u_ga (calc_reciprocal uc)) ^ 2 + 2 * cos (u_al (calc_reciprocal uc)) * cos (u_be (calc_reciprocal uc)) * cos (u_ga (calc_reciprocal uc))).
  { unfold calc_phi_sq, Rsqr in Q. lra. }
  destruct (nd_facts uc H) as (?&?&?&?&?&?&?&?&_).
  split; [|split; [|split]]; [apply Rdiv_lt_0_compat; [assumption|apply Rmult_lt_0_compat; assumption]..|].
  tauto.
Qed.

Lemma recip_phi : forall uc, nondegenerate uc ->
  calc_phi (calc_reciprocal uc) = calc_phi uc ^ 2 / (sin (u_al uc) * sin (u_be uc) * sin (u_ga uc)).
Proof.
  intros uc H. unfold calc_phi at 1. rewrite (recip_phi_sq uc H).
  rewrite <- Rsqr_pow2. apply sqrt_Rsqr. left.
  destruct (nd_facts uc H) as (?&?&?&?&?&?&?&?&_).
  apply Rdiv_lt_0_compat; [apply pow_lt; assumption|]. repeat apply Rmult_lt_0_compat; assumption.
Qed.

Lemma recip_metric : forall uc, nondegenerate uc -> forall i j,
  qget (calc_m_g (calc_reciprocal uc)) i j = qget (calc_m_reciprocal_g uc) i j.
Proof.
  intros uc H i j. pose proof (recip_facts uc H) as F. cbv zeta in F.
  destruct F as (A & B & C & C1 & C2 & C3 & _).
  destruct i, j; unfc; rewrite ?A, ?B, ?C, ?C1, ?C2, ?C3; clear A B C C1 C2 C3; cell uc H; cfield.
Qed.
Lemma recip_volume : forall uc, nondegenerate uc ->
  calc_volume_uc (calc_reciprocal uc) = calc_volume_ruc uc.
Proof.
  intros uc H. pose proof (recip_facts uc H) as F. cbv zeta in F.
  destruct F as (A & B & C & _). unfold calc_volume_ruc, calc_volume_uc.
  rewrite A, B, C, (recip_phi uc H). clear A B C. cell uc H. cfield.
Qed.
Lemma acos_eq : forall x t, 0 < t < PI -> x = cos t -> acos x = t.
Proof. intros x t H ->. apply acos_cos. lra. Qed.
Lemma recip_involutive : forall uc, nondegenerate uc -> calc_reciprocal (calc_reciprocal uc) = uc.
Proof.
  intros uc H. pose proof (recip_facts uc H) as F. cbv zeta in F.
  pose proof (recip_facts _ (recip_nondegenerate _ H)) as F2. cbv zeta in F2.
  destruct F as (A & B & C & C1 & C2 & C3 & S1 & S2 & S3 & _).
  rewrite (recip_phi uc H) in F2. rewrite A, B, C, C1, C2, C3, S1, S2, S3 in F2.
  destruct F2 as (A' & B' & C' & _).
  assert (G : forall u v : U6 R, (forall p, uget u p = uget v p) -> u = v).
  { intros [] [] E. pose proof (E Ua); pose proof (E Ub); pose proof (E Uc); pose proof (E Ual); pose proof (E Ube); pose proof (E Uga).
    cbn in *. congruence. }
  apply G. intros p.
  pose proof H as (_ & _ & _ & Bal & Bbe & Bga & _).
  destruct p; cbn [uget].
  - rewrite A'. clear - H. cell uc H. cfield.
  - rewrite B'. clear - H. cell uc H. cfield.
  - rewrite C'. clear - H. cell uc H. cfield.
  - unfold calc_reciprocal at 1. cbn [u_al]. rewrite C1, C2, C3, S2, S3.
    apply acos_eq; [assumption|]. clear - H. cell uc H. cfield.
  - unfold calc_reciprocal at 1. cbn [u_be]. rewrite C1, C2, C3, S1, S3.
    apply acos_eq; [assumption|]. clear - H. cell uc H. cfield.
  - unfold calc_reciprocal at 1. cbn [u_ga]. rewrite C1, C2, C3, S1, S2.
    apply acos_eq; [assumption|]. clear - H. cell uc H. cfield.
Qed.

(** d-spacing and scattering vector *)
Lemma quad_pos_m : forall (m : M3 R) (v : V3 R),
  sum3 (fun i => sum3 (fun j => vget v i * sum3 (fun k => mget m k i * mget m k j) * vget v j)) =
  Rsqr (vget (calc_m_v m v) X1) + Rsqr (vget (calc_m_v m v) X2) + Rsqr (vget (calc_m_v m v) X3).
Proof. intros. dm. unf. unfold Rsqr. ring. Qed.

Lemma q_ccs_is_b_hkl : forall hkl uc, calc_q_ccs hkl uc = calc_m_v (calc_m_b uc) hkl.
Proof. intros [] uc. unfold calc_q_ccs. destruct (calc_m_b uc). reflexivity. Qed.

Definition form_rg (hkl : V3 R) (uc : U6 R) : R :=
  sum3 (fun i => sum3 (fun j => vget hkl i * qget (calc_m_reciprocal_g uc) i j * vget hkl j)).

Lemma form_rg_q : forall hkl uc, nondegenerate uc ->
  form_rg hkl uc = dot (vget (calc_q_ccs hkl uc)) (vget (calc_q_ccs hkl uc)).
Proof.
  intros hkl uc H. unfold form_rg.
  assert (E : forall i j, qget (calc_m_reciprocal_g uc) i j = sum3 (fun k => mget (calc_m_b uc) k i * mget (calc_m_b uc) k j))
    by (intros; symmetry; apply bt_b_reciprocal; assumption).
  rewrite q_ccs_is_b_hkl. unfold sum3. rewrite !E. unfold dot, sum3. rewrite !m_v_spec. unfold sum3. ring.
Qed.
Lemma inv_d_arg : forall hkl uc, nondegenerate uc -> calc_inv_d hkl uc = sqrt (form_rg hkl uc).
Proof.
  intros [h k l] uc H. unfold calc_inv_d, form_rg. cbv [v_1 v_2 v_3]. f_equal.
  replace (1 - (cos (u_al uc))² - (cos (u_be uc))² - (cos (u_ga uc))² + 2 * cos (u_al uc) * cos (u_be uc) * cos (u_ga uc))
    with (calc_phi_sq uc) by reflexivity.
  unfc. cell uc H. cfield.
Qed.
Lemma inv_d_sq : forall hkl uc, nondegenerate uc -> (calc_inv_d hkl uc)^2 = form_rg hkl uc.
Proof.
  intros hkl uc H. rewrite (inv_d_arg hkl uc H).
  rewrite <- Rsqr_pow2. apply Rsqr_sqrt. rewrite (form_rg_q hkl uc H).
  unfold dot, sum3. pose proof (Rle_0_sqr (vget (calc_q_ccs hkl uc) X1)).
  pose proof (Rle_0_sqr (vget (calc_q_ccs hkl uc) X2)). pose proof (Rle_0_sqr (vget (calc_q_ccs hkl uc) X3)).
  unfold Rsqr in *. lra.
Qed.
Lemma inv_d_norm : forall hkl uc, nondegenerate uc ->
  calc_inv_d hkl uc = sqrt (dot (vget (calc_q_ccs hkl uc)) (vget (calc_q_ccs hkl uc))).
Proof. intros. rewrite inv_d_arg, form_rg_q by assumption. reflexivity. Qed.

Lemma q_zero_iff : forall hkl uc, nondegenerate uc ->
  dot (vget (calc_q_ccs hkl uc)) (vget (calc_q_ccs hkl uc)) = 0 -> hkl = mkV 0 0 0.
Proof.
  intros hkl uc H E. rewrite q_ccs_is_b_hkl in E.
  pose proof (b_inverse uc H) as [_ I].
  assert (Z : forall i, vget (calc_m_v (calc_m_b uc) hkl) i = 0).
  { unfold dot, sum3 in E. pose proof (Rle_0_sqr (vget (calc_m_v (calc_m_b uc) hkl) X1)).
    pose proof (Rle_0_sqr (vget (calc_m_v (calc_m_b uc) hkl) X2)).
    pose proof (Rle_0_sqr (vget (calc_m_v (calc_m_b uc) hkl) X3)). unfold Rsqr in *.
    intros []; apply Rsqr_0_uniq; unfold Rsqr; lra. }
  assert (R' : forall i, vget hkl i = sum3 (fun k => mget (calc_m_inv_b uc) i k * vget (calc_m_v (calc_m_b uc) hkl) k)).
  { intros i.
    transitivity (sum3 (fun j => delta i j * vget hkl j)).
    { destruct i; unfold sum3, delta; ring. }
    transitivity (sum3 (fun j => sum3 (fun k => mget (calc_m_inv_b uc) i k * mget (calc_m_b uc) k j) * vget hkl j)).
    { apply sum3_ext; intros j. rewrite I. reflexivity. }
    unfold sum3. rewrite !m_v_spec. unfold sum3. ring. }
  assert (R0 : forall i, vget hkl i = 0).
  { intros i. rewrite R'. unfold sum3. rewrite !Z. ring. }
  pose proof (R0 X1) as E1; pose proof (R0 X2) as E2; pose proof (R0 X3) as E3.
  destruct hkl. cbn in *. congruence.
Qed.

Lemma eq_ccs_spec : forall hkl uc, nondegenerate uc -> hkl <> mkV 0 0 0 ->
  dot (vget (calc_eq_ccs hkl uc)) (vget (calc_eq_ccs hkl uc)) = 1 /\
  forall i, vget (calc_q_ccs hkl uc) i = calc_inv_d hkl uc * vget (calc_eq_ccs hkl uc) i.
Proof.
  intros hkl uc H Hn.
  assert (Hd : dot (vget (calc_q_ccs hkl uc)) (vget (calc_q_ccs hkl uc)) <> 0)
    by (intros E; apply Hn, (q_zero_iff hkl uc H E)).
  rewrite (inv_d_norm hkl uc H). unfold calc_eq_ccs.
  set (q := calc_q_ccs hkl uc) in *. clearbody q.
  assert (Hp : 0 < dot (vget q) (vget q)).
  { unfold dot, sum3 in *. pose proof (Rle_0_sqr (vget q X1)). pose proof (Rle_0_sqr (vget q X2)).
    pose proof (Rle_0_sqr (vget q X3)). unfold Rsqr in *. lra. }
  replace (Rsqr (v_1 q) + Rsqr (v_2 q) + Rsqr (v_3 q)) with (dot (vget q) (vget q)) by reflexivity.
  pose proof (sqrt_lt_R0 _ Hp) as Hs.
  destruct (Req_EM_T _ 0) as [E0|_]; [rewrite E0 in Hs; lra|].
  assert (E : sqrt (dot (vget q) (vget q)) * sqrt (dot (vget q) (vget q)) = dot (vget q) (vget q)) by (apply sqrt_sqrt; lra).
  set (n := sqrt _) in *. split.
  - unfold dot at 1, sum3 at 1. cbn [vget v_1 v_2 v_3].
    transitivity (dot (vget q) (vget q) / (n * n)).
    + unfold dot, sum3, vget. field. lra.
    + rewrite <- E. field. lra.
  - intros []; cbn [vget v_1 v_2 v_3]; field; lra.
Qed.
Lemma eq_ccs_zero : forall uc i, vget (calc_eq_ccs (mkV 0 0 0) uc) i = 0.
Proof.
  intros uc i. unfold calc_eq_ccs.
  assert (Z : calc_q_ccs (mkV 0 0 0) uc = mkV 0 0 0).
  { unfold calc_q_ccs. destruct (calc_m_b uc). f_equal; ring. }
  rewrite Z. cbn [v_1 v_2 v_3]. destruct i; cbn; unfold Rdiv; ring.
Qed.

(** Basis transformations *)
Lemma stack_t_spec : forall m i j, mget (stack_transposed m) i j = mget m j i.
Proof. intros [] [] []; reflexivity. Qed.
Lemma transform_spec : forall m q i j,
  qget (calc_m_q_mt (stack_transposed m) q) i j = sum3 (fun k => sum3 (fun l => mget m k i * qget q k l * mget m l j)).
Proof. intros. rewrite m_q_mt_spec. unfold sum3. rewrite !stack_t_spec. reflexivity. Qed.
Lemma qext : forall p q : Q6 R, (forall i j, qget p i j = qget q i j) -> p = q.
Proof.
  intros [] [] E. pose proof (E X1 X1); pose proof (E X2 X2); pose proof (E X3 X3); pose proof (E X1 X2);
  pose proof (E X1 X3); pose proof (E X2 X3). cbn in *. congruence.
Qed.
Lemma transform_roundtrip : forall m mi q, is_inverse (mget m) (mget mi) ->
  calc_m_q_mt (stack_transposed m) (calc_m_q_mt (stack_transposed mi) q) = q.
Proof.
  intros m mi q [_ I]. apply qext. intros i j. rewrite transform_spec.
  assert (E : forall k l, qget (calc_m_q_mt (stack_transposed mi) q) k l = sum3 (fun a => sum3 (fun b => mget mi a k * qget q a b * mget mi b l)))
    by (intros; apply transform_spec).
  transitivity (sum3 (fun a => sum3 (fun b => sum3 (fun k => mget mi a k * mget m k i) * qget q a b * sum3 (fun k => mget mi b k * mget m k j)))).
  - unfold sum3. rewrite !E. unfold sum3. ring.
  - transitivity (sum3 (fun a => sum3 (fun b => delta a i * qget q a b * delta b j))).
    + apply sum3_ext; intros a. apply sum3_ext; intros b. rewrite !I. reflexivity.
    + destruct i, j; unfold sum3, delta, qget; ring.
Qed.
Lemma transform_form : forall m q v,
  sum3 (fun i => sum3 (fun j => vget v i * qget (calc_m_q_mt (stack_transposed m) q) i j * vget v j)) =
  sum3 (fun i => sum3 (fun j => vget (calc_m_v m v) i * qget q i j * vget (calc_m_v m v) j)).
Proof.
  intros. unfold sum3. rewrite !transform_spec, !m_v_spec. unfold sum3. ring.
Qed.
Lemma inverse_sym : forall a b, is_inverse a b -> is_inverse b a.
Proof. intros a b [H1 H2]; split; assumption. Qed.
Lemma det3_ext : forall f g, (forall i j, f i j = g i j) -> det3 f = det3 g.
Proof. intros f g H. unfold det3. rewrite !H. reflexivity. Qed.
Lemma det_metric : forall uc, nondegenerate uc -> det3 (metric uc) = (calc_volume_uc uc)^2.
Proof. intros uc H. rewrite <- (det_g uc H). apply det3_ext. intros. symmetry. apply m_g_metric. Qed.
Lemma bn_metric_cos : forall uc, nondegenerate uc -> forall i j,
  sum3 (fun k => mget (calc_m_b_norm uc) k i * mget (calc_m_b_norm uc) k j) = axis_cos (calc_reciprocal uc) i j.
Proof.
  intros uc H i j. rewrite (bn_metric uc H). pose proof (recip_facts uc H) as F. cbv zeta in F.
  destruct F as (A & B & C & C1 & C2 & C3 & _).
  destruct i, j; unfold axis_cos; rewrite ?C1, ?C2, ?C3; clear A B C C1 C2 C3; unfc; try reflexivity; cell uc H; field; nz.
Qed.
Lemma sthovl_half : forall hkl uc, calc_sthovl hkl uc = calc_inv_d hkl uc / 2.
Proof. intros. unfold calc_sthovl. field. Qed.
Lemma inv_d_pos : forall hkl uc, nondegenerate uc -> hkl <> mkV 0 0 0 -> 0 < calc_inv_d hkl uc.
Proof.
  intros hkl uc H Hn. rewrite (inv_d_norm hkl uc H). apply sqrt_lt_R0.
  destruct (Rtotal_order 0 (dot (vget (calc_q_ccs hkl uc)) (vget (calc_q_ccs hkl uc)))) as [|[E|E]]; [assumption| |].
  - exfalso. apply Hn, (q_zero_iff hkl uc H). auto.
  - unfold dot, sum3 in E. exfalso. nra.
Qed.
Lemma roundtrips : forall q uc, nondegenerate uc ->
  transform_ccs_to_direct (transform_direct_to_ccs q uc) uc = q /\
  transform_direct_to_ccs (transform_ccs_to_direct q uc) uc = q /\
  transform_ccs_to_direct_norm (transform_direct_norm_to_ccs q uc) uc = q /\
  transform_direct_norm_to_ccs (transform_ccs_to_direct_norm q uc) uc = q /\
  transform_ccs_to_reciprocal (transform_reciprocal_to_ccs q uc) uc = q /\
  transform_reciprocal_to_ccs (transform_ccs_to_reciprocal q uc) uc = q /\
  transform_ccs_to_reciprocal_norm (transform_reciprocal_norm_to_ccs q uc) uc = q /\
  transform_reciprocal_norm_to_ccs (transform_ccs_to_reciprocal_norm q uc) uc = q.
Proof.
  intros q uc H.
  pose proof (m_inverse uc H). pose proof (b_inverse uc H). pose proof (m_norm_inverse uc H). pose proof (b_norm_inverse uc H).
  repeat split; apply transform_roundtrip; first [assumption | apply inverse_sym; assumption].
Qed.
Lemma form_pair : forall (m mi : M3 R) q v, is_inverse (mget m) (mget mi) ->
  let form (t : Q6 R) (v : ix -> R) := sum3 (fun i => sum3 (fun j => v i * qget t i j * v j)) in
  let mx := fun i => sum3 (fun k => mget m i k * vget v k) in
  form (calc_m_q_mt (stack_transposed m) q) (vget v) = form q mx /\
  form (calc_m_q_mt (stack_transposed mi) q) mx = form q (vget v).
Proof.
  intros m mi q v H. cbv zeta.
  assert (G : forall q, sum3 (fun i => sum3 (fun j => vget v i * qget (calc_m_q_mt (stack_transposed m) q) i j * vget v j)) =
     sum3 (fun i => sum3 (fun j => sum3 (fun k => mget m i k * vget v k) * qget q i j * sum3 (fun k => mget m j k * vget v k)))).
  { intros q0. unfold sum3. rewrite !transform_spec. unfold sum3. ring. }
  split; [apply G|].
  rewrite <- G, transform_roundtrip by assumption. reflexivity.
Qed.
Lemma direct_form : forall q uc x, nondegenerate uc ->
  let form (t : Q6 R) (v : ix -> R) := sum3 (fun i => sum3 (fun j => v i * qget t i j * v j)) in
  let mx := fun i => sum3 (fun k => mget (calc_m_m uc) i k * vget x k) in
  form (transform_ccs_to_direct q uc) (vget x) = form q mx /\
  form (transform_direct_to_ccs q uc) mx = form q (vget x).
Proof. intros q uc x H. exact (form_pair _ _ q x (m_inverse uc H)). Qed.
Lemma reciprocal_form : forall q uc h, nondegenerate uc ->
  let form (t : Q6 R) (v : ix -> R) := sum3 (fun i => sum3 (fun j => v i * qget t i j * v j)) in
  let bh := fun i => sum3 (fun k => mget (calc_m_b uc) i k * vget h k) in
  form (transform_ccs_to_reciprocal q uc) (vget h) = form q bh /\
  form (transform_reciprocal_to_ccs q uc) bh = form q (vget h).
Proof. intros q uc x H. exact (form_pair _ _ q x (b_inverse uc H)). Qed.
Lemma direct_norm_form : forall q uc x, nondegenerate uc ->
  let form (t : Q6 R) (v : ix -> R) := sum3 (fun i => sum3 (fun j => v i * qget t i j * v j)) in
  let mx := fun i => sum3 (fun k => mget (calc_m_m_norm uc) i k * vget x k) in
  form (transform_ccs_to_direct_norm q uc) (vget x) = form q mx /\
  form (transform_direct_norm_to_ccs q uc) mx = form q (vget x).
Proof. intros q uc x H. exact (form_pair _ _ q x (m_norm_inverse uc H)). Qed.
Lemma reciprocal_norm_form : forall q uc h, nondegenerate uc ->
  let form (t : Q6 R) (v : ix -> R) := sum3 (fun i => sum3 (fun j => v i * qget t i j * v j)) in
  let bh := fun i => sum3 (fun k => mget (calc_m_b_norm uc) i k * vget h k) in
  form (transform_ccs_to_reciprocal_norm q uc) (vget h) = form q bh /\
  form (transform_reciprocal_norm_to_ccs q uc) bh = form q (vget h).
Proof. intros q uc x H. exact (form_pair _ _ q x (b_norm_inverse uc H)). Qed.
