(** Derivatives with respect to the unit-cell parameters (C11). *)
From Coq Require Import Reals Lra Psatz.
From Coquelicot Require Import Coquelicot.
From Verif Require Import Spec.Lin3 Spec.Cell Model.MatrixOps Model.UnitCell Proofs.MatrixOpsP Proofs.UnitCellP.
Open Scope R_scope.

Ltac ud := unfold is_partial_u; cbv [uset uget qget mget vget q_11 q_22 q_33 q_12 q_13 q_23
   m_11 m_12 m_13 m_21 m_22 m_23 m_31 m_32 m_33 u_a u_b u_c u_al u_be u_ga
   calc_phi_sq calc_phi_sq_dder calc_phi calc_phi_dder calc_volume_uc calc_volume_uc_dder calc_m_g calc_m_g_dder
   calc_m_g_norm calc_m_g_norm_dder calc_m_reciprocal_g_norm calc_m_reciprocal_g_norm_dder
   calc_m_b calc_m_b_dder calc_m_m_norm calc_m_m_norm_dder Rsqr].
(** the Gram determinant of the unit vectors, in the raw form [1 - ca*ca - ...] *)
Definition gram (al be ga : R) : R := 1 - cos al * cos al - cos be * cos be - cos ga * cos ga + 2 * cos al * cos be * cos ga.
Lemma nd_raw : forall a b c al be ga, nondegenerate (mkU a b c al be ga) ->
  0 < a /\ 0 < b /\ 0 < c /\ 0 < sin al /\ 0 < sin be /\ 0 < sin ga /\ 0 < gram al be ga /\ 0 < sqrt (gram al be ga) /\
  sqrt (gram al be ga) ^ 2 = 1 - (cos al)^2 - (cos be)^2 - (cos ga)^2 + 2 * cos al * cos be * cos ga /\
  (sin al)^2 = 1 - (cos al)^2 /\ (sin be)^2 = 1 - (cos be)^2 /\ (sin ga)^2 = 1 - (cos ga)^2.
Proof.
  intros a b c al be ga H. destruct (nd_facts _ H) as (?&?&?&?&?&?&?&?&?&?&?&?&?).
  cbn [u_a u_b u_c u_al u_be u_ga] in *. unfold calc_phi, calc_phi_sq, Rsqr in *. cbn [u_a u_b u_c u_al u_be u_ga] in *.
  unfold gram. repeat split; assumption.
Qed.
Ltac foldg al be ga := repeat match goal with
  |- context [sqrt ?e] => lazymatch e with gram _ _ _ => fail | _ =>
     replace (sqrt e) with (sqrt (gram al be ga)) by (f_equal; unfold gram; ring) end end.
Ltac nz2 := repeat split; try exact I; try (apply Rgt_not_eq; assumption); try (apply not_eq_sym, Rlt_not_eq; assumption);
   try (apply Rmult_integral_contrapositive_currified); try (apply Rgt_not_eq; assumption); try lra.
Ltac dcell p uc H :=
  destruct uc as [a b c al be ga]; destruct (nd_raw _ _ _ _ _ _ H) as (Ha&Hb&Hc&Hsa&Hsb&Hsg&Hq&Hph&Eph&Esa&Esb&Esg);
  destruct p; ud;
  (auto_derive; [ foldg al be ga; repeat split; try exact I; try (unfold gram in *; lra); repeat apply Rmult_integral_contrapositive_currified; nz2 | foldg al be ga; try ring ]).

Lemma phi_sq_d : forall uc p, is_partial_u calc_phi_sq uc p (uget (calc_phi_sq_dder uc) p).
Proof. intros [a b c al be ga] []; ud; (auto_derive; [repeat split; exact I|ring]). Qed.
Lemma phi_d : forall uc p, nondegenerate uc -> is_partial_u calc_phi uc p (uget (calc_phi_dder uc) p).
Proof. intros uc p H. dcell p uc H; field; nz2. Qed.
Lemma m_g_d : forall uc p i j, is_partial_u (fun u => qget (calc_m_g u) i j) uc p (uget (qget (calc_m_g_dder uc) i j) p).
Proof. intros [a b c al be ga] [] [] []; ud; (auto_derive; [repeat split; exact I|ring]). Qed.
Lemma volume_d_len : forall uc p, nondegenerate uc -> p = Ua \/ p = Ub \/ p = Uc ->
  is_partial_u calc_volume_uc uc p (uget (calc_volume_uc_dder uc) p).
Proof. intros uc p H Hp. dcell p uc H; try (destruct Hp as [Hp|[Hp|Hp]]; discriminate). Qed.
Lemma m_g_norm_d_ang : forall uc p i j, p = Ual \/ p = Ube \/ p = Uga ->
  is_partial_u (fun u => qget (calc_m_g_norm u) i j) uc p (uget (qget (calc_m_g_norm_dder uc) i j) p).
Proof. intros [a b c al be ga] [] [] [] Hp; try (destruct Hp as [Hp|[Hp|Hp]]; discriminate); ud; (auto_derive; [repeat split; exact I|ring]). Qed.
Lemma m_rg_norm_d : forall uc p i j, nondegenerate uc ->
  is_partial_u (fun u => qget (calc_m_reciprocal_g_norm u) i j) uc p (uget (qget (calc_m_reciprocal_g_norm_dder uc) i j) p).
Proof. intros uc p i j H. destruct i, j; dcell p uc H; field [Esa Esb Esg]; nz2. Qed.
Lemma m_b_d : forall uc p i j, nondegenerate uc ->
  (i <> X1 \/ j <> X2 \/ p <> Ube) -> (i <> X2 \/ j <> X2 \/ p <> Ual) ->
  is_partial_u (fun u => mget (calc_m_b u) i j) uc p (uget (mget (calc_m_b_dder uc) i j) p).
Proof.
  intros uc p i j H Hn Hn2. destruct i, j; dcell p uc H;
  try (exfalso; destruct Hn as [Hn|[Hn|Hn]]; apply Hn; reflexivity);
  try (exfalso; destruct Hn2 as [Hn2|[Hn2|Hn2]]; apply Hn2; reflexivity);
  field [Esa Esb Esg Eph]; nz2.
Qed.
Lemma m_m_norm_d : forall uc p i j, nondegenerate uc -> (i <> X1 \/ j <> X1 \/ p = Ua \/ p = Ub \/ p = Uc) ->
  is_partial_u (fun u => mget (calc_m_m_norm u) i j) uc p (uget (mget (calc_m_m_norm_dder uc) i j) p).
Proof.
  intros uc p i j H Hn. destruct i, j; dcell p uc H; try (exfalso; destruct Hn as [Hn|[Hn|[Hn|[Hn|Hn]]]]; first [apply Hn; reflexivity | discriminate]);
  field [Esa Esb Esg Eph]; nz2.
Qed.
(** in the two exceptional places the value is what follows *)
Lemma m_b_12_be_true : forall uc, nondegenerate uc ->
  is_partial_u (fun u => mget (calc_m_b u) X1 X2) uc Ube
    (uget (mget (calc_m_b_dder uc) X1 X2) Ube - 2 * (cos (u_al uc) * sin (u_be uc) / (u_b uc * calc_phi uc * sin (u_al uc)))).
Proof. intros uc H. set (p := Ube). assert (Hp : p = Ube) by reflexivity. clearbody p. 
  dcell p uc H; try discriminate. field [Esa Esb Esg Eph]; nz2. Qed.
Lemma m_m_norm_11_ang_true : forall uc, nondegenerate uc ->
  let t := 2 * (cos (u_be uc) - cos (u_al uc) * cos (u_ga uc)) * sin (u_be uc) / (calc_phi uc * sin (u_al uc)) in
  is_partial_u (fun u => mget (calc_m_m_norm u) X1 X1) uc Ube (uget (mget (calc_m_m_norm_dder uc) X1 X1) Ube + t).
Proof. intros uc H. set (p := Ube). assert (Hp : p = Ube) by reflexivity. clearbody p. 
  dcell p uc H; try discriminate. field [Esa Esb Esg Eph]; nz2. Qed.

(** calc_q_ccs and calc_eq_ccs: derivatives assembled from those of B. *)
Lemma q_ccs_d : forall hkl uc p i, nondegenerate uc -> p <> Ube -> p <> Ual ->
  is_partial_u (fun u => vget (calc_q_ccs hkl u) i) uc p (uget (vget (calc_q_ccs_dder hkl uc) i) p).
Proof.
  intros hkl uc p i H N1 N2.
  assert (D : forall j, is_partial_u (fun u => mget (calc_m_b u) i j) uc p (uget (mget (calc_m_b_dder uc) i j) p))
    by (intros; apply m_b_d; auto).
  unfold is_partial_u in *.
  apply is_derive_ext with (f := fun t => v_1 hkl * mget (calc_m_b (uset uc p t)) i X1 + v_2 hkl * mget (calc_m_b (uset uc p t)) i X2
     + v_3 hkl * mget (calc_m_b (uset uc p t)) i X3).
  { intros t. rewrite q_ccs_is_b_hkl, m_v_spec. unfold sum3, vget. cbn. ring. }
  assert (E : uget (vget (calc_q_ccs_dder hkl uc) i) p =
    v_1 hkl * uget (mget (calc_m_b_dder uc) i X1) p + v_2 hkl * uget (mget (calc_m_b_dder uc) i X2) p + v_3 hkl * uget (mget (calc_m_b_dder uc) i X3) p).
  { unfold calc_q_ccs_dder. generalize (calc_m_b_dder uc). intros d. destruct i, p; reflexivity. }
  rewrite E.
  apply (is_derive_plus (fun t => v_1 hkl * mget (calc_m_b (uset uc p t)) i X1 + v_2 hkl * mget (calc_m_b (uset uc p t)) i X2)
    (fun t => v_3 hkl * mget (calc_m_b (uset uc p t)) i X3)).
  apply (is_derive_plus (fun t => v_1 hkl * mget (calc_m_b (uset uc p t)) i X1) (fun t => v_2 hkl * mget (calc_m_b (uset uc p t)) i X2)).
  all: apply is_derive_scal; apply D.
Qed.
Lemma eq_ccs_plain : forall hkl uc i, vget (calc_eq_ccs hkl uc) i =
  vget (calc_q_ccs hkl uc) i / sqrt (vget (calc_q_ccs hkl uc) X1 * vget (calc_q_ccs hkl uc) X1 +
    vget (calc_q_ccs hkl uc) X2 * vget (calc_q_ccs hkl uc) X2 + vget (calc_q_ccs hkl uc) X3 * vget (calc_q_ccs hkl uc) X3).
Proof.
  intros. unfold calc_eq_ccs. generalize (calc_q_ccs hkl uc). intros [x y z]. cbn [v_1 v_2 v_3 vget]. unfold Rsqr.
  destruct (Req_EM_T _ 0) as [E|_]; [|destruct i; reflexivity].
  assert (x * x + y * y + z * z = 0) by (apply sqrt_eq_0; [nra|exact E]).
  assert (x = 0) by nra. assert (y = 0) by nra. assert (z = 0) by nra. subst.
  rewrite E. destruct i; cbn; unfold Rdiv; ring.
Qed.
Lemma norm_ratio_d : forall (x y z w : R -> R) t dx dy dz dw, is_derive x t dx -> is_derive y t dy -> is_derive z t dz -> is_derive w t dw ->
  0 < x t * x t + y t * y t + z t * z t ->
  is_derive (fun s => w s / sqrt (x s * x s + y s * y s + z s * z s)) t
    (let n := sqrt (x t * x t + y t * y t + z t * z t) in dw / n - w t / Rsqr n * (x t * dx + y t * dy + z t * dz) / n).
Proof.
  intros x y z w t dx dy dz dw Hx Hy Hz Hw Hp. cbv zeta.
  pose proof (sqrt_lt_R0 _ Hp).
  auto_derive.
  - repeat split; try (eexists; eassumption); try assumption. lra.
  - rewrite (is_derive_unique (fun x0 : R => x x0) t dx Hx), (is_derive_unique (fun x0 : R => y x0) t dy Hy),
      (is_derive_unique (fun x0 : R => z x0) t dz Hz), (is_derive_unique (fun x0 : R => w x0) t dw Hw).
    unfold Rsqr. field. lra.
Qed.
Lemma eq_ccs_d : forall hkl uc p i, nondegenerate uc -> hkl <> mkV 0 0 0 -> p <> Ube -> p <> Ual ->
  is_partial_u (fun u => vget (calc_eq_ccs hkl u) i) uc p (vget (calc_eq_ccs_dder hkl uc p) i).
Proof.
  intros hkl uc p i H Hn N1 N2. unfold is_partial_u.
  eapply is_derive_ext. { intros t. symmetry. apply eq_ccs_plain. }
  assert (Hp : 0 < dot (vget (calc_q_ccs hkl uc)) (vget (calc_q_ccs hkl uc))).
  { destruct (Rtotal_order 0 (dot (vget (calc_q_ccs hkl uc)) (vget (calc_q_ccs hkl uc)))) as [|[E|E]]; [assumption| |].
    - exfalso. apply Hn, (q_zero_iff hkl uc H). auto.
    - unfold dot, sum3 in E. exfalso. nra. }
  assert (U : uset uc p (uget uc p) = uc) by (destruct uc, p; reflexivity).
  pose proof (q_ccs_d hkl uc p X1 H N1 N2) as D1. pose proof (q_ccs_d hkl uc p X2 H N1 N2) as D2.
  pose proof (q_ccs_d hkl uc p X3 H N1 N2) as D3. pose proof (q_ccs_d hkl uc p i H N1 N2) as Di.
  unfold is_partial_u in *.
  pose proof (norm_ratio_d _ _ _ _ _ _ _ _ _ D1 D2 D3 Di) as D. cbv beta zeta in D. rewrite U in D.
  specialize (D Hp).
  assert (E : vget (calc_eq_ccs_dder hkl uc p) i =
    (let n := sqrt (dot (vget (calc_q_ccs hkl uc)) (vget (calc_q_ccs hkl uc))) in
     uget (vget (calc_q_ccs_dder hkl uc) i) p / n - vget (calc_q_ccs hkl uc) i / Rsqr n *
      (vget (calc_q_ccs hkl uc) X1 * uget (vget (calc_q_ccs_dder hkl uc) X1) p + vget (calc_q_ccs hkl uc) X2 * uget (vget (calc_q_ccs_dder hkl uc) X2) p +
       vget (calc_q_ccs hkl uc) X3 * uget (vget (calc_q_ccs_dder hkl uc) X3) p) / n)).
  { unfold calc_eq_ccs_dder. cbv zeta.
    replace ((v_1 (calc_q_ccs hkl uc))² + (v_2 (calc_q_ccs hkl uc))² + (v_3 (calc_q_ccs hkl uc))²) with
      (dot (vget (calc_q_ccs hkl uc)) (vget (calc_q_ccs hkl uc))) by reflexivity.
    pose proof (sqrt_lt_R0 _ Hp). destruct (Req_EM_T _ 0) as [E0|_]; [rewrite E0 in H0; lra|].
    destruct i; reflexivity. }
  rewrite E. exact D.
Qed.

(** 1/d for orthogonal cells *)
Lemma inv_d_d_ortho : forall hkl uc p, nondegenerate uc -> hkl <> mkV 0 0 0 ->
  u_al uc = PI / 2 -> u_be uc = PI / 2 -> u_ga uc = PI / 2 ->
  is_partial_u (calc_inv_d hkl) uc p (uget (calc_inv_d_dder hkl uc) p).
Proof.
  intros [h k l] uc p H Hn Eal Ebe Ega.
  assert (Hpos : 0 < form_rg (mkV h k l) uc).
  { rewrite (form_rg_q _ _ H).
    destruct (Rtotal_order 0 (dot (vget (calc_q_ccs (mkV h k l) uc)) (vget (calc_q_ccs (mkV h k l) uc)))) as [|[E|E]]; [assumption| |].
    - exfalso. apply Hn, (q_zero_iff _ uc H). auto.
    - unfold dot, sum3 in E. exfalso. nra. }
  destruct uc as [a b c al be ga]. cbn [u_a u_b u_c u_al u_be u_ga] in *. subst al be ga.
  destruct H as (Ha & Hb & Hc & _). cbn [u_a u_b u_c] in *.
  assert (F : form_rg (mkV h k l) (mkU a b c (PI/2) (PI/2) (PI/2)) = h*h/(a*a)+k*k/(b*b)+l*l/(c*c)).
  { unfold form_rg, calc_m_reciprocal_g, calc_phi_sq, sum3, qget, vget, Rsqr.
    cbn [u_a u_b u_c u_al u_be u_ga v_1 v_2 v_3 q_11 q_22 q_33 q_12 q_13 q_23]. rewrite cos_PI2, sin_PI2. field. lra. }
  rewrite F in Hpos.
  unfold is_partial_u, calc_inv_d_dder, calc_inv_d.
  cbn [u_a u_b u_c u_al u_be u_ga v_1 v_2 v_3]. unfold Rsqr.
  destruct p; cbn [uset uget u_a u_b u_c u_al u_be u_ga v_1 v_2 v_3];
  (auto_derive; rewrite ?cos_PI2, ?sin_PI2;
   [ repeat split; try exact I; try lra; try (apply Rmult_integral_contrapositive_currified; lra);
     (replace 0 with 0 by reflexivity; match goal with |- 0 < ?e => replace e with (h*h/(a*a)+k*k/(b*b)+l*l/(c*c)); [exact Hpos | field; lra] end)
   | match goal with |- _ = ?rhs => idtac end;
     repeat match goal with |- context [sqrt ?e] => lazymatch e with
       h*h/(a*a)+k*k/(b*b)+l*l/(c*c) => fail | _ =>
       replace (sqrt e) with (sqrt (h*h/(a*a)+k*k/(b*b)+l*l/(c*c))) by (f_equal; field; lra) end end;
     pose proof (sqrt_lt_R0 _ Hpos); set (n := sqrt _) in *; clearbody n; field; lra ]).
Qed.

(** Refutations: the true derivative is computed and differs. *)
Lemma partial_unique : forall f uc p d1 d2, is_partial_u f uc p d1 -> is_partial_u f uc p d2 -> d1 = d2.
Proof.
  intros f uc p d1 d2 H1 H2. apply is_derive_unique in H1. apply is_derive_unique in H2.
  exact (eq_trans (eq_sym H1) H2).
Qed.
Lemma cos_lt1 : forall al, 0 < sin al -> -1 < cos al < 1.
Proof. intros al H. pose proof (sin2_cos2 al) as E. unfold Rsqr in E. nra. Qed.

Lemma m_b_12_be_wrong : forall uc, nondegenerate uc -> cos (u_al uc) <> 0 ->
  ~ is_partial_u (fun u => mget (calc_m_b u) X1 X2) uc Ube (uget (mget (calc_m_b_dder uc) X1 X2) Ube).
Proof.
  intros uc H Hc D. pose proof (partial_unique _ _ _ _ _ (m_b_12_be_true uc H) D) as E.
  assert (Z : cos (u_al uc) * sin (u_be uc) / (u_b uc * calc_phi uc * sin (u_al uc)) = 0) by lra.
  destruct (nd_facts uc H) as (?&?&?&?&?&?&?&?&_).
  apply Rmult_integral in Z. destruct Z as [Z|Z].
  - apply Rmult_integral in Z. destruct Z; lra.
  - apply Rinv_neq_0_compat in Z; [exact Z|]. repeat apply Rmult_integral_contrapositive_currified; lra.
Qed.
Lemma m_b_22_al_wrong : forall uc, nondegenerate uc -> cos (u_al uc) <> 0 ->
  ~ is_partial_u (fun u => mget (calc_m_b u) X2 X2) uc Ual (uget (mget (calc_m_b_dder uc) X2 X2) Ual).
Proof.
  intros uc H Hc D.
  assert (T : is_partial_u (fun u => mget (calc_m_b u) X2 X2) uc Ual (- cos (u_al uc) / (u_b uc * sin (u_al uc) ^ 2))).
  { clear D Hc. set (p := Ual) in *. assert (Hp : p = Ual) by reflexivity. clearbody p.
    dcell p uc H; try discriminate. field; nz2. }
  pose proof (partial_unique _ _ _ _ _ T D) as E. clear T D.
  destruct (nd_facts uc H) as (?&Hb&?&Hs&?&?&?&?&?&?&E2&_). destruct uc as [a b c al be ga].
  unfold calc_m_b_dder, calc_m_b in E. cbn [u_a u_b u_c u_al u_be u_ga mget m_22 uget calc_phi_dder] in *.
  unfold Rsqr in E.
  assert (Z : (- cos al / (b * sin al ^ 2)) * (b * sin al ^ 3) = - (1 / (b * sin al)) * cos al / (sin al * sin al) * (b * sin al ^ 3)) by (rewrite E; reflexivity).
  replace (- cos al / (b * sin al ^ 2) * (b * sin al ^ 3)) with (- cos al * sin al) in Z by (field; lra).
  replace (- (1 / (b * sin al)) * cos al / (sin al * sin al) * (b * sin al ^ 3)) with (- cos al) in Z by (field; lra).
  pose proof (cos_lt1 al Hs).
  assert (Z2 : cos al * (sin al - 1) = 0) by lra.
  assert (Z3 : sin al = 1) by (apply Rmult_integral in Z2; destruct Z2; lra).
  rewrite Z3 in E2. nra.
Qed.
Lemma m_m_norm_11_be_wrong : forall uc, nondegenerate uc -> cos (u_be uc) <> cos (u_al uc) * cos (u_ga uc) ->
  ~ is_partial_u (fun u => mget (calc_m_m_norm u) X1 X1) uc Ube (uget (mget (calc_m_m_norm_dder uc) X1 X1) Ube).
Proof.
  intros uc H Hc D. pose proof (m_m_norm_11_ang_true uc H) as T. cbv zeta in T.
  pose proof (partial_unique _ _ _ _ _ T D) as E.
  assert (Z : 2 * (cos (u_be uc) - cos (u_al uc) * cos (u_ga uc)) * sin (u_be uc) / (calc_phi uc * sin (u_al uc)) = 0) by lra.
  destruct (nd_facts uc H) as (?&?&?&?&?&?&?&?&_).
  apply Rmult_integral in Z. destruct Z as [Z|Z].
  - apply Rmult_integral in Z. destruct Z; lra.
  - apply Rinv_neq_0_compat in Z; [exact Z|]. apply Rmult_integral_contrapositive_currified; lra.
Qed.
Lemma volume_al_true : forall uc, nondegenerate uc ->
  is_partial_u calc_volume_uc uc Ual (u_a uc * u_b uc * u_c uc * sin (u_al uc) * (cos (u_al uc) - cos (u_be uc) * cos (u_ga uc)) / calc_phi uc).
Proof.
  intros uc H. set (p := Ual) in *. assert (Hp : p = Ual) by reflexivity. clearbody p.
  dcell p uc H; try discriminate. field; nz2.
Qed.
Lemma volume_al_wrong : forall uc, nondegenerate uc -> cos (u_al uc) <> 0 ->
  ~ is_partial_u calc_volume_uc uc Ual (uget (calc_volume_uc_dder uc) Ual).
Proof.
  intros uc H Hc D. pose proof (partial_unique _ _ _ _ _ (volume_al_true uc H) D) as E.
  destruct (nd_facts uc H) as (Ha&Hb&Hcc&Hs&?&?&?&Hp&_).
  unfold calc_volume_uc_dder in E. cbn [uget u_al] in E. unfold Rsqr in E.
  pose proof (cos_lt1 _ Hs) as C1.
  set (ca := cos (u_al uc)) in *. set (cb := cos (u_be uc)) in *. set (cg := cos (u_ga uc)) in *.
  set (ph := calc_phi uc) in *. set (s := sin (u_al uc)) in *.
  assert (Z : u_a uc * u_b uc * u_c uc * s * (ca - ca * ca) = 0).
  { match type of E with ?l = ?r => assert (E3 : l * ph = r * ph) by (rewrite E; reflexivity) end.
    match type of E3 with ?l = ?r => assert (L : l = u_a uc * u_b uc * u_c uc * s * (ca - cb * cg)) by (field; lra);
      assert (R' : r = u_a uc * u_b uc * u_c uc * s * (ca * ca - cb * cg)) by (field; lra) end.
    rewrite L, R' in E3. lra. }
  apply Rmult_integral in Z. destruct Z as [Z|Z]; [|nra].
  apply Rmult_integral in Z. destruct Z as [Z|Z]; [|lra].
  apply Rmult_integral in Z. destruct Z as [Z|Z]; [|lra].
  apply Rmult_integral in Z. destruct Z; lra.
Qed.
Lemma recip_ia_a_wrong : forall uc, nondegenerate uc ->
  ~ is_partial_u (fun u => u_a (calc_reciprocal u)) uc Ua (uget (calc_reciprocal_dder_ia uc) Ua).
Proof.
  intros uc H D.
  assert (T : is_partial_u (fun u => u_a (calc_reciprocal u)) uc Ua (- (sin (u_al uc) / (Rsqr (u_a uc) * calc_phi uc)))).
  { clear D. unfold calc_reciprocal. set (p := Ua) in *. assert (Hp : p = Ua) by reflexivity. clearbody p.
    dcell p uc H; try discriminate. field; nz2. }
  pose proof (partial_unique _ _ _ _ _ T D) as E. clear T D.
  destruct (nd_facts uc H) as (Ha&Hb&Hc&Hs&?&?&?&Hp&_).
  assert (E2 : uget (calc_reciprocal_dder_ia uc) Ua = sin (u_al uc) / (Rsqr (u_a uc) * calc_phi uc)).
  { unfold calc_reciprocal_dder_ia, calc_volume_uc_dder, calc_volume_uc. cbn [uget u_a]. unfold Rsqr. field. lra. }
  rewrite E2 in E.
  assert (0 < sin (u_al uc) / (Rsqr (u_a uc) * calc_phi uc)).
  { apply Rdiv_lt_0_compat; [assumption|]. apply Rmult_lt_0_compat; [apply Rsqr_pos_lt; lra|assumption]. }
  lra.
Qed.
Lemma m_g_norm_12_a_wrong : forall uc, nondegenerate uc -> cos (u_ga uc) <> 0 ->
  ~ is_partial_u (fun u => qget (calc_m_g_norm u) X1 X2) uc Ua (uget (qget (calc_m_g_norm_dder uc) X1 X2) Ua).
Proof.
  intros uc H Hc D.
  assert (T : is_partial_u (fun u => qget (calc_m_g_norm u) X1 X2) uc Ua 0).
  { destruct uc as [a b c al be ga]. ud. auto_derive; [exact I|ring]. }
  pose proof (partial_unique _ _ _ _ _ T D) as E. apply Hc. symmetry. exact E.
Qed.
Lemma m_reciprocal_g_11_a_wrong : forall uc, nondegenerate uc ->
  ~ is_partial_u (fun u => qget (calc_m_reciprocal_g u) X1 X1) uc Ua (uget (qget (calc_m_reciprocal_g_dder uc) X1 X1) Ua).
Proof.
  intros uc H D.
  assert (T : is_partial_u (fun u => qget (calc_m_reciprocal_g u) X1 X1) uc Ua
     (-2 * (sin (u_al uc))^2 / (u_a uc ^ 3 * calc_phi_sq uc))).
  { clear D. destruct uc as [a b c al be ga]. destruct (nd_raw _ _ _ _ _ _ H) as (Ha&Hb&Hc&Hsa&Hsb&Hsg&Hq&Hph&_).
    unfold calc_m_reciprocal_g. ud. unfold gram in Hq. auto_derive; [repeat split|field]; nz2. apply Rmult_integral_contrapositive_currified; nz2. }
  pose proof (partial_unique _ _ _ _ _ T D) as E. clear T D. cbn [calc_m_reciprocal_g_dder qget q_11 uget u_a] in E.
  destruct (nd_facts uc H) as (Ha&Hb&Hc&Hs&?&?&Hq&Hp&_).
  assert (0 < 2 * (sin (u_al uc))^2 / (u_a uc ^ 3 * calc_phi_sq uc)).
  { apply Rdiv_lt_0_compat; [nra|]. apply Rmult_lt_0_compat; [apply pow_lt; lra|assumption]. }
  replace (-2 * sin (u_al uc) ^ 2 / (u_a uc ^ 3 * calc_phi_sq uc)) with (- (2 * sin (u_al uc) ^ 2 / (u_a uc ^ 3 * calc_phi_sq uc))) in E.
  2: { field. split; lra. }
  assert (F : uget (qget (calc_m_reciprocal_g_dder uc) X1 X1) Ua = 0) by reflexivity.
  try rewrite F in E. lra.
Qed.
Lemma m_m_33_c_wrong : forall uc,
  ~ is_partial_u (fun u => mget (calc_m_m u) X3 X3) uc Uc (uget (mget zero_dder_m X3 X3) Uc).
Proof.
  intros uc D.
  assert (T : is_partial_u (fun u => mget (calc_m_m u) X3 X3) uc Uc 1).
  { destruct uc as [a b c al be ga]. unfold is_partial_u, calc_m_m. cbn [uset uget mget m_33 u_c]. auto_derive; [exact I|ring]. }
  pose proof (partial_unique _ _ _ _ _ T D) as E. cbn in E. lra.
Qed.
(** monoclinic cell a=b=c=1, beta=60 deg, reflection 010: 1/d does not depend on beta but a non-zero derivative is returned *)
Definition mono : U6 R := mkU 1 1 1 (PI / 2) (PI / 3) (PI / 2).
Lemma mono_nondegenerate : nondegenerate mono.
Proof.
  unfold nondegenerate, mono. cbn [u_a u_b u_c u_al u_be u_ga]. rewrite cos_PI2, cos_PI3. pose proof PI_RGT_0.
  repeat split; lra.
Qed.
Lemma inv_d_be_wrong : exists hkl uc, nondegenerate uc /\
  ~ is_partial_u (calc_inv_d hkl) uc Ube (uget (calc_inv_d_dder hkl uc) Ube).
Proof.
  exists (mkV 0 1 0), mono. split; [exact mono_nondegenerate|]. intros D.
  assert (V : calc_inv_d (mkV 0 1 0) mono = 1).
  { unfold calc_inv_d, mono, Rsqr. cbn [u_a u_b u_c u_al u_be u_ga v_1 v_2 v_3]. rewrite cos_PI2, cos_PI3.
    match goal with |- sqrt ?e = 1 => replace e with 1 by field end. apply sqrt_1. }
  assert (T : is_partial_u (calc_inv_d (mkV 0 1 0)) mono Ube 0).
  { unfold is_partial_u, calc_inv_d, mono. cbn [uset uget u_a u_b u_c u_al u_be u_ga v_1 v_2 v_3]. unfold Rsqr.
    assert (E0 : (1 - cos (PI / 3) * cos (PI / 3)) * 1 * / (1 - cos (PI/3) * cos (PI / 3)) = 1).
    { rewrite cos_PI3. field. }
    auto_derive; rewrite ?cos_PI2, ?cos_PI3.
    - repeat split; try lra. match goal with |- 0 < ?e => replace e with 1 by field; lra end.
    - match goal with |- context [sqrt ?e] => replace (sqrt e) with 1 by (symmetry; transitivity (sqrt 1); [f_equal; field | apply sqrt_1]) end.
      field. }
  pose proof (partial_unique _ _ _ _ _ T D) as E.
  unfold calc_inv_d_dder in E. rewrite V in E. unfold mono in E. cbn [uget u_a u_b u_c u_al u_be u_ga v_1 v_2 v_3] in E.
  unfold Rsqr in E. rewrite cos_PI2, cos_PI3, sin_PI3 in E.
  assert (0 < sqrt 3) by (apply sqrt_lt_R0; lra).
  match type of E with 0 = ?r => assert (F : r = - (sqrt 3 / 9)) by field; rewrite F in E end. lra.
Qed.
Lemma inv_b_norm_raises : forall uc, calc_m_inv_b_norm_call uc true = KeyError.
Proof. reflexivity. Qed.
