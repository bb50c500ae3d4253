From Coq Require Import Reals Lra Lia Psatz Bool.
From Coquelicot Require Import Coquelicot.
From Verif Require Import Spec.Lin3 Spec.Cell Spec.Adp Model.UnitCell Model.AtomFactors Proofs.UnitCellP.
Open Scope R_scope.

Lemma rlen_pos uc : nondegenerate uc -> 0 < u_a (calc_reciprocal uc) /\ 0 < u_b (calc_reciprocal uc) /\ 0 < u_c (calc_reciprocal uc).
Proof. intros H. destruct (recip_nondegenerate uc H) as (A & B & C & _). auto. Qed.
Lemma pi2 : PI <> 0. Proof. assert (P := PI_RGT_0). lra. Qed.
Lemma u_beta_u u r : u_a r <> 0 -> u_b r <> 0 -> u_c r <> 0 -> calc_u_ij_by_beta (calc_beta_by_u_ij u r) r = u.
Proof.
  intros A B C. assert (P := pi2). destruct u as [u1 u2 u3 u4 u5 u6]. unfold calc_u_ij_by_beta, calc_beta_by_u_ij. cbn [q_11 q_22 q_33 q_12 q_13 q_23].
  f_equal; field; auto.
Qed.
Lemma beta_u_beta b r : u_a r <> 0 -> u_b r <> 0 -> u_c r <> 0 -> calc_beta_by_u_ij (calc_u_ij_by_beta b r) r = b.
Proof.
  intros A B C. assert (P := pi2). destruct b as [u1 u2 u3 u4 u5 u6]. unfold calc_u_ij_by_beta, calc_beta_by_u_ij. cbn [q_11 q_22 q_33 q_12 q_13 q_23].
  f_equal; field; auto.
Qed.
Lemma adp_roundtrip uc t iso aniso : nondegenerate uc ->
  let '(b, beta) := calc_b_iso_beta uc t iso aniso in
  let '(iso', aniso') := calc_param_iso_aniso_by_b_iso_beta uc t b beta in
  iso' = (match t with Uiso | Biso | Uovl | Umpe | Bovl => iso | _ => 0 end) /\
  aniso' = (match t with Uani | Bani => aniso | _ => q_zero end).
Proof.
  intros H. destruct (rlen_pos uc H) as (A & B & C). assert (P := pi2).
  destruct t; cbn; (split; [try reflexivity; unfold Rsqr; field; exact P|]); try reflexivity.
  apply u_beta_u; lra.
Qed.
Lemma beta_roundtrip uc t b beta : nondegenerate uc ->
  let '(iso, aniso) := calc_param_iso_aniso_by_b_iso_beta uc t b beta in
  let '(b', beta') := calc_b_iso_beta uc t iso aniso in
  b' = (match t with Uiso | Biso | Uovl | Umpe | Bovl => b | _ => 0 end) /\
  beta' = (match t with Uani | Bani => beta | _ => q_zero end).
Proof.
  intros H. destruct (rlen_pos uc H) as (A & B & C). assert (P := pi2).
  destruct t; cbn; (split; [try reflexivity; unfold Rsqr; field; exact P|]); try reflexivity.
  apply beta_u_beta; lra.
Qed.
(** meaning of beta *)
Lemma power_form h beta r : calc_power_dwf_aniso h beta r =
  sum3 (fun i => sum3 (fun j => sum3 (fun k => vget h k * mget r k i) * qget beta i j * sum3 (fun k => vget h k * mget r k j))).
Proof. unfold calc_power_dwf_aniso, rotated_hkl, sum3. cbn [vget mget qget]. unfold Rsqr. ring. Qed.
Lemma beta_of_u u rc i j : qget (calc_beta_by_u_ij u rc) i j = 2 * PI ^ 2 * (axis_len rc i * qget u i j * axis_len rc j).
Proof. destruct i, j; cbn [qget calc_beta_by_u_ij q_11 q_22 q_33 q_12 q_13 q_23 axis_len]; ring. Qed.
Lemma power_u h u rc r : calc_power_dwf_aniso h (calc_beta_by_u_ij u rc) r =
  2 * PI ^ 2 * sum3 (fun i => sum3 (fun j => (sum3 (fun k => vget h k * mget r k i) * axis_len rc i) * qget u i j *
     (sum3 (fun k => vget h k * mget r k j) * axis_len rc j))).
Proof. rewrite power_form. unfold sum3. rewrite !beta_of_u. ring. Qed.
Lemma iso_as_aniso uc h u : nondegenerate uc ->
  let rc := calc_reciprocal uc in
  calc_power_dwf_aniso h (calc_beta_by_u_ij (mkQ u u u (u * cos (u_ga rc)) (u * cos (u_be rc)) (u * cos (u_al rc))) rc) eye =
  calc_power_dwf_iso (calc_sthovl h uc) (fst (calc_b_iso_beta uc Uiso u q_zero)).
Proof.
  intros H rc. rewrite sthovl_half. unfold calc_power_dwf_iso. cbn [fst calc_b_iso_beta].
  replace (8 * Rsqr PI * u * Rsqr (calc_inv_d h uc / 2)) with (2 * PI ^ 2 * u * calc_inv_d h uc ^ 2) by (unfold Rsqr; field).
  rewrite (inv_d_sq h uc H). unfold form_rg.
  assert (E : forall i j, qget (calc_m_reciprocal_g uc) i j = metric rc i j).
  { intros i j. rewrite <- m_g_metric. symmetry. apply recip_metric. exact H. }
  rewrite power_u. unfold sum3. rewrite !E. unfold metric. cbn [vget mget qget q_11 q_22 q_33 q_12 q_13 q_23 eye m_11 m_12 m_13 m_21 m_22 m_23 m_31 m_32 m_33 axis_cos].
  ring.
Qed.
Lemma dwf_range h s b beta r : 0 <= b -> psd beta -> 0 < calc_dwf h s b beta r <= 1.
Proof.
  intros B P. unfold calc_dwf. split; [apply exp_pos|]. rewrite <- exp_0. 
  assert (0 <= calc_power_dwf_iso s b) by (unfold calc_power_dwf_iso; apply Rmult_le_pos; [exact B|apply Rle_0_sqr]).
  assert (0 <= calc_power_dwf_aniso h beta r) by (rewrite power_form; apply (P (fun i => sum3 (fun k => vget h k * mget r k i)))).
  destruct (Req_dec (- (calc_power_dwf_iso s b + calc_power_dwf_aniso h beta r)) 0) as [->|N]; [lra|]. left. apply exp_increasing. lra.
Qed.
Lemma dwf_form h s b beta r : calc_dwf h s b beta r = exp (- (b * s ^ 2)) *
  exp (- sum3 (fun i => sum3 (fun j => sum3 (fun k => vget h k * mget r k i) * qget beta i j * sum3 (fun k => vget h k * mget r k j)))).
Proof. unfold calc_dwf. rewrite <- power_form. rewrite <- exp_plus. f_equal. unfold calc_power_dwf_iso, Rsqr. ring. Qed.
Lemma power_iso_d s b : is_derive (fun t => calc_power_dwf_iso s t) b (fst (calc_power_dwf_iso_dder s b)) /\
  is_derive (fun t => calc_power_dwf_iso t b) s (snd (calc_power_dwf_iso_dder s b)).
Proof. split; unfold calc_power_dwf_iso, Rsqr; auto_derive; try exact I; cbn; unfold Rsqr; ring. Qed.
Lemma power_aniso_d h beta r n : (n < 6)%nat -> is_derive (fun t => calc_power_dwf_aniso h (q_vary beta n t) r) (q_elem beta n) (q_elem (calc_power_dwf_aniso_dder h r) n).
Proof.
  intros N. destruct beta as [b1 b2 b3 b4 b5 b6]. unfold calc_power_dwf_aniso, calc_power_dwf_aniso_dder, rotated_hkl.
  do 6 (destruct n as [|n]; [cbn; auto_derive; [exact I|unfold Rsqr; ring]|]). lia.
Qed.
Lemma beta_u_d u rc n : (n < 6)%nat -> is_derive (fun t => q_elem (calc_beta_by_u_ij (q_vary u n t) rc) n) (q_elem u n) (q_elem (calc_beta_by_u_ij_dder rc) n).
Proof.
  intros N. destruct u as [b1 b2 b3 b4 b5 b6]. unfold calc_beta_by_u_ij, calc_beta_by_u_ij_dder.
  do 6 (destruct n as [|n]; [cbn [q_vary q_elem q_11 q_22 q_33 q_12 q_13 q_23]; auto_derive; [exact I|ring]|]). lia.
Qed.
Lemma u_beta_d b rc n : (n < 6)%nat -> is_derive (fun t => q_elem (calc_u_ij_by_beta (q_vary b n t) rc) n) (q_elem b n) (q_elem (calc_u_ij_by_beta_dder rc) n).
Proof.
  intros N. destruct b as [b1 b2 b3 b4 b5 b6]. unfold calc_u_ij_by_beta, calc_u_ij_by_beta_dder.
  do 6 (destruct n as [|n]; [cbn [q_vary q_elem q_11 q_22 q_33 q_12 q_13 q_23]; auto_derive; [exact I|unfold Rdiv; rewrite ?Rmult_1_l; reflexivity]|]). lia.
Qed.

(** ** preferred orientation *)
Lemma hh_form g c : g <> 0 -> po_hh g c = (1 - c) / g + g ^ 2 * c.
Proof. intros G. unfold po_hh. field. exact G. Qed.
Lemma hh_pos g c : 0 < g -> 0 <= c <= 1 -> 0 < po_hh g c.
Proof.
  intros G C. rewrite hh_form by lra. assert (0 < / g) by (apply Rinv_0_lt_compat; lra). unfold Rdiv.
  assert (0 < g ^ 2) by (apply pow_lt; lra).
  destruct (Rlt_dec 0 c); [|assert (c = 0) by lra; subst; nra]. nra.
Qed.
Lemma po_one g2 c : po_value 1 g2 c = 1.
Proof. unfold po_value, po_hh. replace (1 / 1 + (1 ^ 2 - 1 / 1) * c) with 1 by field. unfold Rpower. rewrite ln_1, Rmult_0_r, exp_0. ring. Qed.
Lemma po_g2_one g1 c : po_value g1 1 c = 1. Proof. unfold po_value. ring. Qed.
Lemma po_pos g1 g2 c : 0 <= g2 <= 1 -> 0 < po_value g1 g2 c.
Proof.
  intros G. unfold po_value. assert (0 < Rpower (po_hh g1 c) (- (15/10))) by apply exp_pos.
  destruct (Rle_dec 1 g2); [assert (g2 = 1) by lra; subst; lra|]. nra.
Qed.
Lemma po_convex g1 g2 c : po_value g1 g2 c = g2 * 1 + (1 - g2) * po_value g1 0 c.
Proof. unfold po_value. ring. Qed.
Lemma po_d2 g1 g2 c : is_derive (fun t => po_value g1 t c) g2 (po_d_g2 g1 g2 c).
Proof. unfold po_value, po_d_g2. auto_derive; [exact I|ring]. Qed.
Lemma Rpower_d (f : R -> R) x d a : is_derive f x d -> 0 < f x -> is_derive (fun t => Rpower (f t) a) x (a * Rpower (f x) (a - 1) * d).
Proof.
  intros D P. unfold Rpower. evar_last.
  { apply (is_derive_comp exp (fun t => a * ln (f t))). apply is_derive_exp. apply is_derive_scal. apply (is_derive_comp ln f); [apply is_derive_ln; exact P|exact D]. }
  unfold scal, mult; cbn; unfold scal, mult; cbn. unfold mult; cbn.
  replace (exp ((a - 1) * ln (f x))) with (exp (a * ln (f x)) * / f x).
  - ring.
  - replace ((a - 1) * ln (f x)) with (a * ln (f x) + - ln (f x)) by ring. rewrite exp_plus. f_equal. rewrite exp_Ropp, exp_ln by exact P. reflexivity.
Qed.
Lemma po_d1 g1 g2 c : 0 < g1 -> 0 <= c <= 1 -> is_derive (fun t => po_value t g2 c) g1 (po_d_g1 g1 g2 c).
Proof.
  intros G C. unfold po_value, po_d_g1.
  assert (D : is_derive (fun t => po_hh t c) g1 (- (1 - c) / Rsqr g1 + 2 * c * g1)).
  { unfold po_hh. auto_derive; [lra|unfold Rsqr; field; lra]. }
  assert (E := Rpower_d _ _ _ (- (15/10)) D (hh_pos g1 c G C)).
  evar_last. { apply (is_derive_plus (fun _ => g2)); [apply is_derive_const|apply is_derive_scal; exact E]. }
  unfold plus, scal, mult, zero; cbn. unfold mult; cbn. replace (- (15 / 10) - 1) with (- (25/10)) by lra. ring.
Qed.
Lemma cs3' (a b : ix -> R) : dot a a = 1 -> dot b b = 1 -> Rsqr (dot a b) <= 1.
Proof.
  intros A B. assert (E : dot a a * dot b b - Rsqr (dot a b) = Rsqr (a X2 * b X3 - a X3 * b X2) + Rsqr (a X3 * b X1 - a X1 * b X3) + Rsqr (a X1 * b X2 - a X2 * b X1)).
  { unfold dot, sum3, Rsqr. ring. }
  rewrite A, B in E. assert (P := Rle_0_sqr (a X2 * b X3 - a X3 * b X2)). assert (Q := Rle_0_sqr (a X3 * b X1 - a X1 * b X3)). assert (S := Rle_0_sqr (a X1 * b X2 - a X2 * b X1)). lra.
Qed.
Lemma cos_ax_range h ax uc : nondegenerate uc -> Rsqr (cos_alpha_ax h ax uc) <= 1.
Proof.
  intros H. assert (K : forall v, dot (vget (calc_eq_ccs v uc)) (vget (calc_eq_ccs v uc)) = 1 \/ forall i, vget (calc_eq_ccs v uc) i = 0).
  { intros v. destruct (Req_EM_T (v_1 v) 0) as [E1|N1]; [destruct (Req_EM_T (v_2 v) 0) as [E2|N2]; [destruct (Req_EM_T (v_3 v) 0) as [E3|N3]|]|].
    - right. replace v with (mkV 0 0 0) by (destruct v as [x y z]; cbn in *; congruence). apply eq_ccs_zero.
    - left. apply eq_ccs_spec; [exact H|]. intros ->. cbn in N3. congruence.
    - left. apply eq_ccs_spec; [exact H|]. intros ->. cbn in N2. congruence.
    - left. apply eq_ccs_spec; [exact H|]. intros ->. cbn in N1. congruence. }
  change (cos_alpha_ax h ax uc) with (dot (vget (calc_eq_ccs ax uc)) (vget (calc_eq_ccs h uc))).
  destruct (K ax) as [A|A]; [destruct (K h) as [B|B]|].
  - apply cs3'; assumption.
  - unfold dot, sum3. rewrite !B. unfold Rsqr. lra.
  - unfold dot, sum3. rewrite !A. unfold Rsqr. lra.
Qed.
Lemma pd_c_range h ax uc : nondegenerate uc -> 0 <= pd_cos_alpha_sq h ax uc <= 1 /\ pd_cos_alpha_sq h ax uc = 1 - Rsqr (cos_alpha_ax h ax uc).
Proof.
  intros H. assert (A := cos_ax_range h ax uc H). assert (B := Rle_0_sqr (cos_alpha_ax h ax uc)).
  unfold pd_cos_alpha_sq. rewrite Rabs_pos_eq by lra. split; lra.
Qed.
Lemma pd2d_c_range al h ax uc : nondegenerate uc -> 0 <= pd2d_cos_alpha_sq al h ax uc <= 1.
Proof.
  intros H. assert (A := cos_ax_range h ax uc H). unfold pd2d_cos_alpha_sq. set (c := cos_alpha_ax h ax uc) in *.
  assert (c <= 1) by (unfold Rsqr in A; nra).
  destruct (Rlt_dec 1 c); [lra|]. replace (c ^ 2) with (Rsqr c) by (unfold Rsqr; ring).
  destruct (Rlt_dec (1 - Rsqr c) 0); [lra|].
  split; [apply Rle_0_sqr|]. assert (S := sqrt_sqrt (1 - Rsqr c) ltac:(lra)). set (s := sqrt (1 - Rsqr c)) in *.
  assert (T := sin2_cos2 al). unfold Rsqr in *.
  assert (Q := Rle_0_sqr (c * sin al - s * cos al)). unfold Rsqr in Q. nra.
Qed.
(** At alpha_det = pi/2 the 2d factor is the 1d one. *)
Lemma pd2d_90 h g1 g2 ax uc : nondegenerate uc -> calc_preferred_orientation_pd2d (PI/2) h g1 g2 ax uc = calc_preferred_orientation_pd h g1 g2 ax uc.
Proof.
  intros H. unfold calc_preferred_orientation_pd2d, calc_preferred_orientation_pd.
  replace (pd2d_cos_alpha_sq (PI/2) h ax uc) with (pd_cos_alpha_sq h ax uc); [reflexivity|].
  destruct (pd_c_range h ax uc H) as (R & ->). unfold pd2d_cos_alpha_sq. assert (A := cos_ax_range h ax uc H).
  set (c := cos_alpha_ax h ax uc) in *. assert (c <= 1) by (unfold Rsqr in A; nra).
  destruct (Rlt_dec 1 c); [lra|]. replace (c ^ 2) with (Rsqr c) by (unfold Rsqr; ring).
  destruct (Rlt_dec (1 - Rsqr c) 0); [lra|]. rewrite cos_PI2, sin_PI2.
  replace (c * 0 + sqrt (1 - Rsqr c) * 1) with (sqrt (1 - Rsqr c)) by ring. rewrite Rsqr_sqrt by lra. reflexivity.
Qed.
(** The March-Dollase function is a density: its mean over the directions (cosine uniform) is one. *)
Lemma pow_m15 x : 0 < x -> Rpower x (- (15/10)) = / (x * sqrt x).
Proof.
  intros P. replace (- (15/10)) with (- (1 + / 2)) by lra. rewrite Rpower_Ropp, Rpower_plus, Rpower_1, Rpower_sqrt by exact P. reflexivity.
Qed.
Lemma march_norm g1 g2 : 0 < g1 -> is_RInt (fun x => po_value g1 g2 (Rsqr x)) 0 1 1.
Proof.
  intros G.
  assert (Hp : forall x, 0 <= x <= 1 -> 0 < po_hh g1 (Rsqr x)).
  { intros x X. apply hh_pos; [exact G|]. unfold Rsqr. nra. }
  set (F := fun x => g2 * x + (1 - g2) * (g1 * (x / sqrt (po_hh g1 (Rsqr x))))).
  assert (E : minus (F 1) (F 0) = 1).
  { assert (E1 : po_hh g1 (Rsqr 1) = Rsqr g1) by (unfold po_hh, Rsqr; field; lra).
    unfold F. rewrite E1, sqrt_Rsqr by lra. unfold minus, plus, opp; cbn. unfold Rdiv. rewrite Rmult_0_l. field. lra. }
  refine (eq_rect _ (fun v => is_RInt _ 0 1 v) _ _ E). apply (is_RInt_derive F).
  - intros x X. rewrite Rmin_left, Rmax_right in X by lra.
    assert (P := Hp x X). unfold po_value. rewrite pow_m15 by exact P.
    assert (S := sqrt_sqrt _ (Rlt_le _ _ P)). assert (S0 := sqrt_lt_R0 _ P).
    assert (D : is_derive F x (g2 + (1 - g2) * (g1 * ((1 * sqrt (po_hh g1 (Rsqr x)) - x * ((2 * ((g1 ^ 2 - 1 / g1) * x)) / (2 * sqrt (po_hh g1 (Rsqr x))))) / Rsqr (sqrt (po_hh g1 (Rsqr x))))))).
    { unfold F. evar_last. { apply (is_derive_plus (fun x => g2 * x)). apply is_derive_scal. apply (is_derive_id x). apply is_derive_scal. apply is_derive_scal.
      apply (is_derive_div (fun x => x)). apply (is_derive_id x). apply (is_derive_comp sqrt (fun x => po_hh g1 (Rsqr x))). apply is_derive_Reals, derivable_pt_lim_sqrt. exact P.
      unfold po_hh, Rsqr. auto_derive; [exact I|reflexivity]. lra. }
      unfold plus, scal, mult, one; cbn. unfold mult; cbn. set (s := sqrt (po_hh g1 (Rsqr x))) in *. unfold Rsqr. field. split; lra. }
    evar_last. exact D.
    set (s := sqrt (po_hh g1 (Rsqr x))) in *. rewrite <- S.
    assert (Q : s * s = 1 / g1 + (g1 ^ 2 - 1 / g1) * (x * x)) by (rewrite S; reflexivity).
    replace ((1 * s - x * (2 * ((g1 ^ 2 - 1 / g1) * x) / (2 * s))) / Rsqr s) with ((s * s - (g1 ^ 2 - 1 / g1) * (x * x)) / (s * s * s)) by (unfold Rsqr; field; lra).
    rewrite Q at 1. field. lra.
  - intros x X. rewrite Rmin_left, Rmax_right in X by lra. assert (P := Hp x X).
    apply (ex_derive_continuous (V := R_NormedModule)). unfold po_value. eexists.
    apply (is_derive_plus (fun _ => g2)). apply is_derive_const. apply is_derive_scal. apply Rpower_d; [|exact P].
    unfold po_hh, Rsqr. auto_derive; [exact I|reflexivity].
Qed.

(** ** form factor *)
Lemma jh0 k : j_h 0 k = 0. Proof. unfold j_h, Rsqr, Rdiv. ring. Qed.
Lemma j_sum0 j : j_sum j 0 = j_A j + j_B j + j_C j + j_D j.
Proof. unfold j_sum. rewrite !Rmult_0_r, exp_0. ring. Qed.
Lemma ff_zero l k j0 j2 : calc_form_factor false 0 l k j0 j2 = j_A j0 + j_B j0 + j_C j0 + j_D j0 /\ calc_form_factor true 0 l k j0 j2 = 0 /\ calc_j2 0 k j2 = 0.
Proof. unfold calc_form_factor, calc_j0, calc_j2. rewrite jh0, j_sum0. repeat split; ring. Qed.
Lemma j0_ds s k j : k <> 0 -> is_derive (fun t => calc_j0 t k j) s (calc_j0_d_sthovl s k j).
Proof. intros K. unfold calc_j0, calc_j0_d_sthovl, j_sum, j_sum_d, j_h, Rsqr. auto_derive; [tauto|]. unfold Rdiv. field. exact K. Qed.
Lemma j0_dk s k j : k <> 0 -> is_derive (fun t => calc_j0 s t j) k (calc_j0_d_kappa s k j).
Proof. intros K. unfold calc_j0, calc_j0_d_kappa, j_sum, j_sum_d, j_h, Rsqr. auto_derive; [tauto|]. unfold Rdiv. field. exact K. Qed.
Lemma j2_ds s k j : k <> 0 -> is_derive (fun t => calc_j2 t k j) s (calc_j2_d_sthovl s k j + j_sum j (j_h s k) / k * (2 * s / k - 1)).
Proof. intros K. unfold calc_j2, calc_j2_d_sthovl, j_sum, j_sum_d, j_h, Rsqr. auto_derive; [tauto|]. unfold Rdiv. field. exact K. Qed.
Lemma j2_dk s k j : k <> 0 -> is_derive (fun t => calc_j2 s t j) k (calc_j2_d_kappa s k j + j_sum j (j_h s k) / k * (s / k - 2 * Rsqr (s / k))).
Proof. intros K. unfold calc_j2, calc_j2_d_kappa, j_sum, j_sum_d, j_h, Rsqr. auto_derive; [tauto|]. unfold Rdiv. field. exact K. Qed.
Lemma ff_dl b s l k j0 j2 : l <> 0 -> is_derive (fun t => calc_form_factor b s t k j0 j2) l (calc_form_factor_d_lande s l k j2).
Proof. intros L. unfold calc_form_factor, calc_form_factor_d_lande. destruct b; auto_derive; auto; unfold Rsqr; field; exact L. Qed.
Lemma ff_ds b s l k j0 j2 : k <> 0 -> is_derive (fun t => calc_form_factor b t l k j0 j2) s
  (calc_form_factor_d_sthovl b s l k j0 j2 + (2 / l - 1) * (j_sum j2 (j_h s k) / k * (2 * s / k - 1))).
Proof.
  intros K. assert (A := j0_ds s k j0 K). assert (B := j2_ds s k j2 K). unfold calc_form_factor, calc_form_factor_d_sthovl. destruct b.
  - evar_last. apply is_derive_scal. exact B. ring.
  - evar_last. apply (is_derive_plus (fun t => calc_j0 t k j0)). exact A. apply is_derive_scal. exact B. unfold plus; cbn. ring.
Qed.
Lemma ff_dk b s l k j0 j2 : k <> 0 -> is_derive (fun t => calc_form_factor b s l t j0 j2) k
  (calc_form_factor_d_kappa b s l k j0 j2 + (2 / l - 1) * (j_sum j2 (j_h s k) / k * (s / k - 2 * Rsqr (s / k)))).
Proof.
  intros K. assert (A := j0_dk s k j0 K). assert (B := j2_dk s k j2 K). unfold calc_form_factor, calc_form_factor_d_kappa. destruct b.
  - evar_last. apply is_derive_scal. exact B. ring.
  - evar_last. apply (is_derive_plus (fun t => calc_j0 s t j0)). exact A. apply is_derive_scal. exact B. unfold plus; cbn. ring.
Qed.
Lemma not_der (q : R -> R) (x d e : R) : is_derive q x (d + e) -> e <> 0 -> ~ is_derive q x d.
Proof. intros A N B. apply N. apply is_derive_unique in A. apply is_derive_unique in B. rewrite A in B. lra. Qed.
Lemma j2_ds_wrong s k j : 0 < k -> 2 * s <> k -> j_sum j (j_h s k) <> 0 -> ~ is_derive (fun t => calc_j2 t k j) s (calc_j2_d_sthovl s k j).
Proof.
  intros K N P. eapply not_der; [apply j2_ds; lra|]. apply Rmult_integral_contrapositive_currified.
  - apply Rmult_integral_contrapositive_currified; [exact P|]. apply Rinv_neq_0_compat. lra.
  - intros E. apply N. replace (2 * s) with (2 * s / k * k) by (field; lra). replace (2 * s / k) with 1 by lra. ring.
Qed.
Lemma j2_dk_wrong s k j : 0 < k -> s <> 0 -> 2 * s <> k -> j_sum j (j_h s k) <> 0 -> ~ is_derive (fun t => calc_j2 s t j) k (calc_j2_d_kappa s k j).
Proof.
  intros K S N P. eapply not_der; [apply j2_dk; lra|]. apply Rmult_integral_contrapositive_currified.
  - apply Rmult_integral_contrapositive_currified; [exact P|]. apply Rinv_neq_0_compat. lra.
  - replace (s / k - 2 * Rsqr (s / k)) with (s * / k * ((k - 2 * s) * / k)) by (unfold Rsqr; field; lra).
    assert (/ k <> 0) by (apply Rinv_neq_0_compat; lra). repeat apply Rmult_integral_contrapositive_currified; auto. lra.
Qed.
Lemma u_beta_both uc u : nondegenerate uc ->
  calc_u_ij_by_beta (calc_beta_by_u_ij u (calc_reciprocal uc)) (calc_reciprocal uc) = u /\
  calc_beta_by_u_ij (calc_u_ij_by_beta u (calc_reciprocal uc)) (calc_reciprocal uc) = u.
Proof. intros H. destruct (rlen_pos uc H) as (A & B & C). split; [apply u_beta_u|apply beta_u_beta]; lra. Qed.
Lemma beta_def uc u i j : qget (calc_beta_by_u_ij u (calc_reciprocal uc)) i j =
  2 * PI ^ 2 * axis_len (calc_reciprocal uc) i * axis_len (calc_reciprocal uc) j * qget u i j.
Proof. rewrite beta_of_u. ring. Qed.
Lemma tex_one h ax uc al g1 g2 :
  (let '(v, _, _) := calc_preferred_orientation_pd h 1 g2 ax uc in v = 1) /\ (let '(v, _, _) := calc_preferred_orientation_pd h g1 1 ax uc in v = 1) /\
  (let '(v, _, _) := calc_preferred_orientation_pd2d al h 1 g2 ax uc in v = 1) /\ (let '(v, _, _) := calc_preferred_orientation_pd2d al h g1 1 ax uc in v = 1).
Proof. unfold calc_preferred_orientation_pd, calc_preferred_orientation_pd2d. repeat split; (apply po_one || apply po_g2_one). Qed.
Lemma tex_pos h ax uc al g1 g2 : 0 <= g2 <= 1 ->
  (let '(v, _, _) := calc_preferred_orientation_pd h g1 g2 ax uc in 0 < v) /\ (let '(v, _, _) := calc_preferred_orientation_pd2d al h g1 g2 ax uc in 0 < v).
Proof. intros H. unfold calc_preferred_orientation_pd, calc_preferred_orientation_pd2d. split; apply po_pos; exact H. Qed.
Lemma tex_mix h ax uc al g1 g2 :
  let pd g2 := let '(v, _, _) := calc_preferred_orientation_pd h g1 g2 ax uc in v in
  let pd2d g2 := let '(v, _, _) := calc_preferred_orientation_pd2d al h g1 g2 ax uc in v in
  pd g2 = g2 * 1 + (1 - g2) * pd 0 /\ pd2d g2 = g2 * 1 + (1 - g2) * pd2d 0.
Proof. unfold calc_preferred_orientation_pd, calc_preferred_orientation_pd2d. split; apply po_convex. Qed.
Lemma tex_d h ax uc g1 g2 : nondegenerate uc -> 0 < g1 ->
  let '(_, d1, d2) := calc_preferred_orientation_pd h g1 g2 ax uc in
  is_derive (fun t => fst (fst (calc_preferred_orientation_pd h t g2 ax uc))) g1 d1 /\
  is_derive (fun t => fst (fst (calc_preferred_orientation_pd h g1 t ax uc))) g2 d2.
Proof.
  intros H G. unfold calc_preferred_orientation_pd. cbn [fst]. split; [apply po_d1; [exact G|apply pd_c_range, H]|apply po_d2].
Qed.
Lemma tex_d2 al h ax uc g1 g2 : nondegenerate uc -> 0 < g1 ->
  let '(_, d1, d2) := calc_preferred_orientation_pd2d al h g1 g2 ax uc in
  is_derive (fun t => fst (fst (calc_preferred_orientation_pd2d al h t g2 ax uc))) g1 d1 /\
  is_derive (fun t => fst (fst (calc_preferred_orientation_pd2d al h g1 t ax uc))) g2 d2.
Proof.
  intros H G. unfold calc_preferred_orientation_pd2d. cbn [fst]. split; [apply po_d1; [exact G|apply pd2d_c_range, H]|apply po_d2].
Qed.
Lemma ff_err b s l k j0 j2 : k <> 0 ->
  is_derive (fun t => calc_form_factor b t l k j0 j2) s
    (calc_form_factor_d_sthovl b s l k j0 j2 + (2 / l - 1) * (j_sum j2 ((s / k) ^ 2) / k * (2 * s / k - 1))) /\
  is_derive (fun t => calc_form_factor b s l t j0 j2) k
    (calc_form_factor_d_kappa b s l k j0 j2 + (2 / l - 1) * (j_sum j2 ((s / k) ^ 2) / k * (s / k - 2 * (s / k) ^ 2))).
Proof.
  intros K. assert (A := ff_ds b s l k j0 j2 K). assert (B := ff_dk b s l k j0 j2 K). unfold j_h in A, B.
  replace ((s / k) ^ 2) with (Rsqr (s / k)) by (unfold Rsqr; ring). split; assumption.
Qed.
Lemma ff_spin s k j0 j2 : k <> 0 ->
  is_derive (fun t => calc_form_factor false t 2 k j0 j2) s (calc_form_factor_d_sthovl false s 2 k j0 j2) /\
  is_derive (fun t => calc_form_factor false s 2 t j0 j2) k (calc_form_factor_d_kappa false s 2 k j0 j2).
Proof.
  intros K. destruct (ff_err false s 2 k j0 j2 K) as (A & B).
  replace (2 / 2 - 1) with 0 in A, B by field. rewrite Rmult_0_l, Rplus_0_r in A, B. split; assumption.
Qed.
Lemma j2_wrong s k j : 0 < k -> 2 * s <> k -> calc_j2 s k j <> 0 ->
  ~ is_derive (fun t => calc_j2 t k j) s (calc_j2_d_sthovl s k j) /\ ~ is_derive (fun t => calc_j2 s t j) k (calc_j2_d_kappa s k j).
Proof.
  intros K N P. unfold calc_j2 in P. assert (j_sum j (j_h s k) <> 0) by (intros E; apply P; rewrite E; ring).
  assert (s <> 0). { intros ->. apply P. rewrite jh0. ring. }
  split; [apply j2_ds_wrong|apply j2_dk_wrong]; assumption.
Qed.
