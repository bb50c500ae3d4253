From Coq Require Import Reals ZArith List Bool Lra Lia Permutation.
From Coquelicot Require Import Complex.
From Verif Require Import Spec.Lin3 Spec.Cell Spec.Symm Spec.Scatter Spec.StructSpec Model.UnitCell Model.Symmetry Model.AtomFactors Model.StructFactor
  Proofs.SymmBaseP Proofs.SymmGroupP Proofs.SymmExP Proofs.ScatterP Proofs.StructFactorP Proofs.StructFactorP2 Proofs.StructFactorP3.
Import ListNotations.
Open Scope list_scope.
Open Scope R_scope.

(** C35 *)
Lemma dwf_identity : forall h k l st b_iso beta, dwf_call (mkV h k l) st op_id b_iso beta =
  exp (- (b_iso * st ^ 2 + sum3 (fun i => sum3 (fun j => qget beta i j * IZR (vget (mkV k k l) i) * IZR (vget (mkV k k l) j))))).
Proof.
  intros. unfold dwf_call, calc_dwf, calc_power_dwf_iso, calc_power_dwf_aniso, rotated_hkl, rows_0_8, op_id, hkl_real.
  cbn [e_b e_d e_r v_1 v_2 v_3 m_11 m_12 m_13 m_21 m_22 m_23 m_31 m_32 m_33]. f_equal. f_equal.
  unfold sum3, Rsqr. cbn [vget v_1 v_2 v_3]. destruct beta as [q11 q22 q33 q12 q13 q23]. cbn. ring.
Qed.

(** plain symmetry data: no centre in the flag, no centring *)
Definition plain (l : list Op) : symmetry := mkS l false (mkV 0 0 0, 1)%Z [(mkV 0 0 0, 1)%Z].
Lemma plain_pr3 : forall h, calc_pr3 h [(mkV 0 0 0, 1)%Z] = RtoC 1.
Proof.
  intros h. rewrite pr3_phase by (intros t [<-|[]]; cbn; lia). cbn [map]. unfold csum. cbn [fold_right length].
  replace (hdot h _) with 0 by (unfold hdot, frac, sum3; cbn [fst snd vget v_1 v_2 v_3]; unfold Rdiv; ring).
  rewrite phase_0, cdiv_scal. replace (INR 1) with 1 by reflexivity. rewrite <- RtoC_inv by lra. rewrite Rinv_1. ring.
Qed.
Lemma f_plain : forall l uc mu a h, f_one (plain l) uc mu [a] h = Cmult (at_b a) (fa h (plain l) uc (mu a) a).
Proof.
  intros. unfold f_one, plain at 3 4, calc_f_by_f_asym. cbn [s_centro s_tr]. rewrite plain_pr3. cbn [map combine fst snd].
  unfold sum_c. cbn [fold_right]. ring.
Qed.
Definition op_mxy : Op := (mkE (mkV 0 0 0) 1 (mkM 0 1 0 1 0 0 0 0 1))%Z.
Definition g_mxy : list Op := [op_id; op_mxy].
Lemma g_mxy_group : symmetry_group g_mxy.
Proof.
  split; [|split; [|split; [|split]]].
  - intros e [<-|[<-|[]]]; reflexivity.
  - exists op_id. split; [left; reflexivity|]. hunt_sp.
  - intros e f He Hf. destruct He as [<-|[<-|[]]], Hf as [<-|[<-|[]]];
    first [exists op_id; split; [cbn; tauto|unfold is_composition; hunt_sp] | exists op_mxy; split; [cbn; tauto|unfold is_composition; hunt_sp]].
  - intros e He. exists e. split; [exact He|]. destruct He as [<-|[<-|[]]]; hunt_sp.
  - constructor; [constructor; [|constructor]|constructor; constructor].
    intros S. destruct (S (fun i => match i with X1 => 1/2 | _ => 0 end) X1) as [n E]. unfold act, sum3 in E. cbn in E.
    assert (G : 1 = IZR (2 * n)) by (rewrite mult_IZR; lra). apply eq_IZR in G. lia.
Qed.
Lemma g_mxy_metric : forall e, In e g_mxy -> metric_invariant (cubic 1) e.
Proof. intros e [<-|[<-|[]]] i j; destruct i, j; unfold sum3, metric, cubic; cbn; rewrite ?cos_PI2; ring. Qed.
Lemma cubic_nd : forall a, 0 < a -> nondegenerate (cubic a).
Proof. intros a Ha. unfold nondegenerate, cubic. cbn [u_a u_b u_c u_al u_be u_ga]. rewrite cos_PI2. pose proof PI_RGT_0. repeat split; lra. Qed.
Definition ani (beta : Q6 R) : atom := mkA (mkV 0 0 0) 1 (RtoC 1) 0 beta.
Lemma ani_phase : forall h e beta, e_b e = (mkV 0 0 0)%Z -> phase (hdot h (act e (vget (at_xyz (ani beta))))) = RtoC 1.
Proof.
  intros h e beta H. replace (hdot h (act e (vget (at_xyz (ani beta))))) with 0; [apply phase_0|].
  unfold hdot, act, ani, sum3. rewrite H. cbn [at_xyz vget v_1 v_2 v_3]. unfold Rdiv. ring.
Qed.
Ltac dwf_calc := unfold dwf_call, calc_dwf, calc_power_dwf_iso, calc_power_dwf_aniso, rotated_hkl, rows_0_8, op_id, op_mxy, hkl_real;
  cbn [e_b e_d e_r v_1 v_2 v_3 m_11 m_12 m_13 m_21 m_22 m_23 m_31 m_32 m_33 q_11 q_22 q_33 q_12 q_13 q_23].
Lemma mxy_fa : forall h st beta uc, calc_sthovl (hkl_real h) uc = st ->
  fa h (plain g_mxy) uc 1 (ani beta) = RtoC ((dwf_call h st op_id 0 beta + dwf_call h st op_mxy 0 beta) / 2).
Proof.
  intros h st beta uc <-. rewrite fa_sum. unfold plain at 1 2. cbn [s_red]. unfold g_mxy. cbn [map length]. unfold csum. cbn [fold_right].
  rewrite !ani_phase by reflexivity. unfold ani at 1 2 3 4 5. cbn [at_biso at_occ at_beta].
  replace (INR 2) with 2 by (cbn; ring). rewrite <- RtoC_inv by lra. rewrite !Cmult_1_l, Cplus_0_r, <- !RtoC_plus, <- !RtoC_mult. f_equal.
  replace (INR 1) with 1 by reflexivity. field.
Qed.
Lemma mxy_mult : forall beta, mult_of (full_of (plain g_mxy)) (ani beta) = 1%nat.
Proof. intros. unfold mult_of, ani. cbn [at_xyz]. rewrite round_0. reflexivity. Qed.
Theorem anisotropic_refuted : exists s uc atoms e h g F G, sym_ok s /\ symmetry_group (full_of s) /\ nondegenerate uc /\
  (forall f, In f (full_of s) -> metric_invariant uc f) /\
  (forall a f, In a atoms -> In f (full_of s) -> admissible (at_beta a) f) /\
  In e (full_of s) /\ is_hR h e g /\ calc_f_nucl [h; g] s uc atoms = [F; G] /\ Cmod G <> Cmod F.
Proof.
  exists (plain g_mxy), (cubic 1), [ani (mkQ 1 1 0 0 0 0)], op_mxy, (mkV 1 0 0)%Z, (mkV 0 1 0)%Z. do 2 eexists.
  split. { unfold sym_ok, plain, g_mxy. cbn [s_red s_tr s_cp snd]. repeat split; try discriminate; try lia; [intros e [<-|[<-|[]]]; cbn; lia|intros t [<-|[]]; cbn; lia]. }
  split; [exact g_mxy_group|]. split; [apply cubic_nd; lra|]. split; [exact g_mxy_metric|].
  split. { intros a f [<-|[]] [<-|[<-|[]]] i j; destruct i, j; unfold conj, rot_real, sum3, ani; cbn; ring. }
  split; [right; left; reflexivity|].
  split. { intros i. destruct i; unfold sum3; cbn; ring. }
  split. { rewrite f_nucl_map. cbn [map]. rewrite !f_plain, !mxy_mult, !(mxy_fa _ _ _ _ eq_refl). unfold ani at 1 2. cbn [at_b]. rewrite !Cmult_1_l. reflexivity. }
  rewrite !Cmod_R. dwf_calc.
  match goal with |- Rabs ((exp ?a + exp ?b) / 2) <> Rabs ((exp ?c + exp ?d) / 2) =>
    replace a with (-2) by (unfold Rsqr; ring); replace b with (-1) by (unfold Rsqr; ring); replace c with 0 by (unfold Rsqr; ring); replace d with 0 by (unfold Rsqr; ring) end.
  rewrite exp_0. pose proof (exp_pos (-2)). pose proof (exp_pos (-1)).
  assert (exp (-2) < 1) by (rewrite <- exp_0; apply exp_increasing; lra).
  assert (exp (-1) < 1) by (rewrite <- exp_0; apply exp_increasing; lra).
  rewrite !Rabs_right by lra. lra.
Qed.

(** C33 with anisotropic displacement parameters *)
Definition s_body : symmetry := mkS [op_id] false (mkV 0 0 0, 1)%Z [(mkV 0 0 0, 1)%Z; (mkV 1 1 1, 2)%Z].
Definition op_body : Op := (mkE (mkV 1 1 1) 2 (mkM 1 0 0 0 1 0 0 0 1))%Z.
Lemma body_full : full_of s_body = [op_id; op_body].
Proof. reflexivity. Qed.
Lemma body_ok : sym_ok s_body.
Proof. unfold sym_ok, s_body. cbn [s_red s_tr s_cp snd]. repeat split; try discriminate; try lia; [intros e [<-|[]]; cbn; lia|intros t [<-|[<-|[]]]; cbn; lia]. Qed.
Lemma body_mult : forall beta, mult_of (full_of s_body) (ani beta) = 2%nat.
Proof. intros. unfold mult_of, ani. cbn [at_xyz]. rewrite round_0. reflexivity. Qed.
Lemma body_mult2 : forall beta, mult_of (full_of (by_full (full_of s_body))) (ani beta) = 2%nat.
Proof. intros. unfold mult_of, ani. cbn [at_xyz]. rewrite round_0. reflexivity. Qed.
Theorem reduced_full_anisotropic_refuted : exists s uc atoms h, sym_ok s /\ symmetry_group (full_of s) /\ nondegenerate uc /\
  (forall f, In f (full_of s) -> metric_invariant uc f) /\
  (forall a f, In a atoms -> In f (full_of s) -> admissible (at_beta a) f) /\
  calc_f_nucl [h] s uc atoms <> calc_f_nucl [h] (by_full (full_of s)) uc atoms.
Proof.
  exists s_body, (cubic 1), [ani (mkQ 0 0 1 0 0 0)], (mkV 1 0 1)%Z.
  split; [exact body_ok|].
  split.
  { rewrite body_full. split; [|split; [|split; [|split]]].
    - intros e [<-|[<-|[]]]; reflexivity.
    - exists op_id. split; [left; reflexivity|]. hunt_sp.
    - intros e f He Hf. destruct He as [<-|[<-|[]]], Hf as [<-|[<-|[]]];
      first [exists op_id; split; [cbn; tauto|unfold is_composition; hunt_sp] | exists op_body; split; [cbn; tauto|unfold is_composition; hunt_sp]].
    - intros e He. exists e. split; [exact He|]. destruct He as [<-|[<-|[]]]; hunt_sp.
    - constructor; [constructor; [|constructor]|constructor; constructor].
      intros S. destruct (S (fun i => 0) X1) as [n E]. unfold act, sum3 in E. cbn in E.
      assert (G : 1 = IZR (- 2 * n)) by (rewrite mult_IZR; lra). apply eq_IZR in G. lia. }
  split; [apply cubic_nd; lra|].
  split. { rewrite body_full. intros e [<-|[<-|[]]] i j; destruct i, j; unfold sum3, metric, cubic; cbn; rewrite ?cos_PI2; ring. }
  split. { rewrite body_full. intros a f [<-|[]] [<-|[<-|[]]] i j; destruct i, j; unfold conj, rot_real, sum3, ani; cbn; ring. }
  rewrite !f_nucl_map. cbn [map]. change (by_full (full_of s_body)) with (plain [op_id; op_body]). rewrite f_plain.
  change (plain [op_id; op_body]) with (by_full (full_of s_body)) at 2. rewrite body_mult2.
  set (h := (mkV 1 0 1)%Z). set (b := mkQ 0 0 1 0 0 0).
  assert (P2 : phase (hdot h (act op_body (vget (at_xyz (ani b))))) = RtoC 1).
  { replace (hdot h _) with (IZR 1); [apply phase_int|]. unfold h, hdot, act, ani, op_body, sum3. cbn. lra. }
  assert (F1 : f_one s_body (cubic 1) (mult_of (full_of s_body)) [ani b] h = RtoC (2 * exp (-1))).
  { unfold f_one. rewrite pr3_phase by (intros t [<-|[<-|[]]]; cbn; lia). unfold calc_f_by_f_asym. cbn [s_centro s_body s_tr s_red map combine fst snd length]. rewrite body_mult, fa_sum.
    cbn [s_red s_body map length]. unfold sum_c, csum. cbn [fold_right]. rewrite ani_phase by reflexivity.
    replace (hdot h (frac (mkV 0 0 0)%Z 1)) with (IZR 0) by (unfold h, hdot, frac, sum3; cbn; lra).
    replace (hdot h (frac (mkV 1 1 1)%Z 2)) with (IZR 1) by (unfold h, hdot, frac, sum3; cbn; lra). rewrite !phase_int, cdiv_scal.
    unfold ani at 1 2 3 4. cbn [at_b at_occ at_biso at_beta]. replace (INR 2) with 2 by (cbn; ring). replace (INR 1) with 1 by reflexivity.
    rewrite <- !RtoC_inv by lra. rewrite !Cmult_1_l, !Cplus_0_r, <- !RtoC_plus, <- !RtoC_mult. f_equal. unfold h, b. dwf_calc.
    match goal with |- _ = 2 * exp ?c => match goal with |- context [exp (- ?X)] => replace (- X) with c by (unfold Rsqr; ring) end end. field. }
  rewrite F1. unfold ani at 1. cbn [at_b]. rewrite Cmult_1_l, fa_sum. unfold plain at 1 2. cbn [s_red map length]. unfold csum. cbn [fold_right].
  rewrite P2, ani_phase by reflexivity. unfold ani. cbn [at_occ at_biso at_beta]. replace (INR 2) with 2 by (cbn; ring).
  rewrite <- RtoC_inv by lra. rewrite !Cmult_1_l, Cplus_0_r, <- !RtoC_plus, <- !RtoC_mult.
  apply rtoc_ne. unfold h, b, op_body. dwf_calc.
  match goal with |- context [exp ?a + exp ?b] => replace a with (-1) by (unfold Rsqr; ring); replace b with (-4) by (unfold Rsqr; ring) end.
  assert (exp (-4) < exp (-1)) by (apply exp_increasing; lra). lra.
Qed.
Theorem dwf_rotated_refuted : exists h e st beta, e_r e = (mkM 1 0 0 0 1 0 0 0 1)%Z /\
  dwf_call h st e 0 beta <> exp (- sum3 (fun i => sum3 (fun j => qget beta i j *
     sum3 (fun k => IZR (vget h k) * IZR (mget (e_r e) k i)) * sum3 (fun k => IZR (vget h k) * IZR (mget (e_r e) k j))))).
Proof.
  exists (mkV 1 0 0)%Z, op_id, 0, (mkQ 1 0 0 0 0 0). split; [reflexivity|].
  rewrite dwf_identity. intros E. apply exp_inv in E. unfold sum3 in E. cbn in E. lra.
Qed.
Lemma dwf_isotropic : forall h st e b_iso, dwf_call h st e b_iso q_zero = exp (- (b_iso * st ^ 2)).
Proof.
  intros h st e b_iso. unfold dwf_call, calc_dwf. unfold calc_power_dwf_iso, calc_power_dwf_aniso, q_zero.
  destruct (rotated_hkl _ _). cbn [q_11 q_22 q_33 q_12 q_13 q_23]. f_equal. unfold Rsqr. ring.
Qed.
