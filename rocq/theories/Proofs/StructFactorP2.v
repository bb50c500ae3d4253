From Coq Require Import Reals ZArith List Bool Lra Lia Permutation.
From Coquelicot Require Import Complex.
From Verif Require Import Spec.Lin3 Spec.Cell Spec.Symm Spec.Scatter Spec.StructSpec Model.UnitCell Model.Symmetry Model.AtomFactors Model.StructFactor
  Proofs.SymmBaseP Proofs.SymmGroupP Proofs.SymmExP Proofs.ScatterP Proofs.StructFactorP.
Import ListNotations.
Open Scope list_scope.
Open Scope R_scope.

Lemma f_nucl_app : forall h1 h2 s uc atoms, calc_f_nucl (h1 ++ h2) s uc atoms = calc_f_nucl h1 s uc atoms ++ calc_f_nucl h2 s uc atoms.
Proof. intros. rewrite !f_nucl_map. apply map_app. Qed.

Lemma is_hR_unique : forall h e g, is_hR h e g -> g = hkl_r h e.
Proof.
  intros h e g H. assert (E : forall i, vget g i = vget (hkl_r h e) i).
  { intros i. apply eq_IZR. rewrite H, hkl_r_spec. reflexivity. }
  destruct g as [g1 g2 g3]. destruct (hkl_r h e) as [k1 k2 k3] eqn:K.
  pose proof (E X1); pose proof (E X2); pose proof (E X3). cbn in *. congruence.
Qed.
Lemma hkl_real_vR : forall h, hkl_real h = vR h.
Proof. reflexivity. Qed.
Lemma dw_hR : forall h e g uc a, nondegenerate uc -> metric_invariant uc e -> is_hR h e g -> dw g uc a = dw h uc a.
Proof.
  intros h e g uc a N M H. apply is_hR_unique in H. subst g. unfold dw, calc_sthovl. rewrite !hkl_real_vR, inv_d_hkl_r by assumption. reflexivity.
Qed.
Lemma hdot_hR : forall h e g y, is_hR h e g -> hdot g y = hdot h (act e y) + - hdot h (frac (e_b e) (e_d e)).
Proof. intros h e g y H. unfold hdot, act, frac, sum3. rewrite !H. unfold sum3. ring. Qed.
Lemma dsum_hR : forall l e h g x, symmetry_group l -> In e l -> is_hR h e g ->
  dsum g l x = Cmult (phase (- hdot h (frac (e_b e) (e_d e)))) (dsum h l x).
Proof.
  intros l e h g x G He H. unfold dsum.
  rewrite (csum_ext _ _ (fun f => Cmult (phase (- hdot h (frac (e_b e) (e_d e)))) (phase (hdot h (act e (act f x)))))).
  - rewrite csum_scal. f_equal. apply (group_sum l e (fun k => phase (hdot h (act k x))) G He).
    + intros a b E. apply phase_same, E.
    + intros f k Hf Hk. symmetry. apply phase_same, Hk.
  - intros f _. rewrite (hdot_hR h e g _ H), phase_add. ring.
Qed.
Lemma f_one_hR : forall s uc mu atoms e h g, sym_ok s -> symmetry_group (full_of s) -> nondegenerate uc ->
  (forall a, In a atoms -> isotropic a) -> In e (full_of s) -> metric_invariant uc e -> is_hR h e g ->
  f_one s uc mu atoms g = Cmult (f_one s uc mu atoms h) (phase (- hdot h (frac (e_b e) (e_d e)))).
Proof.
  intros s uc mu atoms e h g Ok G N Hi He M H. rewrite !f_one_iso by assumption. rewrite <- csum_scal_r.
  apply csum_ext. intros a _. rewrite (dsum_hR _ e h g _ G He H), (dw_hR h e g uc a N M H). ring.
Qed.

Lemma one2 : forall h g s uc atoms F G, calc_f_nucl [h; g] s uc atoms = [F; G] ->
  F = f_one s uc (mult_of (full_of s)) atoms h /\ G = f_one s uc (mult_of (full_of s)) atoms g.
Proof. intros. rewrite f_nucl_map in H. cbn [map] in H. injection H as H1 H2. subst. auto. Qed.
Lemma one1 : forall h s uc atoms F, calc_f_nucl [h] s uc atoms = [F] -> F = f_one s uc (mult_of (full_of s)) atoms h.
Proof. intros. rewrite f_nucl_map in H. cbn [map] in H. injection H as H1. auto. Qed.

(** C32 *)
Theorem phase_relation : forall s uc atoms e h g F G, sym_ok s -> symmetry_group (full_of s) -> nondegenerate uc ->
  (forall a, In a atoms -> isotropic a) -> In e (full_of s) -> metric_invariant uc e -> is_hR h e g ->
  calc_f_nucl [h; g] s uc atoms = [F; G] -> G = Cmult F (phase (- hdot h (frac (e_b e) (e_d e)))).
Proof. intros. apply one2 in H6 as [-> ->]. apply f_one_hR; assumption. Qed.
Theorem equal_modulus : forall s uc atoms e h g F G, sym_ok s -> symmetry_group (full_of s) -> nondegenerate uc ->
  (forall a, In a atoms -> isotropic a) -> In e (full_of s) -> metric_invariant uc e -> is_hR h e g ->
  calc_f_nucl [h; g] s uc atoms = [F; G] -> Cmod G = Cmod F.
Proof.
  intros. rewrite (phase_relation s uc atoms e h g F G) by assumption. rewrite Cmod_mult, phase_mod. ring.
Qed.
Lemma phase_one_int : forall u, phase u = RtoC 1 -> exists n : Z, u = IZR n.
Proof.
  intros u H. unfold phase, RtoC in H. injection H as Hc Hs.
  assert (S0 : sin (PI * u) = 0).
  { replace (2 * PI * u) with (2 * (PI * u)) in Hc by ring. rewrite cos_2a_sin in Hc.
    assert (sin (PI * u) * sin (PI * u) = 0) by lra. apply Rmult_integral in H. tauto. }
  apply sin_eq_0_0 in S0. destruct S0 as [n E]. exists n.
  assert (PI <> 0) by (pose proof PI_RGT_0; lra). apply (Rmult_eq_reg_l PI); [rewrite E; ring|assumption].
Qed.
Theorem systematic_absence : forall s uc atoms e h F, sym_ok s -> symmetry_group (full_of s) -> nondegenerate uc ->
  (forall a, In a atoms -> isotropic a) -> In e (full_of s) -> metric_invariant uc e -> is_hR h e h ->
  (forall n : Z, hdot h (frac (e_b e) (e_d e)) <> IZR n) ->
  calc_f_nucl [h] s uc atoms = [F] -> F = RtoC 0.
Proof.
  intros s uc atoms e h F Ok G N Hi He M H Hn E. apply one1 in E. subst F.
  pose proof (f_one_hR s uc (mult_of (full_of s)) atoms e h h Ok G N Hi He M H) as E.
  set (F := f_one s uc _ atoms h) in *.
  assert (P : phase (- hdot h (frac (e_b e) (e_d e))) <> RtoC 1).
  { intros P. apply phase_one_int in P as [n P]. apply (Hn (- n)%Z). rewrite opp_IZR. lra. }
  assert (Z0 : Cmult F (Cminus (phase (- hdot h (frac (e_b e) (e_d e)))) (RtoC 1)) = RtoC 0).
  { transitivity (Cminus (Cmult F (phase (- hdot h (frac (e_b e) (e_d e))))) F); [ring|]. rewrite <- E. ring. }
  destruct (Ceq_dec F (RtoC 0)) as [|NF]; [assumption|exfalso].
  assert (Cminus (phase (- hdot h (frac (e_b e) (e_d e)))) (RtoC 1) = RtoC 0).
  { set (D := Cminus (phase _) (RtoC 1)) in *. rewrite <- (Cmult_1_l D), <- (Cinv_l F NF), <- Cmult_assoc, Z0. ring. }
  apply P. rewrite <- (Cplus_0_l (RtoC 1)), <- H0. ring.
Qed.

(** C34 *)
Lemma real_half : forall z w : C, w = Cconj z -> Cconj (Cmult (RtoC (5/10)) (Cplus z w)) = Cmult (RtoC (5/10)) (Cplus z w).
Proof. intros z w ->. rewrite cconj_mult, cconj_plus, cconj_inv, cconj_R. ring. Qed.
Theorem centric_real : forall s uc atoms h F, s_centro s = true -> (forall a, In a atoms -> real_valued (at_b a)) ->
  calc_f_nucl [h] s uc atoms = [F] -> real_valued (Cmult F (phase (- hdot h (frac (fst (s_cp s)) (snd (s_cp s)))))).
Proof.
  intros s uc atoms h F Hc Hb E. apply one1 in E. subst F. unfold f_one, calc_f_by_f_asym, cp_arg. rewrite Hc, pr4_phase.
  rewrite !combine_map2, !map_map. cbn [fst snd]. change sum_c with csum.
  apply cconj_real.
  set (S1 := csum (map (fun a => Cmult (at_b a) (fa h s uc (mult_of (full_of s) a) a)) atoms)).
  assert (E2 : csum (map (fun a => Cmult (at_b a) (Cconj (fa h s uc (mult_of (full_of s) a) a))) atoms) = Cconj S1).
  { unfold S1. rewrite <- csum_conj. apply csum_ext. intros a Ha. rewrite cconj_mult.
    f_equal. symmetry. apply cconj_real, Hb, Ha. }
  rewrite E2. set (p := hdot h (frac _ _)).
  replace (hdot h (pos2 (s_cp s))) with (p + p) by (unfold p, hdot, pos2, sum3; ring).
  rewrite phase_add.
  replace (Cmult (Cmult (RtoC (5 / 10)) (Cplus (Cmult (calc_pr3 h (s_tr s)) S1) (Cmult (Cmult (phase p) (phase p)) (Cmult (Cconj (calc_pr3 h (s_tr s))) (Cconj S1))))) (phase (- p)))
    with (Cmult (RtoC (5 / 10)) (Cplus (Cmult (Cmult (calc_pr3 h (s_tr s)) S1) (phase (- p))) (Cmult (Cmult (Cmult (phase p) (phase (- p))) (phase p)) (Cmult (Cconj (calc_pr3 h (s_tr s))) (Cconj S1))))) by ring.
  apply real_half. rewrite !cconj_mult, phase_conj, Ropp_involutive, <- phase_add.
  replace (p + - p) with 0 by ring. rewrite phase_0. ring.
Qed.
Theorem centric_origin_real : forall s uc atoms h F, s_centro s = true -> fst (s_cp s) = mkV 0%Z 0%Z 0%Z -> (forall a, In a atoms -> real_valued (at_b a)) ->
  calc_f_nucl [h] s uc atoms = [F] -> real_valued F.
Proof.
  intros s uc atoms h F Hc H0 Hb E. pose proof (centric_real s uc atoms h F Hc Hb E) as H. rewrite H0 in H.
  replace (- hdot h (frac (mkV 0 0 0)%Z (snd (s_cp s)))) with 0 in H by (unfold hdot, frac, sum3; cbn [vget v_1 v_2 v_3]; unfold Rdiv; ring).
  rewrite phase_0, Cmult_1_r in H. exact H.
Qed.
Theorem centring_absence : forall s uc atoms h F, (forall t, In t (s_tr s) -> (0 < snd t)%Z) ->
  csum (map (fun t => phase (hdot h (frac (fst t) (snd t)))) (s_tr s)) = RtoC 0 ->
  calc_f_nucl [h] s uc atoms = [F] -> F = RtoC 0.
Proof.
  intros s uc atoms h F Ht H E. apply one1 in E. subst F. unfold f_one, calc_f_by_f_asym.
  rewrite pr3_phase by assumption. rewrite H, cdiv_scal, Cmult_0_r, cconj_R. destruct (s_centro s); ring.
Qed.
Lemma phase_neg_h : forall h x, phase (hdot (z_opp_v h) x) = Cconj (phase (hdot h x)).
Proof.
  intros h x. rewrite phase_conj. f_equal. unfold hdot, sum3, z_opp_v. cbn [vget v_1 v_2 v_3]. rewrite !mult_IZR. ring.
Qed.
Theorem friedel : forall s uc atoms h F G, sym_ok s -> nondegenerate uc -> (forall a, In a atoms -> real_valued (at_b a)) ->
  calc_f_nucl [h; z_opp_v h] s uc atoms = [F; G] -> G = Cconj F.
Proof.
  intros s uc atoms h F G (Hr & Ht & Hc & Nr & Nt) N Hb E. apply one2 in E as [-> ->].
  assert (A : forall m a, fa (z_opp_v h) s uc m a = Cconj (fa h s uc m a)).
  { intros m a. rewrite !fa_sum, !cconj_mult, <- csum_conj.
    assert (Nn : INR (length (s_red s)) <> 0) by (apply not_0_INR; destruct (s_red s); [congruence|discriminate]).
    rewrite <- !RtoC_inv by exact Nn. rewrite !cconj_R. f_equal. apply csum_ext. intros e _. rewrite cconj_mult, phase_neg_h, cconj_R. do 2 f_equal.
    unfold calc_sthovl. rewrite !hkl_real_vR, inv_d_opp by assumption. unfold dwf_call, calc_dwf. do 3 f_equal.
    unfold calc_power_dwf_aniso, rotated_hkl, hkl_real, z_opp_v. cbn [v_1 v_2 v_3]. rewrite !mult_IZR. unfold Rsqr. ring. }
  assert (P3 : calc_pr3 (z_opp_v h) (s_tr s) = Cconj (calc_pr3 h (s_tr s))).
  { rewrite !pr3_phase by assumption. rewrite !cdiv_scal.
    assert (Nn : INR (length (s_tr s)) <> 0) by (apply not_0_INR; destruct (s_tr s); [congruence|discriminate]).
    rewrite <- !RtoC_inv by exact Nn. rewrite cconj_mult, cconj_R, <- csum_conj. f_equal. apply csum_ext. intros. apply phase_neg_h. }
  unfold f_one, calc_f_by_f_asym, cp_arg. rewrite P3.
  rewrite !combine_map2, !map_map. cbn [fst snd]. change sum_c with csum.
  rewrite (csum_ext _ (fun a => Cmult (at_b a) (fa (z_opp_v h) s uc (mult_of (full_of s) a) a)) (fun a => Cconj (Cmult (at_b a) (fa h s uc (mult_of (full_of s) a) a)))).
  2:{ intros a Ha. rewrite A, cconj_mult. f_equal. symmetry. apply cconj_real, Hb, Ha. }
  rewrite (csum_ext _ (fun a => Cmult (at_b a) (Cconj (fa (z_opp_v h) s uc (mult_of (full_of s) a) a))) (fun a => Cconj (Cmult (at_b a) (Cconj (fa h s uc (mult_of (full_of s) a) a))))).
  2:{ intros a Ha. rewrite A, cconj_mult. f_equal. symmetry. apply cconj_real, Hb, Ha. }
  rewrite !csum_conj. destruct (s_centro s).
  - rewrite !pr4_phase, phase_neg_h. rewrite !cconj_mult, !cconj_plus, !cconj_mult, cconj_R. reflexivity.
  - rewrite cconj_mult. reflexivity.
Qed.

(** C33 *)
Lemma filter_map_length : forall A B (f : A -> B) p l, length (filter p (map f l)) = length (filter (fun x => p (f x)) l).
Proof. intros. induction l as [|x l IH]; cbn; [reflexivity|]. destruct (p (f x)); cbn; rewrite IH; reflexivity. Qed.
Lemma filter_length_ext : forall A (p q : A -> bool) l, (forall x, In x l -> p x = q x) -> length (filter p l) = length (filter q l).
Proof. intros A p q l H. f_equal. apply filter_ext_in. exact H. Qed.
Lemma full_of_by_full : forall l, full_of (by_full l) = map (add_translation (mkV 0 0 0, 1)%Z) l.
Proof. intros. unfold full_of, by_full, calc_full_symm_elems_by_reduced. cbn [s_red s_centro s_cp s_tr flat_map]. apply app_nil_r. Qed.
Lemma add_zero : forall e, (0 < e_d e)%Z -> (0 < e_d (add_translation (mkV 0 0 0, 1)%Z e))%Z /\ forall x, same_point (act (add_translation (mkV 0 0 0, 1)%Z e) x) (act e x).
Proof.
  intros e He. destruct (add_translation_act (mkV 0 0 0, 1)%Z e ltac:(cbn; lia) He) as [A B]. split; [exact A|].
  intros x. apply (sp_trans _ _ _ (B x)). apply sp_ext. intros i. unfold frac. destruct i; cbn [fst snd vget v_1 v_2 v_3]; unfold Rdiv; ring.
Qed.
Lemma mult_by_full : forall l a, (forall e, In e l -> (0 < e_d e)%Z) -> mult_of (full_of (by_full l)) a = mult_of l a.
Proof.
  intros l a Hl. rewrite full_of_by_full. unfold mult_of, calc_multiplicity. rewrite map_length. f_equal.
  rewrite filter_map_length. apply filter_length_ext. intros e He. destruct (add_zero e (Hl e He)) as [A B].
  unfold get_atom_symm_elem. cbv zeta. set (b := mkV (fix_thirds _) _ _). set (d := (3 * 10 ^ 6)%Z). assert (Hd : (0 < d)%Z) by (unfold d; lia).
  apply eq_true_iff_eq. rewrite (flags_position _ b d A Hd), (flags_position _ b d (Hl e He) Hd). split; intros H.
  - apply sp_trans with (2 := H). apply sp_sym, B.
  - apply sp_trans with (2 := H). apply B.
Qed.
Lemma full_pos : forall s, sym_ok s -> forall e, In e (full_of s) -> (0 < e_d e)%Z.
Proof.
  intros s (Hr & Ht & Hc & _) e He. unfold full_of in He.
  apply (full_products (s_red s) (s_centro s) (s_cp s) (s_tr s) Hc Hr Ht) in He. apply He.
Qed.
Lemma full_nonempty : forall s, sym_ok s -> full_of s <> [].
Proof.
  intros s (Hr & Ht & Hc & Nr & Nt) E. pose proof (full_length (s_red s) (s_centro s) (s_cp s) (s_tr s)) as L.
  unfold full_of in E. rewrite E in L. destruct (s_red s); [congruence|]. destruct (s_tr s); [congruence|]. destruct (s_centro s); cbn in L; lia.
Qed.
Theorem reduced_is_full : forall hkls s uc atoms, sym_ok s -> (forall a, In a atoms -> isotropic a) ->
  calc_f_nucl hkls s uc atoms = calc_f_nucl hkls (by_full (full_of s)) uc atoms.
Proof.
  intros hkls s uc atoms Ok Hi. rewrite !f_nucl_map. apply map_ext. intros h.
  assert (Ok2 : sym_ok (by_full (full_of s))).
  { unfold sym_ok, by_full. cbn [s_red s_tr s_cp s_centro snd]. split; [apply full_pos; exact Ok|]. split; [intros t [<-|[]]; cbn; lia|].
    split; [lia|]. split; [apply full_nonempty; exact Ok|discriminate]. }
  rewrite !f_one_iso by assumption. apply csum_ext. intros a Ha. rewrite mult_by_full by (apply full_pos; exact Ok).
  rewrite full_of_by_full, map_length. f_equal. unfold dsum. rewrite map_map. apply csum_ext. intros e He.
  symmetry. apply phase_same. apply add_zero. apply (full_pos s Ok e He).
Qed.

Lemma mult_orbit : forall s a, sym_ok s ->
  (forall e, In e (full_of s) -> (same_point (act e (rounded (at_xyz a))) (rounded (at_xyz a)) <-> same_point (act e (vget (at_xyz a))) (vget (at_xyz a)))) ->
  mult_of (full_of s) a = (length (full_of s) / length (filter (fun f => spb (act f (vget (at_xyz a))) (vget (at_xyz a))) (full_of s)))%nat.
Proof.
  intros s a Ok H. unfold mult_of, calc_multiplicity. f_equal. apply filter_length_ext. intros e He.
  apply eq_true_iff_eq. rewrite spb_spec, <- (H e He). unfold rounded, get_atom_symm_elem. cbv zeta. cbn [atom_b atom_d].
  apply flags_position; [apply (full_pos s Ok e He)|lia].
Qed.
(** |l| = |stabiliser| * |orbit| *)
Lemma csum_RtoC : forall A (f : A -> R) l, csum (map (fun x => RtoC (f x)) l) = RtoC (fold_right Rplus 0 (map f l)).
Proof. intros. induction l as [|x l IH]; [reflexivity|]. cbn [map fold_right]. rewrite RtoC_plus, <- IH. reflexivity. Qed.
Lemma orbit_stabiliser : forall l x pts, symmetry_group l -> is_orbit l x pts ->
  length l = (length (filter (fun f => spb (act f x) x) l) * length pts)%nat.
Proof.
  intros l x pts G O. pose proof (orbit_sum l x pts (mkV 0 0 0)%Z G O) as E.
  assert (P : forall y, phase (hdot (mkV 0 0 0)%Z y) = RtoC 1).
  { intros y. replace (hdot (mkV 0 0 0)%Z y) with 0 by (unfold hdot, sum3; cbn [vget v_1 v_2 v_3]; ring). apply phase_0. }
  rewrite !(csum_const _ _ (RtoC 1)) in E by (intros; apply P).
  rewrite !Cmult_1_r, <- RtoC_mult in E. apply RtoC_inj in E. rewrite <- mult_INR in E. apply INR_eq in E. exact E.
Qed.
Lemma stab_pos : forall l x, symmetry_group l -> (0 < length (filter (fun f => spb (act f x) x) l))%nat.
Proof.
  intros l x (_ & (e & He & Ei) & _). assert (In e (filter (fun f => spb (act f x) x) l)) by (apply filter_In; split; [exact He|apply spb_spec, Ei]).
  destruct (filter _ l); [contradiction|cbn; lia].
Qed.
Theorem textbook : forall s uc atoms orbits h F, sym_ok s -> symmetry_group (full_of s) -> (forall a, In a atoms -> isotropic a) ->
  Forall2 (fun a pts => is_orbit (full_of s) (vget (at_xyz a)) pts) atoms orbits ->
  (forall a e, In a atoms -> In e (full_of s) ->
     (same_point (act e (rounded (at_xyz a))) (rounded (at_xyz a)) <-> same_point (act e (vget (at_xyz a))) (vget (at_xyz a)))) ->
  calc_f_nucl [h] s uc atoms = [F] ->
  F = structure_factor h (flat_map (sites h uc) (combine atoms orbits)).
Proof.
  intros s uc atoms orbits h F Ok G Hi Ho Hr E. apply one1 in E. subst F. rewrite f_one_iso by assumption.
  unfold structure_factor. rewrite csum_flat_map.
  assert (K : forall a pts, In a atoms -> is_orbit (full_of s) (vget (at_xyz a)) pts ->
    Cmult (Cmult (at_b a) (RtoC (INR (mult_of (full_of s) a) * at_occ a * dw h uc a / INR (length (full_of s))))) (dsum h (full_of s) (vget (at_xyz a)))
    = csum (map (fun p => Cmult (fst p) (phase (hdot h (snd p)))) (sites h uc (a, pts)))).
  { intros a pts Ha Oa. unfold sites. cbn [fst snd]. rewrite map_map. cbn [fst snd]. rewrite csum_scal.
    unfold dsum. rewrite (orbit_sum _ _ pts h G Oa). rewrite mult_orbit by (auto).
    set (x := vget (at_xyz a)) in *. pose proof (orbit_stabiliser _ x pts G Oa) as L. pose proof (stab_pos _ x G) as Sp.
    set (st := length (filter (fun f => spb (act f x) x) (full_of s))) in *.
    assert (Lp : (0 < length (full_of s))%nat). { pose proof (full_nonempty s Ok). destruct (full_of s); [congruence|cbn; lia]. }
    rewrite L. rewrite Nat.mul_comm, Nat.div_mul by lia. rewrite mult_INR. fold (dw h uc a).
    set (S1 := csum _). assert (INR st <> 0) by (apply not_0_INR; lia).
    assert (INR (length pts) <> 0) by (apply not_0_INR; nia).
    replace (INR (length pts) * at_occ a * dw h uc a / (INR (length pts) * INR st)) with (at_occ a * dw h uc a * / INR st) by (field; auto).
    rewrite (RtoC_mult (at_occ a * dw h uc a)). replace (Cmult (Cmult (at_b a) (Cmult (RtoC (at_occ a * dw h uc a)) (RtoC (/ INR st)))) (Cmult (RtoC (INR st)) S1))
      with (Cmult (Cmult (Cmult (at_b a) (RtoC (at_occ a * dw h uc a))) (Cmult (RtoC (/ INR st)) (RtoC (INR st)))) S1) by ring.
    rewrite <- RtoC_mult, Rinv_l by assumption. rewrite Cmult_1_r. reflexivity. }
  clear Hi Hr. revert K. induction Ho as [|a pts la lp Ho1 Ho2 IH]; intros K; [reflexivity|].
  cbn [combine map]. change (csum (?a :: ?b)) with (Cplus a (csum b)). rewrite IH by (intros; apply K; [right|]; assumption). f_equal.
  apply K; [left; reflexivity|exact Ho1].
Qed.
(** coordinates that are multiples of 1/(3*10^6) are not changed by the rounding *)
Lemma np_round_int : forall n : Z, np_round (IZR n) = n.
Proof.
  intros n. assert (I : Int_part (IZR n) = n).
  { unfold Int_part. rewrite <- (tech_up (IZR n) (n + 1)); [ring|rewrite plus_IZR; lra|rewrite plus_IZR; lra]. }
  unfold np_round. rewrite I. cbv zeta. destruct (Rlt_dec (IZR n - IZR n) (1 / 2)); [reflexivity|lra].
Qed.
Lemma rounded_exact : forall x, (forall i, exact_coordinate (vget x i)) -> forall i, rounded x i = vget x i.
Proof.
  intros x H. assert (A : forall y, exact_coordinate y -> IZR (fix_thirds (np_round (y * 3 * 10 ^ 6))) / IZR (3 * 10 ^ 6) = y).
  { intros y (n & -> & N1 & N2 & N3). replace (IZR n / 3000000 * 3 * 10 ^ 6) with (IZR n) by (simpl; field). rewrite np_round_int.
    unfold fix_thirds. rewrite (proj2 (Z.eqb_neq n 999999) N1). cbv zeta. rewrite (proj2 (Z.eqb_neq n 1999998) N2). rewrite (proj2 (Z.eqb_neq n 2000001) N3).
    replace (3 * 10 ^ 6)%Z with 3000000%Z by reflexivity. reflexivity. }
  intros i. unfold rounded, get_atom_symm_elem, frac. cbv zeta. cbn [atom_b atom_d].
  destruct i; cbn [vget v_1 v_2 v_3]; apply A; [apply (H X1)|apply (H X2)|apply (H X3)].
Qed.
Lemma rounded_site : forall x e, (forall i, exact_coordinate (vget x i)) ->
  (same_point (act e (rounded x)) (rounded x) <-> same_point (act e (vget x)) (vget x)).
Proof.
  intros x e H. pose proof (sp_ext _ _ (rounded_exact x H)) as S. split; intros K.
  - apply sp_trans with (act e (rounded x)); [apply act_sp, sp_sym, S|]. apply (sp_trans _ _ _ K S).
  - apply sp_trans with (act e (vget x)); [apply act_sp, S|]. apply (sp_trans _ _ _ K), sp_sym, S.
Qed.
(** Thirds given with six digits. *)
Lemma rounded_thirds : forall x i,
  (vget x i = 333333 / 1000000 -> rounded x i = 1 / 3) /\ (vget x i = 666666 / 1000000 -> rounded x i = 2 / 3) /\ (vget x i = 666667 / 1000000 -> rounded x i = 2 / 3).
Proof.
  assert (A : forall y n m, y = IZR n / 3000000 -> fix_thirds n = m -> IZR (fix_thirds (np_round (y * 3 * 10 ^ 6))) / IZR (3 * 10 ^ 6) = IZR m / 3000000).
  { intros y n m -> <-. replace (IZR n / 3000000 * 3 * 10 ^ 6) with (IZR n) by (simpl; field). rewrite np_round_int. replace (3 * 10 ^ 6)%Z with 3000000%Z by reflexivity. reflexivity. }
  assert (B : forall y, (y = 333333 / 1000000 -> IZR (fix_thirds (np_round (y * 3 * 10 ^ 6))) / IZR (3 * 10 ^ 6) = 1 / 3) /\
     (y = 666666 / 1000000 -> IZR (fix_thirds (np_round (y * 3 * 10 ^ 6))) / IZR (3 * 10 ^ 6) = 2 / 3) /\ (y = 666667 / 1000000 -> IZR (fix_thirds (np_round (y * 3 * 10 ^ 6))) / IZR (3 * 10 ^ 6) = 2 / 3)).
  { intros y. split; [|split]; intros ->.
    - rewrite (A _ 999999%Z 1000000%Z); [lra|lra|reflexivity].
    - rewrite (A _ 1999998%Z 2000000%Z); [lra|lra|reflexivity].
    - rewrite (A _ 2000001%Z 2000000%Z); [lra|lra|reflexivity]. }
  intros x i. unfold rounded, get_atom_symm_elem, frac. cbv zeta. cbn [atom_b atom_d]. destruct i; cbn [vget v_1 v_2 v_3]; apply B.
Qed.
Lemma rounded_thirds_refuted : exists x : V3 R, vget x X3 = - (333333 / 1000000) /\ rounded x X3 <> - (1 / 3).
Proof.
  exists (mkV 0 0 (- (333333 / 1000000))). split; [reflexivity|]. unfold rounded, get_atom_symm_elem, frac. cbv zeta. cbn [atom_b atom_d vget v_1 v_2 v_3].
  replace (- (333333 / 1000000) * 3 * 10 ^ 6) with (IZR (-999999)) by (simpl; field). rewrite np_round_int. replace (fix_thirds (-999999)) with (-999999)%Z by reflexivity.
  replace (3 * 10 ^ 6)%Z with 3000000%Z by reflexivity. lra.
Qed.
