From Coq Require Import Reals ZArith List Bool Lra Lia.
From Coquelicot Require Import Complex.
From Verif Require Import Spec.Lin3 Spec.Cell Spec.Symm Spec.Scatter Spec.StructSpec Spec.MagSpec
  Model.MatrixOps Model.UnitCell Model.Symmetry Model.AtomFactors Model.StructFactor Model.MagStruct Model.Constraints
  Proofs.MatrixOpsP Proofs.UnitCellP Proofs.SymmBaseP Proofs.SymmGroupP Proofs.ScatterP Proofs.StructFactorP Proofs.StructFactorP2 Proofs.ConstraintsP
  Proofs.MagStructP Proofs.MagStructP2.
Import ListNotations.
Open Scope list_scope.
Open Scope R_scope.

(* ---- the scattering vector of an equivalent reflection ---- *)
Definition mv (a : ix -> ix -> R) (v : ix -> R) : ix -> R := fun i => sum3 (fun k => a i k * v k).
Lemma mv_mul : forall a b v i, mv (mul a b) v i = mv a (mv b v) i.
Proof. intros. unfold mv, mul, sum3. ring. Qed.
Lemma mv_one : forall v i, mv delta v i = v i.
Proof. intros v i. unfold mv, sum3. destruct i; unfold delta; ring. Qed.
Lemma mv_ext : forall a u v, (forall i, u i = v i) -> forall i, mv a u i = mv a v i.
Proof. intros a u v H i. unfold mv, sum3. rewrite !H. reflexivity. Qed.
Lemma mtq : forall uc h i, nondegenerate uc -> mv (tr (mget (calc_m_m uc))) (vget (calc_q_ccs h uc)) i = vget h i.
Proof.
  intros uc h i N. unfold mv, tr. rewrite q_ccs_is_b_hkl. unfold sum3. rewrite !m_v_spec.
  pose proof (b_m_dual uc N) as D.
  transitivity (sum3 (fun j => sum3 (fun k => mget (calc_m_b uc) k j * mget (calc_m_m uc) k i) * vget h j)); [unfold sum3; ring|].
  unfold sum3 at 1. rewrite !D. destruct i; unfold delta; ring.
Qed.
Lemma q_back : forall uc e h g i, nondegenerate uc -> is_hR h e g ->
  mv (tr (rho uc e)) (vget (calc_q_ccs (hkl_real h) uc)) i = vget (calc_q_ccs (hkl_real g) uc) i.
Proof.
  intros uc e h g i N H. set (Mm := mget (calc_m_m uc)).
  assert (D : det3 (tr Mm) <> 0) by (replace (det3 (tr Mm)) with (det3 Mm) by (unfold det3, tr; ring); apply det_M, N).
  destruct (inv_exists (tr Mm) D) as (v & _ & V).
  assert (K : forall u w, (forall j, mv (tr Mm) u j = mv (tr Mm) w j) -> forall j, u j = w j).
  { intros u w Huw j. rewrite <- (mv_one u j), <- (mv_one w j), <- V, !mv_mul. apply mv_ext. exact Huw. }
  revert i. apply K. intros j. unfold Mm at 2. rewrite (mtq uc (hkl_real g) j N). rewrite <- mv_mul.
  assert (F : mul (rho uc e) Mm = mul Mm (rot_real e)) by (apply mat_ext; intros a b; apply (rho_frame uc N e a b)).
  assert (T : mul (tr Mm) (tr (rho uc e)) = mul (tr (rot_real e)) (tr Mm)).
  { transitivity (tr (mul (rho uc e) Mm)); [apply mat_ext; intros; unfold tr, mul, sum3; ring|]. rewrite F. apply mat_ext; intros; unfold tr, mul, sum3; ring. }
  rewrite T, mv_mul. rewrite (mv_ext _ _ (vget (hkl_real h))) by (intros; apply mtq, N).
  unfold mv, tr, rot_real. replace (vget (hkl_real g) j) with (IZR (vget g j)) by (destruct j; reflexivity). rewrite H.
  apply sum3_ext. intros k. replace (vget (hkl_real h) k) with (IZR (vget h k)) by (destruct k; reflexivity). ring.
Qed.
Lemma q_carried : forall uc e h g i, nondegenerate uc -> metric_invariant uc e -> is_hR h e g ->
  mv (rho uc e) (vget (calc_q_ccs (hkl_real g) uc)) i = vget (calc_q_ccs (hkl_real h) uc) i.
Proof.
  intros uc e h g i N M H. destruct (rho_orth uc e N M) as [_ O].
  rewrite (mv_ext _ _ (mv (tr (rho uc e)) (vget (calc_q_ccs (hkl_real h) uc)))) by (intros; symmetry; apply q_back; assumption).
  rewrite <- mv_mul, O, mv_one. reflexivity.
Qed.
Definition nrm (d : R) : R := if Req_EM_T (sqrt d) 0 then 1 else sqrt d.
Lemma eq_norm : forall h uc i, vget (calc_eq_ccs h uc) i =
  vget (calc_q_ccs h uc) i / nrm (dot (vget (calc_q_ccs h uc)) (vget (calc_q_ccs h uc))).
Proof. intros h uc []; reflexivity. Qed.
Lemma orth_dot : forall a u v, mul (tr a) a = delta -> dot (mv a u) (mv a v) = dot u v.
Proof.
  intros a u v O. transitivity (sum3 (fun i => sum3 (fun j => mul (tr a) a i j * u i * v j))).
  - unfold dot, mv, mul, tr, sum3. ring.
  - rewrite O. unfold dot, sum3, delta. ring.
Qed.
Lemma eq_carried : forall uc e h g i, nondegenerate uc -> metric_invariant uc e -> is_hR h e g ->
  mv (rho uc e) (vget (calc_eq_ccs (hkl_real g) uc)) i = vget (calc_eq_ccs (hkl_real h) uc) i.
Proof.
  intros uc e h g i N M H. rewrite eq_norm. rewrite <- (q_carried uc e h g i N M H).
  assert (D : dot (vget (calc_q_ccs (hkl_real h) uc)) (vget (calc_q_ccs (hkl_real h) uc)) = dot (vget (calc_q_ccs (hkl_real g) uc)) (vget (calc_q_ccs (hkl_real g) uc))).
  { rewrite <- (orth_dot (rho uc e) (vget (calc_q_ccs (hkl_real g) uc)) (vget (calc_q_ccs (hkl_real g) uc)) (proj1 (rho_orth uc e N M))). unfold dot. apply sum3_ext. intros k. rewrite !(q_carried uc e h g k N M H). reflexivity. }
  rewrite D. unfold mv, sum3. rewrite !eq_norm. unfold Rdiv. ring.
Qed.

(* ---- covariance of the perpendicular component ---- *)
Definition cmv (a : ix -> ix -> R) (v : ix -> C) : ix -> C := fun i => csum3 (fun k => Cmult (RtoC (a i k)) (v k)).
Lemma cdot_orth : forall a q v, mul (tr a) a = delta -> cdot (mv a q) (cmv a v) = cdot q v.
Proof.
  intros a q v O. transitivity (csum3 (fun i => csum3 (fun j => Cmult (Cmult (RtoC (mul (tr a) a i j)) (RtoC (q i))) (v j)))).
  - unfold cdot, cmv, csum3, mv, mul, tr, sum3. rewrite !RtoC_plus, !RtoC_mult. ring.
  - rewrite O. unfold cdot, csum3, delta. ring.
Qed.
Lemma perp_orth : forall a q v w i, mul (tr a) a = delta ->
  cmv a (fun i => Cminus (Cmult (RtoC (dot q q)) (v i)) (Cmult (cdot q v) (RtoC (q i)))) i = w ->
  Cminus (Cmult (RtoC (dot (mv a q) (mv a q))) (cmv a v i)) (Cmult (cdot (mv a q) (cmv a v)) (RtoC (mv a q i))) = w.
Proof.
  intros a q v w i O <-. rewrite (orth_dot a q q O), (cdot_orth a q v O). generalize (dot q q) (cdot q v). intros d c.
  unfold cmv, csum3, mv, sum3. rewrite !RtoC_plus, !RtoC_mult. ring.
Qed.
Theorem perp_covariant : forall only s uc atoms e A h g T U H K, sym_ok s -> symmetry_group (full_of s) -> nondegenerate uc ->
  (forall a, In a atoms -> p_isotropic a) -> In e (full_of s) -> metric_invariant uc e -> is_hR h e g ->
  in_frame (mget (calc_m_m uc)) e A -> (forall i, vget H i = sum3 (fun k => A i k * vget K k)) ->
  calc_sft_ccs only [h; g] s uc atoms = [T; U] -> forall i,
  csum3 (fun k => Cmult (RtoC (A i k)) (vget (calc_f_m_perp U K (calc_eq_ccs (hkl_real g) uc)) k)) =
  Cmult (phase (- hdot h (frac (e_b e) (e_d e)))) (vget (calc_f_m_perp T H (calc_eq_ccs (hkl_real h) uc)) i).
Proof.
  intros only s uc atoms e A h g T U H K Ok G N Hi He M Hg HA HK E i.
  pose proof (tensor_covariant only s uc atoms e A h g T U Ok G N Hi He M Hg HA E) as TC.
  rewrite (rho_unique uc N e A HA) in *. clear A HA. set (a := rho uc e) in *. set (ph := phase _) in *.
  assert (O : mul (tr a) a = delta) by apply (rho_orth uc e N M).
  set (q := vget (calc_eq_ccs (hkl_real g) uc)).
  set (v := vget (c_m_v U K)).
  assert (Q : forall i, vget (calc_eq_ccs (hkl_real h) uc) i = mv a q i) by (intros; symmetry; apply eq_carried; assumption).
  assert (V : forall i, cmv a v i = Cmult ph (vget (c_m_v T H) i)).
  { intros p. transitivity (csum3 (fun j => Cmult (csum3 (fun k => Cmult (RtoC (a p k)) (mget U k j))) (RtoC (vget K j)))).
    - unfold cmv, csum3, v, c_m_v. cbn [vget v_1 v_2 v_3 mget]. ring.
    - transitivity (csum3 (fun j => Cmult (Cmult ph (csum3 (fun k => Cmult (mget T p k) (RtoC (a k j))))) (RtoC (vget K j)))).
      { apply csum3_ext. intros j. rewrite TC. reflexivity. }
      transitivity (Cmult ph (csum3 (fun k => Cmult (mget T p k) (RtoC (vget H k))))).
      { unfold csum3. rewrite !HK. unfold sum3. rewrite !RtoC_plus, !RtoC_mult. ring. }
      f_equal. destruct p; reflexivity. }
  unfold calc_f_m_perp. rewrite perp_formula.
  transitivity (cmv a (fun i => Cminus (Cmult (RtoC (dot q q)) (v i)) (Cmult (cdot q v) (RtoC (q i)))) i).
  { unfold cmv. apply csum3_ext. intros k. rewrite perp_formula. reflexivity. }
  symmetry. rewrite <- (perp_orth a q v _ i O eq_refl).
  assert (D : dot (vget (calc_eq_ccs (hkl_real h) uc)) (vget (calc_eq_ccs (hkl_real h) uc)) = dot (mv a q) (mv a q)).
  { unfold dot. apply sum3_ext. intros k. rewrite Q. reflexivity. }
  rewrite D, V, Q.
  assert (Dc : cdot (mv a q) (cmv a v) = Cmult ph (cdot (vget (calc_eq_ccs (hkl_real h) uc)) (vget (c_m_v T H)))).
  { unfold cdot, csum3. rewrite !V, !Q. ring. }
  rewrite Dc. ring.
Qed.
Lemma cmod2 : forall z : C, (Cmod z) ^ 2 = fst z ^ 2 + snd z ^ 2.
Proof. intros z. unfold Cmod. rewrite <- Rsqr_pow2. apply Rsqr_sqrt. pose proof (pow2_ge_0 (fst z)). pose proof (pow2_ge_0 (snd z)). lra. Qed.
Lemma cnorm2_orth : forall a v, mul (tr a) a = delta -> cnorm2 (cmv a v) = cnorm2 v.
Proof.
  intros a v O. assert (S : forall w, cnorm2 w = dot (fun i => fst (w i)) (fun i => fst (w i)) + dot (fun i => snd (w i)) (fun i => snd (w i))).
  { intros w. unfold cnorm2, dot, sum3. rewrite !cmod2. ring. }
  rewrite !S. f_equal.
  - rewrite <- (orth_dot a (fun i => fst (v i)) (fun i => fst (v i)) O). unfold dot. apply sum3_ext. intros i. unfold cmv, mv, csum3, sum3, Cplus, Cmult, RtoC. cbn [fst snd]. ring.
  - rewrite <- (orth_dot a (fun i => snd (v i)) (fun i => snd (v i)) O). unfold dot. apply sum3_ext. intros i. unfold cmv, mv, csum3, sum3, Cplus, Cmult, RtoC. cbn [fst snd]. ring.
Qed.
Theorem perp_modulus : forall only s uc atoms e A h g T U H K, sym_ok s -> symmetry_group (full_of s) -> nondegenerate uc ->
  (forall a, In a atoms -> p_isotropic a) -> In e (full_of s) -> metric_invariant uc e -> is_hR h e g ->
  in_frame (mget (calc_m_m uc)) e A -> (forall i, vget H i = sum3 (fun k => A i k * vget K k)) ->
  calc_sft_ccs only [h; g] s uc atoms = [T; U] ->
  cnorm2 (vget (calc_f_m_perp U K (calc_eq_ccs (hkl_real g) uc))) = cnorm2 (vget (calc_f_m_perp T H (calc_eq_ccs (hkl_real h) uc))).
Proof.
  intros only s uc atoms e A h g T U H K Ok G N Hi He M Hg HA HK E.
  pose proof (perp_covariant only s uc atoms e A h g T U H K Ok G N Hi He M Hg HA HK E) as P.
  assert (O : mul (tr A) A = delta) by (rewrite (rho_unique uc N e A HA); apply (rho_orth uc e N M)).
  rewrite <- (cnorm2_orth A _ O). unfold cnorm2. apply sum3_ext. intros i. unfold cmv. rewrite P, Cmod_mult, phase_mod. ring.
Qed.
Lemma flag_eq_keyerror : forall T H q, calc_f_m_perp_call T H q true = KeyError.
Proof. reflexivity. Qed.

(* ---- the bulk susceptibility ---- *)
Definition bhe (uc : U6 R) (a : para) (e : Op) : M3 R := calc_m_q_inv_m (calc_m_r_inv_m uc e) (mas_constr 1 (pa_sc a) (pa_chi a)).
Lemma r_sum_ext : forall A (f g : A -> R) l, (forall x, In x l -> f x = g x) -> r_sum (map f l) = r_sum (map g l).
Proof. intros. unfold r_sum. f_equal. apply map_ext_in. assumption. Qed.
Lemma bhe_tr : forall uc a te e, bhe uc a (add_translation te e) = bhe uc a e.
Proof. intros. unfold bhe, calc_m_r_inv_m, rot9, add_translation. destruct (sum_b_elems _ _ _ _). reflexivity. Qed.
Lemma bhe_inv : forall uc a cp e, bhe uc a (invert_elem cp e) = bhe uc a e.
Proof. intros. unfold bhe, calc_m_r_inv_m. rewrite rot9_opp, m1_m2_opp, q_inv_opp. reflexivity. Qed.
Lemma bhe_hhe : forall uc a e i j, mget (hhe uc a e) i j = 2695 / 10000 * mget (bhe uc a e) i j.
Proof.
  intros. unfold hhe, hh_of, bhe. generalize (calc_m_r_inv_m uc e). intros [m1 m2 m3 m4 m5 m6 m7 m8 m9].
  assert (S : mas_constr (2695 / 10000) (pa_sc a) (pa_chi a) = (let q := mas_constr 1 (pa_sc a) (pa_chi a) in
     mkQ (2695 / 10000 * q_11 q) (2695 / 10000 * q_22 q) (2695 / 10000 * q_33 q) (2695 / 10000 * q_12 q) (2695 / 10000 * q_13 q) (2695 / 10000 * q_23 q))).
  { unfold mas_constr. cbn [q_11 q_22 q_33 q_12 q_13 q_23]. f_equal; rewrite !dot6_row; ring. }
  rewrite S. generalize (mas_constr 1 (pa_sc a) (pa_chi a)). intros [q1 q2 q3 q4 q5 q6]. unfold calc_m_q_inv_m.
  generalize (calc_det_m (mkM m1 m2 m3 m4 m5 m6 m7 m8 m9)). intros d. destruct i, j; cbn; unfold Rdiv; ring.
Qed.
Lemma rsum_app : forall l m, r_sum (l ++ m) = r_sum l + r_sum m.
Proof. intros. unfold r_sum. induction l as [|x l IH]; cbn; [ring|]. rewrite IH. ring. Qed.
Lemma rsum_flat_const : forall A B (f : B -> R) (g : A -> list B) c l, (forall x, In x l -> r_sum (map f (g x)) = c) -> r_sum (map f (flat_map g l)) = INR (length l) * c.
Proof.
  intros A B f g c l H. induction l as [|x l IH]; [cbn; ring|]. cbn [flat_map]. rewrite map_app, rsum_app, IH by (intros; apply H; right; assumption).
  rewrite (H x (or_introl eq_refl)). change (length (x :: l)) with (S (length l)). rewrite S_INR. ring.
Qed.
Lemma rsum_full : forall s f, sym_ok s -> (forall te e, f (add_translation te e) = f e) -> (forall cp e, f (invert_elem cp e) = f e) ->
  r_sum (map f (full_of s)) / INR (length (full_of s)) = r_sum (map f (s_red s)) / INR (length (s_red s)).
Proof.
  intros s f (Hr & Ht & Hc & Nr & Nt) H1 H2.
  assert (L : length (full_of s) = ((if s_centro s then 2 else 1) * length (s_tr s) * length (s_red s))%nat) by apply full_length. rewrite L, !mult_INR.
  assert (N1 : INR (length (s_red s)) <> 0) by (apply not_0_INR; destruct (s_red s); [congruence|discriminate]).
  assert (N2 : INR (length (s_tr s)) <> 0) by (apply not_0_INR; destruct (s_tr s); [congruence|discriminate]).
  assert (A : r_sum (map f (flat_map (fun te => map (add_translation te) (s_red s)) (s_tr s))) = INR (length (s_tr s)) * r_sum (map f (s_red s))).
  { apply rsum_flat_const. intros te _. rewrite map_map. apply r_sum_ext. intros; apply H1. }
  unfold full_of, calc_full_symm_elems_by_reduced. destruct (s_centro s).
  - rewrite map_app, rsum_app, map_map. rewrite (r_sum_ext _ (fun x => f (invert_elem (s_cp s) x)) f) by (intros; apply H2). rewrite A. replace (INR 2) with 2 by (cbn; ring). field. auto.
  - rewrite A. replace (INR 1) with 1 by reflexivity. field. auto.
Qed.
Lemma rsum_scal : forall A (f : A -> R) c l, r_sum (map (fun x => c * f x) l) = c * r_sum (map f l).
Proof. intros. unfold r_sum. induction l as [|x l IH]; cbn; [ring|]. rewrite IH. ring. Qed.
Lemma rsum_plus : forall A (f g : A -> R) l, r_sum (map (fun x => f x + g x) l) = r_sum (map f l) + r_sum (map g l).
Proof. intros. unfold r_sum. induction l as [|x l IH]; cbn; [ring|]. rewrite IH. ring. Qed.
Lemma rsum_zero : forall A (l : list A), r_sum (map (fun _ => 0) l) = 0.
Proof. intros. unfold r_sum. induction l as [|x l IH]; cbn; [ring|]. rewrite IH. ring. Qed.
Lemma rsum_swap : forall A B (F : A -> B -> R) l m, r_sum (map (fun e => r_sum (map (F e) m)) l) = r_sum (map (fun a => r_sum (map (fun e => F e a) l)) m).
Proof.
  intros A B F l m. induction l as [|x l IH].
  - cbn [map]. change (r_sum []) with 0. symmetry. apply rsum_zero.
  - cbn [map]. change (r_sum (?a :: ?b)) with (a + r_sum b). rewrite IH, <- rsum_plus. apply r_sum_ext. intros a _. reflexivity.
Qed.
Lemma bulk_full : forall s uc atoms i j, sym_ok s -> mget (calc_bulk s uc atoms) i j =
  r_sum (map (fun a => INR (pmult (full_of s) a) * pa_occ a / INR (length (full_of s)) * r_sum (map (fun e => mget (bhe uc a e) i j) (full_of s))) atoms).
Proof.
  intros s uc atoms i j Ok. unfold calc_bulk. rewrite mget_tab. rewrite rsum_swap. unfold Rdiv at 1. rewrite Rmult_comm, <- rsum_scal.
  apply r_sum_ext. intros a _. 
  transitivity (INR (pmult (full_of s) a) * pa_occ a * (r_sum (map (fun e => mget (bhe uc a e) i j) (s_red s)) / INR (length (s_red s)))).
  - rewrite rsum_scal. unfold Rdiv, bhe, pmult. ring.
  - rewrite <- (rsum_full s (fun e => mget (bhe uc a e) i j) Ok); [unfold Rdiv; ring| |]; intros; [rewrite bhe_tr|rewrite bhe_inv]; reflexivity.
Qed.
Lemma csum_rsum : forall A (f : A -> R) l, csum (map (fun x => RtoC (f x)) l) = RtoC (r_sum (map f l)).
Proof. intros. apply csum_RtoC. Qed.
Lemma wsum0 : forall l x w, wsum (mkV 0 0 0)%Z l x w = RtoC (r_sum (map w l)).
Proof.
  intros l x w. unfold wsum. rewrite <- csum_rsum. apply csum_ext. intros e _.
  replace (hdot (mkV 0 0 0)%Z (act e x)) with 0 by (unfold hdot, sum3; cbn [vget v_1 v_2 v_3]; ring). rewrite phase_0. ring.
Qed.
Theorem bulk_textbook : forall s uc atoms ions, sym_ok s -> symmetry_group (full_of s) -> nondegenerate uc ->
  Forall2 (fun a l => ions_of (full_of s) uc a l) atoms ions ->
  (forall a e, In a atoms -> In e (full_of s) ->
     (same_point (act e (rounded (pa_xyz a))) (rounded (pa_xyz a)) <-> same_point (act e (vget (pa_xyz a))) (vget (pa_xyz a)))) ->
  forall i j, mget (calc_bulk s uc atoms) i j = fold_right Rplus 0 (flat_map (fun q : para * list ((ix -> R) * (ix -> ix -> R)) => map (fun pt => pa_occ (fst q) * snd pt i j) (snd q)) (combine atoms ions)).
Proof.
  intros s uc atoms ions Ok G N Ho Hr i j. rewrite bulk_full by exact Ok.
  assert (K : forall a l, In a atoms -> ions_of (full_of s) uc a l ->
    INR (pmult (full_of s) a) * pa_occ a / INR (length (full_of s)) * r_sum (map (fun e => mget (bhe uc a e) i j) (full_of s)) = r_sum (map (fun pt => pa_occ a * snd pt i j) l)).
  { intros a l Ha [Oa Ta].
    assert (W : wsum (mkV 0 0 0)%Z (full_of s) (vget (pa_xyz a)) (fun e => mget (bhe uc a e) i j) =
      Cmult (RtoC (INR (length (filter (fun f => spb (act f (vget (pa_xyz a))) (vget (pa_xyz a))) (full_of s)))))
       (csum (map (fun q => Cmult (phase (hdot (mkV 0 0 0)%Z (fst q))) (RtoC (snd q i j))) l))).
    { apply (orbit_wsum _ (full_of s) _ l fst (fun pt => snd pt i j) (mkV 0 0 0)%Z _ G Oa).
      intros e [p t] He Hp Sp. cbn [fst snd] in *.
      assert (Q : mget (hhe uc a e) i j = 2695 / 10000 * t i j).
      { apply hhe_carried; [exact N|apply (group_det _ e G He)|]. intros i' j'. apply (Ta e (rho uc e) p t He Hp Sp). apply rho_frame, N. }
      rewrite bhe_hhe in Q. lra. }
    rewrite wsum0 in W.
    rewrite (csum_ext _ _ (fun q => RtoC (snd q i j))) in W.
    2:{ intros q _. replace (hdot (mkV 0 0 0)%Z (fst q)) with 0 by (unfold hdot, sum3; cbn [vget v_1 v_2 v_3]; ring). rewrite phase_0. ring. }
    rewrite csum_rsum, <- RtoC_mult in W. apply RtoC_inj in W. rewrite W. rewrite pmult_orbit by auto.
    set (x := vget (pa_xyz a)) in *. pose proof (orbit_stabiliser _ x _ G Oa) as L. rewrite map_length in L. pose proof (stab_pos _ x G) as Sp.
    set (st := length (filter (fun f => spb (act f x) x) (full_of s))) in *.
    assert (Lp : (0 < length (full_of s))%nat). { pose proof (full_nonempty s Ok). destruct (full_of s); [congruence|cbn; lia]. }
    rewrite L. rewrite Nat.mul_comm, Nat.div_mul by lia. rewrite mult_INR.
    assert (INR st <> 0) by (apply not_0_INR; lia).
    assert (INR (length l) <> 0) by (apply not_0_INR; nia). rewrite rsum_scal. field. auto. }
  clear Hr. revert K. induction Ho as [|a l la lp Ho1 Ho2 IH]; intros K; [reflexivity|].
  cbn [combine map flat_map fst snd]. change (fold_right Rplus 0) with r_sum in *. rewrite rsum_app. change (r_sum (?x :: ?y)) with (x + r_sum y).
  rewrite IH by (intros; apply K; [right|]; assumption). f_equal. apply K; [left; reflexivity|exact Ho1].
Qed.
(** point-group invariance *)
Lemma bhe_comp : forall uc l a g e f, nondegenerate uc -> symmetry_group l -> In e l -> In f l -> In g l -> is_composition g e f ->
  mul (rho uc e) (mget (bhe uc a f)) = mul (mget (bhe uc a g)) (rho uc e).
Proof.
  intros uc l a g e f N G He Hf Hg H. pose proof (hhe_comp uc l a g e f N G He Hf Hg H) as K. apply mat_ext. intros i j.
  pose proof (f_equal (fun m => m i j) K) as E. unfold mul, sum3 in E |- *. rewrite !bhe_hhe in E. lra.
Qed.
Lemma rsum_sum3 : forall A (f : ix -> A -> R) l, sum3 (fun k => r_sum (map (f k) l)) = r_sum (map (fun a => sum3 (fun k => f k a)) l).
Proof. intros. unfold r_sum. induction l as [|x l IH]; cbn; [unfold sum3; ring|]. rewrite <- IH. unfold sum3. ring. Qed.
Lemma rgroup_sum : forall l g (f F : Op -> R), symmetry_group l -> In g l ->
  (forall e k, In e l -> In k l -> is_composition k g e -> F e = f k) -> r_sum (map F l) = r_sum (map f l).
Proof.
  intros l g f F G Hg H. pose proof (group_sum_in l g (fun e => RtoC (f e)) G Hg (fun e => RtoC (F e))) as K.
  rewrite !csum_rsum in K. apply RtoC_inj, K. intros e k He Hk Ck. rewrite (H e k He Hk Ck). reflexivity.
Qed.
Theorem bulk_invariant : forall s uc atoms e A, sym_ok s -> symmetry_group (full_of s) -> nondegenerate uc -> In e (full_of s) ->
  in_frame (mget (calc_m_m uc)) e A -> forall i j,
  sum3 (fun k => A i k * mget (calc_bulk s uc atoms) k j) = sum3 (fun k => mget (calc_bulk s uc atoms) i k * A k j).
Proof.
  intros s uc atoms e A Ok G N He HA i j. rewrite (rho_unique uc N e A HA). clear A HA.
  set (c := fun a => INR (pmult (full_of s) a) * pa_occ a / INR (length (full_of s))).
  transitivity (r_sum (map (fun a => c a * sum3 (fun k => rho uc e i k * r_sum (map (fun f => mget (bhe uc a f) k j) (full_of s)))) atoms)).
  { transitivity (sum3 (fun k => r_sum (map (fun a => rho uc e i k * (c a * r_sum (map (fun f => mget (bhe uc a f) k j) (full_of s)))) atoms))).
    - apply sum3_ext. intros k. rewrite bulk_full by exact Ok. rewrite <- rsum_scal. reflexivity.
    - rewrite (rsum_sum3 para (fun k a => rho uc e i k * (c a * r_sum (map (fun f => mget (bhe uc a f) k j) (full_of s)))) atoms).
      apply r_sum_ext. intros a _. unfold sum3. ring. }
  transitivity (r_sum (map (fun a => c a * sum3 (fun k => rho uc e k j * r_sum (map (fun f => mget (bhe uc a f) i k) (full_of s)))) atoms)).
  2:{ symmetry. transitivity (sum3 (fun k => r_sum (map (fun a => rho uc e k j * (c a * r_sum (map (fun f => mget (bhe uc a f) i k) (full_of s)))) atoms))).
    - apply sum3_ext. intros k. rewrite bulk_full by exact Ok. rewrite Rmult_comm, <- rsum_scal. reflexivity.
    - rewrite (rsum_sum3 para (fun k a => rho uc e k j * (c a * r_sum (map (fun f => mget (bhe uc a f) i k) (full_of s)))) atoms).
      apply r_sum_ext. intros a _. unfold sum3. ring. }
  apply r_sum_ext. intros a _. f_equal.
  transitivity (r_sum (map (fun f => mul (rho uc e) (mget (bhe uc a f)) i j) (full_of s))).
  { etransitivity; [|apply (rsum_sum3 Op (fun k f => rho uc e i k * mget (bhe uc a f) k j))]. apply sum3_ext. intros k. rewrite rsum_scal. reflexivity. }
  transitivity (r_sum (map (fun f => mul (mget (bhe uc a f)) (rho uc e) i j) (full_of s))).
  2:{ symmetry. transitivity (sum3 (fun k => r_sum (map (fun f => rho uc e k j * mget (bhe uc a f) i k) (full_of s)))); [apply sum3_ext; intros k; rewrite rsum_scal; reflexivity|].
      rewrite (rsum_sum3 Op (fun k f => rho uc e k j * mget (bhe uc a f) i k)). apply r_sum_ext. intros f _. unfold mul, sum3. ring. }
  apply (rgroup_sum _ e _ _ G He). intros f k Hf Hk Ck. rewrite (bhe_comp uc _ a k e f N G He Hf Hk Ck). reflexivity.
Qed.
