From Coq Require Import Reals ZArith List Bool Lra Lia Permutation.
From Coquelicot Require Import Complex.
From Verif Require Import Spec.Lin3 Spec.Cell Spec.Symm Spec.Scatter Spec.StructSpec Spec.MagSpec
  Model.MatrixOps Model.UnitCell Model.Symmetry Model.AtomFactors Model.StructFactor Model.MagStruct
  Proofs.SymmBaseP Proofs.SymmGroupP Proofs.SymmExP Proofs.ScatterP Proofs.StructFactorP Proofs.StructFactorP2 Proofs.StructFactorP3 Proofs.MagStructP.
Import ListNotations.
Open Scope list_scope.
Open Scope R_scope.

Definition m_asym (k : mcall) : list (list (M3 C)) :=
  sft_asym_arr (p_mult_arr (full_of (m_s k)) (m_atoms k)) (p_dwf_arr (m_hkl k) (sthovl_arr (m_hkl k) (m_uc k)) (m_s k) (m_atoms k)) (m_atoms k)
    (p_pr1_arr (m_hkl k) (m_s k) (m_atoms k)) (pr2_arr (m_hkl k) (m_s k)) (pr5_arr (m_s k) (m_uc k)).
Record minv (d : mcache) (p : mcall) : Prop := mkMinv {
  n_hkl : d_hkl d = Some (m_hkl p);
  n_full : holds (d_full d) (full_of (m_s p));
  n_mult : holds (d_mult d) (p_mult_arr (full_of (m_s p)) (m_atoms p));
  n_pr1 : holds (d_pr1 d) (p_pr1_arr (m_hkl p) (m_s p) (m_atoms p));
  n_pr2 : holds (d_pr2 d) (pr2_arr (m_hkl p) (m_s p));
  n_pr3 : holds (d_pr3 d) (pr3_arr (m_hkl p) (m_s p));
  n_pr4 : holds (d_pr4 d) (pr4_arr (m_hkl p) (m_s p));
  n_st : holds (d_sthovl d) (sthovl_arr (m_hkl p) (m_uc p));
  n_pr5 : holds (d_pr5 d) (pr5_arr (m_s p) (m_uc p));
  n_only : d_only d = Some (m_only p);
  n_ff : holds (d_ff d) (ff_arr (m_only p) (sthovl_arr (m_hkl p) (m_uc p)) (m_atoms p));
  n_dwf : holds (d_dwf d) (p_dwf_arr (m_hkl p) (sthovl_arr (m_hkl p) (m_uc p)) (m_s p) (m_atoms p));
  n_asym : holds (d_asym d) (m_asym p);
  n_sft : holds (d_sft d) (mfresh p) }.

Lemma p_pr1_xyz : forall h s a b, map pa_xyz a = map pa_xyz b -> p_pr1_arr h s a = p_pr1_arr h s b.
Proof.
  intros h s a b H. unfold p_pr1_arr. apply map_ext. intros g. apply map_ext. intros e.
  rewrite <- (map_map pa_xyz (fun x => calc_pr1 g e x)), H, map_map. reflexivity.
Qed.
Lemma p_dwf_at : forall h st s a b, map pa_biso a = map pa_biso b -> map pa_beta a = map pa_beta b -> p_dwf_arr h st s a = p_dwf_arr h st s b.
Proof.
  intros h st s a b H1 H2. unfold p_dwf_arr. apply map_ext. intros g. apply map_ext. intros e.
  pose proof (map_pair _ _ _ pa_biso pa_beta a b H1 H2) as P.
  rewrite <- (map_map (fun x => (pa_biso x, pa_beta x)) (fun q => dwf_call (fst g) (snd g) e (fst q) (snd q))), P, map_map. reflexivity.
Qed.
Lemma ff_at : forall o st a b, map pa_lande a = map pa_lande b -> map pa_kappa a = map pa_kappa b -> map pa_j0 a = map pa_j0 b -> map pa_j2 a = map pa_j2 b ->
  ff_arr o st a = ff_arr o st b.
Proof.
  intros o st a b H1 H2 H3 H4. unfold ff_arr. apply map_ext. intros g.
  pose proof (map_pair _ _ _ _ _ a b (map_pair _ _ _ pa_lande pa_kappa a b H1 H2) (map_pair _ _ _ pa_j0 pa_j2 a b H3 H4)) as P. cbn beta in P.
  rewrite <- (map_map (fun x => ((pa_lande x, pa_kappa x), (pa_j0 x, pa_j2 x))) (fun q => calc_form_factor o g (fst (fst q)) (snd (fst q)) (fst (snd q)) (snd (snd q)))), P, map_map.
  reflexivity.
Qed.
Lemma para_eq : forall a b, map pa_xyz a = map pa_xyz b -> map pa_occ a = map pa_occ b -> map pa_chi a = map pa_chi b -> map pa_sc a = map pa_sc b ->
  map pa_biso a = map pa_biso b -> map pa_beta a = map pa_beta b -> map pa_lande a = map pa_lande b -> map pa_kappa a = map pa_kappa b ->
  map pa_j0 a = map pa_j0 b -> map pa_j2 a = map pa_j2 b -> a = b.
Proof.
  induction a as [|x a IH]; intros [|y b] H1 H2 H3 H4 H5 H6 H7 H8 H9 H10; try discriminate; [reflexivity|].
  cbn [map] in *. injection H1 as E1 H1. injection H2 as E2 H2. injection H3 as E3 H3. injection H4 as E4 H4. injection H5 as E5 H5.
  injection H6 as E6 H6. injection H7 as E7 H7. injection H8 as E8 H8. injection H9 as E9 H9. injection H10 as E10 H10.
  f_equal; [|apply IH; assumption]. destruct x, y; cbn in *; congruence.
Qed.

Definition flag_any (fl : mflags) : bool :=
  (g_uc fl || g_lande fl || g_kappa fl) || (g_biso fl || g_beta fl) || g_occ fl || g_chi fl || g_xyz fl || g_uc fl.
Lemma flag_any_false : forall fl, flag_any fl = false ->
  g_uc fl = false /\ g_lande fl = false /\ g_kappa fl = false /\ g_biso fl = false /\ g_beta fl = false /\ g_occ fl = false /\ g_chi fl = false /\ g_xyz fl = false.
Proof. intros [[] [] [] [] [] [] [] []]; cbn; intros H; try discriminate; repeat split. Qed.
Lemma some_any : forall fl, m_some_flag fl -> flag_any fl = true.
Proof.
  intros fl H. destruct (flag_any fl) eqn:E; [reflexivity|]. apply flag_any_false in E as (A & B & D & F & G & K & L & M). unfold m_some_flag in H.
  rewrite A, B, D, F, G, K, L, M in H. intuition discriminate.
Qed.

Lemma m_matching : forall d p k, minv d p -> m_s k = m_s p -> m_hkl k = m_hkl p ->
  (m_use k = true -> m_announced p k /\ p_mult_arr (full_of (m_s k)) (m_atoms k) = p_mult_arr (full_of (m_s k)) (m_atoms p) /\
    (m_only k = m_only p \/ flag_any (m_fl k) = true)) ->
  fst (do_mcall d k) = mfresh k /\ minv (snd (do_mcall d k)) k.
Proof.
  intros d p k I Es Eh Hs. unfold do_mcall, calc_sft_ccs_dict.
  assert (D0 : match d_hkl d with Some h => if hkl_dec h (m_hkl k) then d else only_hkl (m_hkl k) | None => d end = d).
  { rewrite (n_hkl _ _ I), Eh. destruct (hkl_dec (m_hkl p) (m_hkl p)); [reflexivity|congruence]. }
  rewrite D0. cbv zeta.
  assert (Ef : fetch true (d_full d) (full_of (m_s k)) = full_of (m_s k)).
  { apply (fetch_holds _ _ _ _ (full_of (m_s p))). intros _. rewrite Es. split; [apply (n_full _ _ I)|reflexivity]. }
  rewrite Ef.
  assert (Em : fetch (m_use k) (d_mult d) (p_mult_arr (full_of (m_s k)) (m_atoms k)) = p_mult_arr (full_of (m_s k)) (m_atoms k)).
  { apply (fetch_holds _ _ _ _ (p_mult_arr (full_of (m_s k)) (m_atoms p))). intros U. rewrite Es at 1. split; [apply (n_mult _ _ I)|]. symmetry. apply (Hs U). }
  rewrite Em.
  assert (E1 : fetch (m_use k && negb (g_xyz (m_fl k))) (d_pr1 d) (p_pr1_arr (m_hkl k) (m_s k) (m_atoms k)) = p_pr1_arr (m_hkl k) (m_s k) (m_atoms k)).
  { apply (fetch_holds _ _ _ _ (p_pr1_arr (m_hkl p) (m_s p) (m_atoms p))). intros U. apply andb_true_iff in U as [U X]. apply negb_true_iff in X.
    split; [apply (n_pr1 _ _ I)|]. rewrite Eh, Es. apply p_pr1_xyz. symmetry. apply (Hs U). exact X. }
  rewrite E1.
  assert (E2 : fetch (m_use k) (d_pr2 d) (pr2_arr (m_hkl k) (m_s k)) = pr2_arr (m_hkl k) (m_s k)).
  { apply (fetch_holds _ _ _ _ (pr2_arr (m_hkl p) (m_s p))). intros _. rewrite Eh, Es. split; [apply (n_pr2 _ _ I)|reflexivity]. }
  assert (E3 : fetch (m_use k) (d_pr3 d) (pr3_arr (m_hkl k) (m_s k)) = pr3_arr (m_hkl k) (m_s k)).
  { apply (fetch_holds _ _ _ _ (pr3_arr (m_hkl p) (m_s p))). intros _. rewrite Eh, Es. split; [apply (n_pr3 _ _ I)|reflexivity]. }
  assert (E4 : fetch (m_use k) (d_pr4 d) (pr4_arr (m_hkl k) (m_s k)) = pr4_arr (m_hkl k) (m_s k)).
  { apply (fetch_holds _ _ _ _ (pr4_arr (m_hkl p) (m_s p))). intros _. rewrite Eh, Es. split; [apply (n_pr4 _ _ I)|reflexivity]. }
  rewrite E2, E3, E4.
  assert (Eu : fetch (m_use k && negb (g_uc (m_fl k))) (d_sthovl d) (sthovl_arr (m_hkl k) (m_uc k)) = sthovl_arr (m_hkl k) (m_uc k)).
  { apply (fetch_holds _ _ _ _ (sthovl_arr (m_hkl p) (m_uc p))). intros U. apply andb_true_iff in U as [U X]. apply negb_true_iff in X.
    split; [apply (n_st _ _ I)|]. rewrite Eh. f_equal. symmetry. apply (Hs U). exact X. }
  rewrite Eu.
  assert (E5 : fetch (m_use k && negb (g_uc (m_fl k))) (d_pr5 d) (pr5_arr (m_s k) (m_uc k)) = pr5_arr (m_s k) (m_uc k)).
  { apply (fetch_holds _ _ _ _ (pr5_arr (m_s p) (m_uc p))). intros U. apply andb_true_iff in U as [U X]. apply negb_true_iff in X.
    split; [apply (n_pr5 _ _ I)|]. rewrite Es. f_equal. symmetry. apply (Hs U). exact X. }
  rewrite E5.
  assert (Eff : fetch (m_use k && negb (g_uc (m_fl k) || g_lande (m_fl k) || g_kappa (m_fl k)) && match d_only d with Some o => Bool.eqb (m_only k) o | None => true end) (d_ff d)
      (ff_arr (m_only k) (sthovl_arr (m_hkl k) (m_uc k)) (m_atoms k)) = ff_arr (m_only k) (sthovl_arr (m_hkl k) (m_uc k)) (m_atoms k)).
  { apply (fetch_holds _ _ _ _ (ff_arr (m_only p) (sthovl_arr (m_hkl p) (m_uc p)) (m_atoms p))). intros U. apply andb_true_iff in U as [U Y]. apply andb_true_iff in U as [U X].
    apply negb_true_iff in X. apply orb_false_iff in X as [X X3]. apply orb_false_iff in X as [X1 X2].
    split; [apply (n_ff _ _ I)|]. destruct (Hs U) as ((A1 & A2 & A3 & A4 & A5 & A6 & A7 & A8 & A9 & A10 & A11) & _).
    rewrite (n_only _ _ I) in Y. apply eqb_prop in Y. rewrite Eh, (A1 X1), Y. apply ff_at; symmetry; auto. }
  rewrite Eff.
  assert (Ed : fetch (m_use k && negb (g_uc (m_fl k) || g_biso (m_fl k) || g_beta (m_fl k))) (d_dwf d)
      (p_dwf_arr (m_hkl k) (sthovl_arr (m_hkl k) (m_uc k)) (m_s k) (m_atoms k)) = p_dwf_arr (m_hkl k) (sthovl_arr (m_hkl k) (m_uc k)) (m_s k) (m_atoms k)).
  { apply (fetch_holds _ _ _ _ (p_dwf_arr (m_hkl p) (sthovl_arr (m_hkl p) (m_uc p)) (m_s p) (m_atoms p))). intros U. apply andb_true_iff in U as [U X].
    apply negb_true_iff in X. apply orb_false_iff in X as [X X3]. apply orb_false_iff in X as [X1 X2].
    split; [apply (n_dwf _ _ I)|]. destruct (Hs U) as ((A1 & A2 & A3 & A4 & A5 & A6 & A7) & _). rewrite Eh, Es, (A1 X1).
    apply p_dwf_at; symmetry; auto. }
  rewrite Ed.
  fold (flag_any (m_fl k)).
  assert (Same : m_use k && negb (flag_any (m_fl k)) = true -> m_atoms k = m_atoms p /\ m_uc k = m_uc p /\ m_only k = m_only p).
  { intros U. apply andb_true_iff in U as [U X]. apply negb_true_iff in X.
    destruct (Hs U) as ((A1 & A2 & A3 & A4 & A5 & A6 & A7 & A8 & A9 & A10 & A11) & _ & Rf).
    destruct (flag_any_false _ X) as (B1 & B2 & B3 & B4 & B5 & B6 & B7 & B8).
    split; [|split; [auto|]].
    - apply para_eq; auto.
    - destruct Rf as [Rf|Rf]; [exact Rf|rewrite X in Rf; discriminate]. }
  fold (m_asym k).
  assert (Ea : fetch (m_use k && negb (flag_any (m_fl k))) (d_asym d) (m_asym k) = m_asym k).
  { eapply fetch_holds. intros U. destruct (Same U) as (Q1 & Q2 & Q3). split; [apply (n_asym _ _ I)|]. unfold m_asym. rewrite Q1, Q2, Eh, Es. reflexivity. }
  rewrite Ea.
  assert (Fr : sft_arr (m_asym k) (ff_arr (m_only k) (sthovl_arr (m_hkl k) (m_uc k)) (m_atoms k)) (pr3_arr (m_hkl k) (m_s k)) (m_s k) (pr4_arr (m_hkl k) (m_s k)) = mfresh k) by reflexivity.
  rewrite Fr.
  assert (En : fetch (m_use k && negb (flag_any (m_fl k))) (d_sft d) (mfresh k) = mfresh k).
  { eapply fetch_holds. intros U. destruct (Same U) as (Q1 & Q2 & Q3). split; [apply (n_sft _ _ I)|]. unfold mfresh. rewrite Q1, Q2, Q3, Eh, Es. reflexivity. }
  rewrite En. split; [reflexivity|]. cbn [snd].
  constructor; cbn [d_hkl d_full d_mult d_pr1 d_pr2 d_pr3 d_pr4 d_sthovl d_pr5 d_only d_ff d_dwf d_asym d_sft]; try (right; reflexivity); try reflexivity.
  - rewrite (n_hkl _ _ I), Eh. reflexivity.
  - destruct (m_use k); [|right; reflexivity]. destruct (d_mult d); [|right; reflexivity]. rewrite Es. apply (n_full _ _ I).
Qed.
Lemma m_clear : forall k, fst (do_mcall (only_hkl (m_hkl k)) k) = mfresh k /\ minv (snd (do_mcall (only_hkl (m_hkl k)) k)) k.
Proof.
  intros k. unfold do_mcall, calc_sft_ccs_dict.
  assert (D0 : match d_hkl (only_hkl (m_hkl k)) with Some h => if hkl_dec h (m_hkl k) then only_hkl (m_hkl k) else only_hkl (m_hkl k) | None => only_hkl (m_hkl k) end = only_hkl (m_hkl k)).
  { cbn [d_hkl only_hkl]. destruct (hkl_dec (m_hkl k) (m_hkl k)); reflexivity. }
  rewrite D0. cbv zeta. unfold only_hkl. cbn [d_hkl d_full d_mult d_pr1 d_pr2 d_pr3 d_pr4 d_sthovl d_pr5 d_only d_ff d_dwf d_asym d_sft].
  rewrite !fetch_none. split; [reflexivity|]. cbn [snd].
  constructor; cbn [d_hkl d_full d_mult d_pr1 d_pr2 d_pr3 d_pr4 d_sthovl d_pr5 d_only d_ff d_dwf d_asym d_sft]; try (right; reflexivity); try reflexivity.
  destruct (m_use k); right; reflexivity.
Qed.
Lemma m_step : forall d p k, minv d p -> m_safe p k -> fst (do_mcall d k) = mfresh k /\ minv (snd (do_mcall d k)) k.
Proof.
  intros d p k I H. destruct (hkl_dec (m_hkl p) (m_hkl k)) as [E|E].
  - destruct (H (eq_sym E)) as (Es & Hs). apply (m_matching d p k I Es (eq_sym E)). intros U. destruct (Hs U) as (A & B & Cc). split; [exact A|]. split; [exact B|].
    destruct Cc as [Cc|Cc]; [left; exact Cc|right; apply some_any; exact Cc].
  - assert (Q : do_mcall d k = do_mcall (only_hkl (m_hkl k)) k).
    { unfold do_mcall, calc_sft_ccs_dict. cbn [d_hkl only_hkl]. rewrite (n_hkl _ _ I).
      destruct (hkl_dec (m_hkl p) (m_hkl k)); [contradiction|]. destruct (hkl_dec (m_hkl k) (m_hkl k)); [reflexivity|congruence]. }
    rewrite Q. apply m_clear.
Qed.
Lemma m_run_safe : forall ks d p, minv d p -> m_safe_history p ks -> mrun d ks = map mfresh ks.
Proof.
  induction ks as [|k ks IH]; intros d p I H; [reflexivity|]. destruct H as [H1 H2]. cbn [mrun map].
  destruct (m_step d p k I H1) as [A B]. destruct (do_mcall d k) as [v d']. cbn [fst snd] in *. subst v. f_equal. apply (IH d' k B H2).
Qed.
Theorem m_cached_fresh : forall k ks, m_safe_history k ks -> mrun (only_hkl (m_hkl k)) (k :: ks) = map mfresh (k :: ks).
Proof.
  intros k ks H. cbn [mrun map]. destruct (m_clear k) as [A B]. destruct (do_mcall (only_hkl (m_hkl k)) k) as [v d']. cbn [fst snd] in *.
  subst v. f_equal. apply (m_run_safe ks d' k B H).
Qed.
