(** Fourier coefficients of a density: the channel of the susceptibility, stored data (C104). *)
From Coq Require Import Reals ZArith List Lra Lia Bool Permutation.
From Coquelicot Require Import Complex.
From Verif Require Import Spec.Lin3 Spec.Cell Spec.Symm Spec.Scatter Spec.DensityMap Spec.Fourier Model.MatrixOps Model.UnitCell Model.Symmetry Model.StructFactor Model.MagStruct Model.Mem Model.MemFourier
  Proofs.MatrixOpsP Proofs.UnitCellP Proofs.ConstraintsP Proofs.SymmBaseP Proofs.SymmGridP Proofs.SymmGroupP Proofs.SymmExP Proofs.ScatterP Proofs.StructFactorP2 Proofs.MagStructP Proofs.DensMapP3 Proofs.MemFourierP Proofs.MemFourierP2.
Import ListNotations.
Open Scope list_scope.
Open Scope R_scope.

Lemma Forall2_length' : forall A B (P : A -> B -> Prop) a b, Forall2 P a b -> length a = length b.
Proof. intros A B P a b H. induction H; cbn; congruence. Qed.
Lemma chi_field : forall A B kc Vc mc L NN : C, L <> RtoC 0 -> NN <> RtoC 0 -> Cmult A mc = Cmult L B ->
  Cdiv (Cmult (Cmult (Cdiv (Cmult kc A) L) mc) Vc) NN = Cmult (Cdiv (Cmult kc Vc) NN) B.
Proof.
  intros A B kc Vc mc L NN ZL ZN S. transitivity (Cmult (Cdiv (Cdiv (Cmult kc Vc) NN) L) (Cmult A mc)); [field; split; assumption|]. rewrite S. field. split; assumption.
Qed.
Section Chi.
  Variables (n : V3 Z) (l : list Op) (cells : list (V3 Z * nat)) (pts : list (V3 Z)) (uc : U6 R).
  Hypothesis Hn : forall i, (0 < vget n i)%Z.
  Hypothesis Hg : symmetry_group l.
  Hypothesis Hc : forall e, In e l -> grid_compatible n e.
  Hypothesis HA : calc_asymmetric_unit_cell_indexes n l = Some cells.
  Hypothesis Hpts : is_grid n pts.
  Hypothesis Huc : nondegenerate uc.
  Notation point := (fun rc : V3 Z * nat => calc_symm_elem_points_by_index_points (fst rc) n).
  Definition perp_v (h : V3 Z) (v : V3 R) : V3 R := calc_vector_product_v1_v2_v1 (calc_eq_ccs (hkl_real h) uc) v.
  Definition tv (t : ix -> ix -> R) (H : V3 R) : V3 R := mkV (applied t (vget H) X1) (applied t (vget H) X2) (applied t (vget H) X3).
  Lemma m_perp_at : forall h H t m e r q, covariant_tensor n l (mget (calc_m_m uc)) t -> mget m = t r -> In e l -> in_grid n r -> in_grid n q ->
    same_point (act e (grid_fract n r)) (grid_fract n q) -> mem_chi_m_perp uc (calc_eq_ccs (hkl_real h) uc) H m e = perp_v h (tv (t q) H).
  Proof.
    intros h H t m e r q T E He Gr Gq S. unfold mem_chi_m_perp, perp_v. f_equal.
    assert (D : det3 (rho uc e) <> 0) by (apply rho_det; [exact Huc|apply (group_det l e Hg He)]).
    assert (Q : mget (calc_m1_m2_inv_m1 (calc_m_r_inv_m uc e) m) = t q).
    { apply (mul_cancel_r _ _ (rho uc e) D). apply mat_ext. intros i j. unfold mul. etransitivity; [apply (m1_m2_inv_m1_spec (calc_m_r_inv_m uc e) m i j D)|].
      rewrite E. symmetry. apply (T r q e (rho uc e) Gr Gq He S (rho_frame uc Huc e)). }
    assert (V : forall i, vget (calc_m_v (calc_m1_m2_inv_m1 (calc_m_r_inv_m uc e) m) H) i = applied (t q) (vget H) i) by (intros i; rewrite m_v_spec, Q; reflexivity).
    unfold tv. rewrite <- !V. generalize (calc_m_v (calc_m1_m2_inv_m1 (calc_m_r_inv_m uc e) m) H). intros [a b c]. reflexivity.
  Qed.
  Lemma chi_point : forall h H t m V N rc i, In rc cells -> N <> 0 -> covariant_tensor n l (mget (calc_m_m uc)) t -> mget m = t (fst rc) ->
    vget (mem_chi_value h uc (calc_eq_ccs (hkl_real h) uc) H l (point rc) m V N (INR (snd rc))) i =
    Cmult (RtoC (2695 / 10000 * V / N)) (csum (map (fun q => Cmult (phase (hdot h (grid_fract n q))) (RtoC (vget (perp_v h (tv (t q) H)) i))) (cls n l (fst rc)))).
  Proof.
    intros h H t m V N rc i Hr HN T E. destruct (cells_mult n l cells Hn Hg Hc HA rc Hr) as (Em & Gr).
    pose proof (point_sum n l Hn Hg Hc (fst rc) h (fun e => RtoC (vget (mem_chi_m_perp uc (calc_eq_ccs (hkl_real h) uc) H m e) i)) (fun q => RtoC (vget (perp_v h (tv (t q) H)) i))) as S.
    rewrite <- Em in S. specialize (S (fun e q He Hq Sp => f_equal (fun v => RtoC (vget v i)) (m_perp_at h H t m e (fst rc) q T E He Gr (proj1 (proj1 (cls_in n l Hn Hg Hc (fst rc) q) Hq)) Sp))).
    cbv beta in S.
    assert (V1 : vget (mem_chi_value h uc (calc_eq_ccs (hkl_real h) uc) H l (point rc) m V N (INR (snd rc))) i =
      Cdiv (Cmult (Cmult (Cdiv (Cmult (RtoC (2695 / 10000)) (csum (map (fun e => Cmult (phase_3d h (point rc) e) (RtoC (vget (mem_chi_m_perp uc (calc_eq_ccs (hkl_real h) uc) H m e) i))) l))) (RtoC (INR (length l)))) (RtoC (INR (snd rc)))) (RtoC V)) (RtoC N))
      by (destruct i; reflexivity).
    rewrite V1. clear V1. pose proof (rtoc_nz _ HN) as ZN. pose proof (rtoc_nz _ (l_nz n l cells Hg Hc HA)) as ZL. set (k := 2695 / 10000).
    replace (RtoC (k * V / N)) with (Cdiv (Cmult (RtoC k) (RtoC V)) (RtoC N)) by (rewrite <- RtoC_mult, <- RtoC_div by exact HN; reflexivity).
    exact (chi_field _ _ _ _ _ _ _ ZL ZN S).
  Qed.
  Lemma rho_sum : forall (w : R -> R) (rho : V3 Z -> R) (k : C) (g : (V3 Z * nat) * M3 R -> V3 C) (F : V3 Z -> C) i density chis,
    symmetric_density n l rho -> Forall2 (fun rc d => rho (fst rc) = d) cells density -> length chis = length cells ->
    (forall rm, In rm (combine cells chis) -> vget (g rm) i = Cmult k (csum (map F (cls n l (fst (fst rm)))))) ->
    csum (map (fun dc => Cmult (RtoC (fst dc)) (vget (snd dc) i)) (combine density (map g (combine cells chis)))) =
    Cmult k (csum (map (fun q => Cmult (RtoC (rho q)) (F q)) pts)).
  Proof.
    intros w rho k g F i density chis Sy Fd Len K. rewrite (cells_points n Hn l cells pts (fun q => Cmult (RtoC (rho q)) (F q)) Hg Hc HA Hpts).
    assert (T : forall rc, In rc cells -> csum (map (fun q => Cmult (RtoC (rho q)) (F q)) (cls n l (fst rc))) = Cmult (RtoC (rho (fst rc))) (csum (map F (cls n l (fst rc))))).
    { intros rc H. rewrite <- csum_scal. apply csum_ext. intros q Hq. apply (cls_in n l Hn Hg Hc) in Hq. destruct Hq as (Gq & E). f_equal. f_equal. symmetry.
      apply Sy; [apply (cells_mult n l cells Hn Hg Hc HA), H|exact Gq|exact E]. }
    revert chis Len K T. clear HA Hpts. induction Fd as [|rc d cs ds E Fd IH]; intros [|m chis] Len K T; try discriminate Len.
    - cbn. symmetry. apply Cmult_0_r.
    - cbn [map combine csum fold_right fst snd]. fold csum. rewrite <- E, (K (rc, m) (or_introl eq_refl)). cbn [fst].
      change (fold_right Cplus (RtoC 0)) with csum. rewrite (IH chis); [|cbn in Len; lia|intros; apply K; right; assumption|intros; apply T; right; assumption].
      rewrite (T rc (or_introl eq_refl)). ring.
  Qed.
  Lemma chi_row : forall hkls H chis V N m k h t rho density, N <> 0 -> good_mult cells m -> nth_error hkls k = Some h ->
    covariant_tensor n l (mget (calc_m_m uc)) t -> Forall2 (fun rc x => mget x = t (fst rc)) cells chis ->
    symmetric_density n l rho -> Forall2 (fun rc d => rho (fst rc) = d) cells density ->
    exists row, nth_error (fst (calc_mem_chi false (mkMC None None None) hkls uc H l (map point cells) chis V N m)) k = Some row /\
      forall i, f_m_perp_chi density row i =
        Cmult (RtoC (2695 / 10000 * V / N)) (fourier_sum n pts (fun q => rho q * vget (perp_v h (tv (t q) H)) i) h).
  Proof.
    intros hkls H chis V N m k h t rho density HN Gm Ek T Fc Sy Fd.
    assert (Len : length chis = length cells) by (symmetry; eapply Forall2_length'; exact Fc).
    assert (P : fst (calc_mem_chi false (mkMC None None None) hkls uc H l (map point cells) chis V N m) =
      map (fun hq => map (fun rm => mem_chi_value (fst hq) uc (snd hq) H l (point (fst rm)) (snd rm) V N (INR (snd (fst rm)))) (combine cells chis)) (combine hkls (map (fun h => calc_eq_ccs (hkl_real h) uc) hkls))).
    { unfold calc_mem_chi, mem_prepare. cbn [mc_hkl mc_eq mc_mult fst].
      assert (C3 : forall (f : (V3 Z * Z) * M3 R * R -> V3 C), map f (combine (combine (map point cells) chis) (map (fun rc => INR (snd rc)) cells)) =
        map (fun rm => f (point (fst rm), snd rm, INR (snd (fst rm)))) (combine cells chis)).
      { intros f. revert Len. clear. revert chis. induction cells as [|rc cs IH]; intros [|x xs] Len; try discriminate; [reflexivity|]. cbn [map combine fst snd]. f_equal. apply IH. cbn in Len. lia. }
      destruct Gm as [->| ->]; cbv iota; rewrite ?(computed_is n l cells Hn Hg Hc HA); apply map_ext; intros hq; rewrite C3; reflexivity. }
    rewrite P. eexists. split; [apply (nth_row _ _ _ hkls (fun h => calc_eq_ccs (hkl_real h) uc) _ k h Ek)|]. cbn [fst snd]. intros i. unfold f_m_perp_chi.
    transitivity (Cmult (RtoC (2695 / 10000 * V / N)) (csum (map (fun q => Cmult (RtoC (rho q)) (Cmult (phase (hdot h (grid_fract n q))) (RtoC (vget (perp_v h (tv (t q) H)) i)))) pts))).
    - apply (rho_sum (fun d => d)); [exact Sy|exact Fd|exact Len|]. intros [rc x] Hx. cbn [fst snd]. apply chi_point; [apply in_combine_l in Hx; exact Hx|exact HN|exact T|].
      clear - Fc Hx. induction Fc as [|a b la lb R F IH]; [contradiction|]. cbn in Hx. destruct Hx as [Q|Hx]; [inversion Q; subst; exact R|apply IH, Hx].
    - f_equal. unfold fourier_sum. apply csum_ext. intros q _. rewrite RtoC_mult. ring.
  Qed.
End Chi.
