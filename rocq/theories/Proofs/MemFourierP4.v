(** Fourier coefficients of a density: the statements of C104. *)
From Coq Require Import Reals ZArith List Lra Lia Bool Permutation.
From Coquelicot Require Import Complex.
From Verif Require Import Spec.Lin3 Spec.Cell Spec.Symm Spec.Scatter Spec.DensityMap Spec.Fourier Model.MatrixOps Model.UnitCell Model.Symmetry Model.StructFactor Model.MagStruct Model.Mem Model.MemFourier
  Proofs.MatrixOpsP Proofs.UnitCellP Proofs.ConstraintsP Proofs.SymmBaseP Proofs.SymmGridP Proofs.SymmGroupP Proofs.SymmExP Proofs.ScatterP Proofs.StructFactorP2 Proofs.MagStructP Proofs.MagStructP3 Proofs.MagStructExP
  Proofs.DensMapP3 Proofs.DensMapExP Proofs.MemFourierP Proofs.MemFourierP2 Proofs.MemFourierP3.
Import ListNotations.
Open Scope list_scope.
Open Scope R_scope.

(** ** the reciprocal vector *)
Lemma q_is : forall uc h q, nondegenerate uc -> reciprocal_vector (mget (calc_m_m uc)) h q -> forall i, q i = vget (calc_q_ccs (hkl_real h) uc) i.
Proof.
  intros uc h q N Q. set (Mm := mget (calc_m_m uc)) in *.
  assert (D : det3 (tr Mm) <> 0) by (replace (det3 (tr Mm)) with (det3 Mm) by (unfold det3, tr; ring); apply det_M, N).
  destruct (inv_exists (tr Mm) D) as (v & _ & V).
  assert (K : forall u w, (forall j, mv (tr Mm) u j = mv (tr Mm) w j) -> forall j, u j = w j).
  { intros u w Huw j. rewrite <- (mv_one u j), <- (mv_one w j), <- V, !mv_mul. apply mv_ext. exact Huw. }
  apply K. intros j. unfold Mm at 2. rewrite (mtq uc (hkl_real h) j N). transitivity (IZR (vget h j)); [rewrite <- Q; unfold mv, tr, sum3; ring|].
  destruct h as [a b c], j; reflexivity.
Qed.
Lemma hkl_real_nz : forall h, h <> mkV 0%Z 0%Z 0%Z -> hkl_real h <> mkV 0 0 0.
Proof. intros [a b c] H E. apply H. unfold hkl_real in E. cbn in E. injection E as E1 E2 E3. apply eq_IZR in E1, E2, E3. subst. reflexivity. Qed.
Lemma perp_is : forall uc h q v i, nondegenerate uc -> h <> mkV 0%Z 0%Z 0%Z -> reciprocal_vector (mget (calc_m_m uc)) h q ->
  vget (calc_vector_product_v1_v2_v1 (calc_eq_ccs (hkl_real h) uc) v) i = perpendicular q (vget v) i.
Proof.
  intros uc h q v i N Hh Q. apply hkl_real_nz in Hh. destruct (eq_ccs_spec (hkl_real h) uc N Hh) as [U E]. pose proof (q_is uc h q N Q) as Qi.
  rewrite double_vprod_spec, U. unfold perpendicular. set (e := vget (calc_eq_ccs (hkl_real h) uc)) in *. set (k := calc_inv_d (hkl_real h) uc) in *.
  assert (Qe : forall j, q j = k * e j) by (intros j; rewrite Qi; apply E).
  assert (D1 : dot q (vget v) = k * dot e (vget v)) by (unfold dot, sum3; rewrite !Qe; ring).
  assert (D2 : dot q q = k * k) by (transitivity (k * k * dot e e); [unfold dot, sum3; rewrite !Qe; ring|rewrite U; ring]).
  assert (K : k <> 0).
  { intros K. apply Hh. apply (q_zero_iff (hkl_real h) uc N). unfold dot, sum3. rewrite !E. fold k. rewrite K. ring. }
  rewrite D1, D2, Qe. field. exact K.
Qed.

(** ** the two channels *)
Lemma density_channel : forall n l cells pts uc, (forall i, (0 < vget n i)%Z) -> symmetry_group l -> (forall e, In e l -> grid_compatible n e) ->
  calc_asymmetric_unit_cell_indexes n l = Some cells -> is_grid n pts -> nondegenerate uc ->
  forall hkls k h q eh V N m rho plus minus density, N <> 0 -> m = None \/ m = Some (map (fun rc => INR (snd rc)) cells) ->
  nth_error hkls k = Some h -> h <> mkV 0%Z 0%Z 0%Z -> reciprocal_vector (mget (calc_m_m uc)) h q ->
  symmetric_density n l rho -> Forall2 (fun rc d => rho (fst rc) = plus * fst d + minus * snd d) cells density ->
  exists row, nth_error (fst (calc_mem_col false (mkMC None None None) hkls uc eh l (map (fun rc => calc_symm_elem_points_by_index_points (fst rc) n) cells) V N m)) k = Some row /\
    forall i, f_m_perp_col plus minus density row i = Cmult (RtoC (2695 / 10000 * V / N * perpendicular q (vget eh) i)) (fourier_sum n pts rho h).
Proof.
  intros n l cells pts uc Hn Hg Hc HA Hp Huc hkls k h q eh V N m rho plus minus density HN Hm Ek Hh Q Sy Fd.
  destruct (col_row n l cells pts Hn Hg Hc HA Hp hkls uc eh V N m k h rho plus minus density HN Hm Ek Sy Fd) as (row & E & F).
  exists row. split; [exact E|]. intros i. rewrite (F i). rewrite (perp_is uc h q eh i Huc Hh Q). reflexivity.
Qed.
Lemma chi_channel : forall n l cells pts uc, (forall i, (0 < vget n i)%Z) -> symmetry_group l -> (forall e, In e l -> grid_compatible n e) ->
  calc_asymmetric_unit_cell_indexes n l = Some cells -> is_grid n pts -> nondegenerate uc ->
  forall hkls k h q H chis V N m t rho density, N <> 0 -> m = None \/ m = Some (map (fun rc => INR (snd rc)) cells) ->
  nth_error hkls k = Some h -> h <> mkV 0%Z 0%Z 0%Z -> reciprocal_vector (mget (calc_m_m uc)) h q ->
  covariant_tensor n l (mget (calc_m_m uc)) t -> Forall2 (fun rc x => mget x = t (fst rc)) cells chis ->
  symmetric_density n l rho -> Forall2 (fun rc d => rho (fst rc) = d) cells density ->
  exists row, nth_error (fst (calc_mem_chi false (mkMC None None None) hkls uc H l (map (fun rc => calc_symm_elem_points_by_index_points (fst rc) n) cells) chis V N m)) k = Some row /\
    forall i, f_m_perp_chi density row i =
      Cmult (RtoC (2695 / 10000 * V / N)) (fourier_sum n pts (fun p => rho p * perpendicular q (applied (t p) (vget H)) i) h).
Proof.
  intros n l cells pts uc Hn Hg Hc HA Hp Huc hkls k h q H chis V N m t rho density HN Hm Ek Hh Q T Fc Sy Fd.
  destruct (chi_row n l cells pts uc Hn Hg Hc HA Hp Huc hkls H chis V N m k h t rho density HN Hm Ek T Fc Sy Fd) as (row & E & F).
  exists row. split; [exact E|]. intros i. rewrite (F i). f_equal. unfold fourier_sum. apply csum_ext. intros p _. f_equal. f_equal. f_equal.
  unfold perp_v. rewrite (perp_is uc h q _ i Huc Hh Q). unfold perpendicular, dot, sum3, tv. destruct i; reflexivity.
Qed.

(** ** stored data *)
Definition stored_ok (uc : U6 R) (full : list Op) (pts : list (V3 Z * Z)) (d : mem_cache) : Prop :=
  d = mkMC None None None \/ exists old, d = mkMC (Some old) (Some (map (fun h => calc_eq_ccs (hkl_real h) uc) old)) (Some (computed_mult full pts)).
Lemma v3z_eqb_eq : forall a b, v3z_eqb a b = true -> a = b.
Proof. intros [a b c] [x y z] H. unfold v3z_eqb in H. cbn in H. rewrite !andb_true_iff, !Z.eqb_eq in H. destruct H as [[-> ->] ->]. reflexivity. Qed.
Lemma hkl_differ_no : forall a b, hkl_differ a b = false -> a = b.
Proof.
  induction a as [|x a IH]; intros [|y b] H; try discriminate; [reflexivity|]. cbn in H. apply orb_false_iff in H. destruct H as [H1 H2].
  apply negb_false_iff, v3z_eqb_eq in H1. subst. f_equal. apply IH, H2.
Qed.
Lemma prepare_ok : forall use d hkls uc full pts m, stored_ok uc full pts d -> m = None \/ m = Some (computed_mult full pts) ->
  exists d', mem_prepare use d hkls uc full pts m = (map (fun h => calc_eq_ccs (hkl_real h) uc) hkls, computed_mult full pts, d') /\ stored_ok uc full pts d'.
Proof.
  intros use d hkls uc full pts m [-> |(old & ->)] Hm.
  - exists (mkMC (Some hkls) (Some (map (fun h => calc_eq_ccs (hkl_real h) uc) hkls)) (Some (computed_mult full pts))). split; [|right; exists hkls; reflexivity].
    destruct Hm as [->| ->]; reflexivity.
  - exists (mkMC (Some hkls) (Some (map (fun h => calc_eq_ccs (hkl_real h) uc) hkls)) (Some (computed_mult full pts))). split; [|right; exists hkls; reflexivity].
    unfold mem_prepare. cbn [mc_hkl mc_eq mc_mult]. destruct use.
    + destruct (hkl_differ old hkls) eqn:E; cbn [negb].
      * destruct Hm as [->| ->]; reflexivity.
      * apply hkl_differ_no in E. subst. destruct Hm as [->| ->]; reflexivity.
    + destruct Hm as [->| ->]; reflexivity.
Qed.
(** The dictionaries reached by calls for the same cell, operations and points. *)
Inductive called (uc : U6 R) (full : list Op) (pts : list (V3 Z * Z)) : mem_cache -> Prop :=
| called_new : called uc full pts (mkMC None None None)
| called_col : forall d use hkls eh V N m, called uc full pts d -> m = None \/ m = Some (computed_mult full pts) ->
    called uc full pts (snd (calc_mem_col use d hkls uc eh full pts V N m))
| called_chi : forall d use hkls H chis V N m, called uc full pts d -> m = None \/ m = Some (computed_mult full pts) ->
    called uc full pts (snd (calc_mem_chi use d hkls uc H full pts chis V N m)).
Lemma called_stored : forall uc full pts d, called uc full pts d -> stored_ok uc full pts d.
Proof.
  intros uc full pts d C. induction C as [|d use hkls eh V N m C IH Hm|d use hkls H chis V N m C IH Hm]; [left; reflexivity| |].
  - destruct (prepare_ok use d hkls uc full pts m IH Hm) as (d' & E & S). unfold calc_mem_col. rewrite E. exact S.
  - destruct (prepare_ok use d hkls uc full pts m IH Hm) as (d' & E & S). unfold calc_mem_chi. rewrite E. exact S.
Qed.
Lemma stored_col : forall uc full pts d, called uc full pts d -> forall use hkls eh V N m, m = None \/ m = Some (computed_mult full pts) ->
  fst (calc_mem_col use d hkls uc eh full pts V N m) = fst (calc_mem_col false (mkMC None None None) hkls uc eh full pts V N None).
Proof.
  intros uc full pts d C use hkls eh V N m Hm. unfold calc_mem_col. destruct (prepare_ok use d hkls uc full pts m (called_stored uc full pts d C) Hm) as (d' & E & _). rewrite E. reflexivity.
Qed.
Lemma stored_chi : forall uc full pts d, called uc full pts d -> forall use hkls H chis V N m, m = None \/ m = Some (computed_mult full pts) ->
  fst (calc_mem_chi use d hkls uc H full pts chis V N m) = fst (calc_mem_chi false (mkMC None None None) hkls uc H full pts chis V N None).
Proof.
  intros uc full pts d C use hkls H chis V N m Hm. unfold calc_mem_chi. destruct (prepare_ok use d hkls uc full pts m (called_stored uc full pts d C) Hm) as (d' & E & _). rewrite E. reflexivity.
Qed.
(** Other points with the same reflections: the multiplicities stored are used. *)
Definition stale_h : V3 Z := (mkV 0 0 1)%Z.
Lemma stale_mults : computed_mult [op_id; op_inv] [((mkV 0 0 0)%Z, 1%Z)] = [1] /\ computed_mult [op_id; op_inv] [((mkV 1 0 0)%Z, 3%Z)] = [2].
Proof.
  assert (M1 : calc_multiplicity [op_id; op_inv] (AtomPos (mkV 0 0 0)%Z 1%Z) = 1%nat) by (vm_compute; reflexivity).
  assert (M2 : calc_multiplicity [op_id; op_inv] (AtomPos (mkV 1 0 0)%Z 3%Z) = 2%nat) by (vm_compute; reflexivity).
  unfold computed_mult. cbn [map fst snd]. rewrite M1, M2. split; [reflexivity|]. f_equal.
Qed.
Lemma stale_phase : csum (map (phase_3d stale_h ((mkV 1 0 0)%Z, 3%Z)) [op_id; op_inv]) = RtoC 2.
Proof.
  cbn [map csum fold_right]. rewrite !phase_3d_eq.
  assert (Z0 : forall e, In e [op_id; op_inv] -> hdot stale_h (act e (frac (fst ((mkV 1 0 0)%Z, 3%Z)) (snd ((mkV 1 0 0)%Z, 3%Z)))) = 0).
  { intros e [<-|[<-|[]]]; unfold hdot, act, frac, sum3, stale_h, op_id, op_inv; cbn; field. }
  rewrite !Z0 by (cbn; tauto). unfold phase. rewrite Rmult_0_r, cos_0, sin_0. unfold csum. cbn. unfold RtoC, Cplus. cbn. f_equal; ring.
Qed.
Lemma some_perp : forall e : V3 R, dot (vget e) (vget e) = 1 -> exists v i, vget (calc_vector_product_v1_v2_v1 e v) i <> 0.
Proof.
  intros e U.
  destruct (Req_dec (1 - vget e X1 * vget e X1) 0) as [Z1|Z1].
  - exists (mkV 0 1 0), X2. rewrite double_vprod_spec, U. unfold dot, sum3 in *. cbn [vget v_1 v_2 v_3] in *.
    pose proof (Rle_0_sqr (v_2 e)) as P2. pose proof (Rle_0_sqr (v_3 e)) as P3. unfold Rsqr in *. nra.
  - exists (mkV 1 0 0), X1. rewrite double_vprod_spec, U. unfold dot, sum3 in *. cbn [vget v_1 v_2 v_3] in *. intros F. apply Z1. rewrite <- F. ring.
Qed.
Lemma stale_refuted : forall uc, nondegenerate uc -> exists full pts1 pts2 hkls eh,
  fst (calc_mem_col true (snd (calc_mem_col true (mkMC None None None) hkls uc eh full pts1 1 1 None)) hkls uc eh full pts2 1 1 None) <>
  fst (calc_mem_col true (mkMC None None None) hkls uc eh full pts2 1 1 None).
Proof.
  intros uc N. assert (Hh : hkl_real stale_h <> mkV 0 0 0) by (apply hkl_real_nz; discriminate).
  destruct (eq_ccs_spec (hkl_real stale_h) uc N Hh) as [U _]. destruct (some_perp _ U) as (eh & i & P).
  exists [op_id; op_inv], [((mkV 0 0 0)%Z, 1%Z)], [((mkV 1 0 0)%Z, 3%Z)], [stale_h], eh.
  unfold calc_mem_col, mem_prepare. cbn [mc_hkl mc_eq mc_mult fst snd]. replace (hkl_differ [stale_h] [stale_h]) with false by reflexivity. cbn [negb].
  destruct stale_mults as [-> ->]. cbn [map combine fst snd]. intros E. apply (f_equal (fun x => match x with [[v]] => vget v i | _ => RtoC 0 end)) in E.
  assert (V : forall m, vget (mem_col_value stale_h (calc_eq_ccs (hkl_real stale_h) uc) eh [op_id; op_inv] ((mkV 1 0 0)%Z, 3%Z) 1 1 m) i =
    RtoC (2695 / 10000 * m * vget (calc_vector_product_v1_v2_v1 (calc_eq_ccs (hkl_real stale_h) uc) eh) i)).
  { intros m. set (p := vget (calc_vector_product_v1_v2_v1 _ _) i).
    transitivity (Cdiv (Cmult (Cdiv (Cmult (RtoC (2695 / 10000)) (Cmult (Cmult (csum (map (phase_3d stale_h ((mkV 1 0 0)%Z, 3%Z)) [op_id; op_inv])) (RtoC m)) (RtoC p))) (RtoC (INR (length [op_id; op_inv])))) (RtoC 1)) (RtoC 1)); [destruct i; reflexivity|].
    rewrite stale_phase. replace (INR (length [op_id; op_inv])) with 2 by (cbn; ring). rewrite <- !RtoC_mult. rewrite <- !RtoC_div by lra. rewrite <- !RtoC_mult. rewrite <- !RtoC_div by lra. f_equal. field. }
  rewrite !V in E. apply RtoC_inj in E. apply P. lra.
Qed.

(** ** a case that meets the hypotheses *)
Lemma symmetric_const : forall n l c, symmetric_density n l (fun _ => c). Proof. intros n l c p q _ _ _. reflexivity. Qed.
Lemma covariant_const : forall n l M, covariant_tensor n l M (fun _ => delta).
Proof. intros n l M p q e A _ _ _ _ _ i j. unfold sum3. destruct i, j; unfold delta; ring. Qed.
Lemma mem_met : exists cells, (forall i, (0 < vget n242 i)%Z) /\ symmetry_group p21m /\ (forall e, In e p21m -> grid_compatible n242 e) /\
  calc_asymmetric_unit_cell_indexes n242 p21m = Some cells /\ length cells = 8%nat /\ is_grid n242 (grid_points n242) /\ nondegenerate mono /\
  covariant_tensor n242 p21m (mget (calc_m_m mono)) (fun _ => delta) /\ symmetric_density n242 p21m (fun p => IZR (min_value n242 p21m p)) /\
  reciprocal_vector (mget (calc_m_m mono)) (mkV 1 0 2)%Z (vget (calc_q_ccs (mkV 1 0 2) mono)).
Proof.
  destruct screw_cells as (cells & E & L). exists cells. split; [exact n242_pos|]. split; [exact p21m_group|]. split; [exact n242_compat|]. split; [exact E|]. split; [exact L|].
  split; [split; [apply grid_nodup|intros q; apply grid_in]|]. assert (N : nondegenerate mono) by (destruct mono_invariant as [N _]; exact N). split; [exact N|].
  split; [apply covariant_const|]. split; [intros p q _ _ G; f_equal; apply (min_value_iff n242 p21m n242_pos p21m_group n242_compat), G|]. intros j. transitivity (mv (tr (mget (calc_m_m mono))) (vget (calc_q_ccs (mkV 1 0 2) mono)) j); [unfold mv, tr, sum3; ring|].
  rewrite (mtq mono _ j N). destruct j; reflexivity.
Qed.
Lemma point_is : forall p n i, (forall i, (0 < vget n i)%Z) -> let x := calc_symm_elem_points_by_index_points p n in
  (0 < snd x)%Z /\ IZR (vget (fst x) i) / IZR (snd x) = IZR (vget p i) / IZR (vget n i).
Proof. intros p n i Hn x. destruct (point_fract p n Hn) as [A B]. split; [exact A|exact (B i)]. Qed.
