(** Fourier coefficients of a density: the sums over the asymmetric unit (C104). *)
From Coq Require Import Reals ZArith List Lra Lia Bool Permutation.
From Coquelicot Require Import Complex.
From Verif Require Import Spec.Lin3 Spec.Cell Spec.Symm Spec.Scatter Spec.DensityMap Spec.Fourier Model.MatrixOps Model.UnitCell Model.Symmetry Model.StructFactor Model.MagStruct Model.Mem Model.MemFourier
  Proofs.MatrixOpsP Proofs.UnitCellP Proofs.ConstraintsP Proofs.SymmBaseP Proofs.SymmGridP Proofs.SymmGroupP Proofs.SymmExP Proofs.ScatterP Proofs.StructFactorP2 Proofs.MagStructP Proofs.DensMapP3 Proofs.MemFourierP.
Import ListNotations.
Open Scope list_scope.
Open Scope R_scope.

Lemma csum_perm : forall A (f : A -> C) l m, Permutation l m -> csum (map f l) = csum (map f m).
Proof. intros A f l m P. exact (msum_perm Cplus (RtoC 0) Cplus_comm (fun a b c => Cplus_assoc a b c) A f l m P). Qed.
Lemma inr_nz : forall k, (0 < k)%nat -> INR k <> 0. Proof. intros k H. apply not_0_INR. lia. Qed.
Lemma rtoc_nz : forall x, x <> 0 -> RtoC x <> RtoC 0. Proof. intros x H E. apply H. apply RtoC_inj, E. Qed.
Lemma cells_points : forall n, (forall i, (0 < vget n i)%Z) -> forall l cells pts (f : V3 Z -> C), symmetry_group l -> (forall e, In e l -> grid_compatible n e) ->
  calc_asymmetric_unit_cell_indexes n l = Some cells -> is_grid n pts ->
  csum (map f pts) = csum (map (fun rc => csum (map f (cls n l (fst rc)))) cells).
Proof.
  intros n Hn l cells pts f Hg Hc HA (ND & Hp).
  assert (P : Permutation pts (grid_points n)). { apply NoDup_Permutation; [exact ND|apply grid_nodup|]. intros q. rewrite Hp, grid_in. reflexivity. }
  rewrite (csum_perm _ f _ _ P). exact (grid_sum n l cells Hn Hg Hc HA C Cplus (RtoC 0) Cplus_comm (fun a b c => Cplus_assoc a b c) Cplus_0_l f).
Qed.

Section Sums.
  Variables (n : V3 Z) (l : list Op) (cells : list (V3 Z * nat)) (pts : list (V3 Z)).
  Hypothesis Hn : forall i, (0 < vget n i)%Z.
  Hypothesis Hg : symmetry_group l.
  Hypothesis Hc : forall e, In e l -> grid_compatible n e.
  Hypothesis HA : calc_asymmetric_unit_cell_indexes n l = Some cells.
  Hypothesis Hpts : is_grid n pts.
  Notation point := (fun rc : V3 Z * nat => calc_symm_elem_points_by_index_points (fst rc) n).
  Lemma cells_mult : forall rc, In rc cells -> snd rc = length (cls n l (fst rc)) /\ in_grid n (fst rc).
  Proof. intros [r c] H. destruct (cells_spec n l cells Hn Hg Hc HA) as (A & _). destruct (A r c H) as (G & E). split; [exact E|exact G]. Qed.
  Lemma computed_is : computed_mult l (map point cells) = map (fun rc => INR (snd rc)) cells.
  Proof.
    unfold computed_mult. rewrite map_map. apply map_ext_in. intros rc H. f_equal. rewrite (mult_cls n l Hn Hg Hc (fst rc)). symmetry. apply cells_mult, H.
  Qed.
  Lemma l_nz : INR (length l) <> 0.
  Proof. apply inr_nz. destruct Hg as (_ & (e & He & _) & _). destruct l; [contradiction|cbn; lia]. Qed.
  (** the coefficient of one point *)
  Lemma col_point : forall h uc eh V N rc i, In rc cells -> N <> 0 ->
    vget (mem_col_value h (calc_eq_ccs (hkl_real h) uc) eh l (point rc) V N (INR (snd rc))) i =
    Cmult (RtoC (2695 / 10000 * V / N * vget (calc_vector_product_v1_v2_v1 (calc_eq_ccs (hkl_real h) uc) eh) i))
      (csum (map (fun q => phase (hdot h (grid_fract n q))) (cls n l (fst rc)))).
  Proof.
    intros h uc eh V N rc i H HN. destruct (cells_mult rc H) as (E & _). set (p := vget (calc_vector_product_v1_v2_v1 _ _) i).
    pose proof (point_sum n l Hn Hg Hc (fst rc) h (fun _ => RtoC 1) (fun _ => RtoC 1) (fun _ _ _ _ _ => eq_refl)) as S. rewrite <- E in S.
    rewrite (csum_ext _ _ (phase_3d h (point rc)) l) in S by (intros; apply Cmult_1_r).
    rewrite (csum_ext _ _ (fun q => phase (hdot h (grid_fract n q))) (cls n l (fst rc))) in S by (intros; apply Cmult_1_r).
    assert (V1 : vget (mem_col_value h (calc_eq_ccs (hkl_real h) uc) eh l (point rc) V N (INR (snd rc))) i =
      Cdiv (Cmult (Cdiv (Cmult (RtoC (2695 / 10000)) (Cmult (Cmult (csum (map (phase_3d h (point rc)) l)) (RtoC (INR (snd rc)))) (RtoC p))) (RtoC (INR (length l)))) (RtoC V)) (RtoC N))
      by (destruct i; reflexivity).
    rewrite V1. cbv beta in S |- *. rewrite S. clear S V1. pose proof (rtoc_nz _ HN) as ZN. pose proof (rtoc_nz _ l_nz) as ZL. set (k := 2695 / 10000).
    replace (RtoC (k * V / N * p)) with (Cmult (Cdiv (Cmult (RtoC k) (RtoC V)) (RtoC N)) (RtoC p)) by (rewrite <- RtoC_mult, <- RtoC_div, <- RtoC_mult by exact HN; reflexivity).
    generalize dependent (RtoC N). generalize dependent (RtoC (INR (length l))). generalize (csum (map (fun q => phase (hdot h (grid_fract n q))) (cls n l (fst rc)))).
    intros s L ZL NN ZN. field. split; assumption.
  Qed.
  Lemma combine_map2 : forall X Y Z (f : X -> Y) (g : X -> Z) L, combine (map f L) (map g L) = map (fun x => (f x, g x)) L.
  Proof. intros. induction L as [|x L IH]; [reflexivity|]. cbn. rewrite IH. reflexivity. Qed.
  Lemma sum_rows : forall (D : Type) (w : D -> R) (rho : V3 Z -> R) (k : C) (g : V3 Z * nat -> V3 C) (F : V3 Z -> C) i density,
    symmetric_density n l rho -> Forall2 (fun rc d => rho (fst rc) = w d) cells density ->
    (forall rc, In rc cells -> vget (g rc) i = Cmult k (csum (map F (cls n l (fst rc))))) ->
    csum (map (fun dc => Cmult (RtoC (w (fst dc))) (vget (snd dc) i)) (combine density (map g cells))) =
    Cmult k (csum (map (fun q => Cmult (RtoC (rho q)) (F q)) pts)).
  Proof.
    intros D w rho k g F i density Sy Fd K. rewrite (cells_points n Hn l cells pts (fun q => Cmult (RtoC (rho q)) (F q)) Hg Hc HA Hpts).
    assert (T : forall rc, In rc cells -> csum (map (fun q => Cmult (RtoC (rho q)) (F q)) (cls n l (fst rc))) = Cmult (RtoC (rho (fst rc))) (csum (map F (cls n l (fst rc))))).
    { intros rc H. rewrite <- csum_scal. apply csum_ext. intros q Hq. apply (cls_in n l Hn Hg Hc) in Hq. destruct Hq as (Gq & E). f_equal. f_equal. symmetry.
      apply Sy; [apply cells_mult, H|exact Gq|exact E]. }
    revert K T. clear HA Hpts. induction Fd as [|rc d cs ds E Fd IH]; intros K T.
    - cbn. symmetry. apply Cmult_0_r.
    - cbn [map combine csum fold_right fst snd]. fold csum. rewrite <- E, (K rc (or_introl eq_refl)).
      change (fold_right Cplus (RtoC 0)) with csum. rewrite IH; [|intros; apply K; right; assumption|intros; apply T; right; assumption].
      rewrite (T rc (or_introl eq_refl)). ring.
  Qed.
  Lemma nth_row : forall (A B D : Type) (hs : list A) (q : A -> B) (f : A * B -> D) k h, nth_error hs k = Some h ->
    nth_error (map f (combine hs (map q hs))) k = Some (f (h, q h)).
  Proof. intros A B D hs q f. induction hs as [|x hs IH]; intros [|k] h E; try discriminate; cbn in *; [inversion E; reflexivity|apply IH, E]. Qed.
  Definition good_mult (m : option (list R)) : Prop := m = None \/ m = Some (map (fun rc => INR (snd rc)) cells).
  Lemma col_row : forall hkls uc eh V N m k h rho plus minus density, N <> 0 -> good_mult m -> nth_error hkls k = Some h ->
    symmetric_density n l rho -> Forall2 (fun rc d => rho (fst rc) = plus * fst d + minus * snd d) cells density ->
    exists row, nth_error (fst (calc_mem_col false (mkMC None None None) hkls uc eh l (map point cells) V N m)) k = Some row /\
      forall i, f_m_perp_col plus minus density row i =
        Cmult (RtoC (2695 / 10000 * V / N * vget (calc_vector_product_v1_v2_v1 (calc_eq_ccs (hkl_real h) uc) eh) i)) (fourier_sum n pts rho h).
  Proof.
    intros hkls uc eh V N m k h rho plus minus density HN Gm Ek Sy Fd.
    assert (P : fst (calc_mem_col false (mkMC None None None) hkls uc eh l (map point cells) V N m) =
      map (fun hq => map (fun rc => mem_col_value (fst hq) (snd hq) eh l (point rc) V N (INR (snd rc))) cells) (combine hkls (map (fun h => calc_eq_ccs (hkl_real h) uc) hkls))).
    { unfold calc_mem_col, mem_prepare. cbn [mc_hkl mc_eq mc_mult fst].
      destruct Gm as [->| ->]; cbv iota; rewrite ?computed_is; apply map_ext; intros hq; rewrite combine_map2, map_map; reflexivity. }
    rewrite P. eexists. split; [apply (nth_row _ _ _ hkls (fun h => calc_eq_ccs (hkl_real h) uc) _ k h Ek)|]. cbn [fst snd]. intros i. unfold f_m_perp_col.
    unfold fourier_sum. apply (sum_rows (R * R) (fun d => plus * fst d + minus * snd d) rho _ _ (fun q => phase (hdot h (grid_fract n q))) i density Sy Fd).
    intros rc H. apply col_point; assumption.
  Qed.
End Sums.
