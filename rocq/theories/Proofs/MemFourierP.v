(** Fourier coefficients of a density (C104). *)
From Coq Require Import Reals ZArith List Lra Lia Bool Permutation.
From Coquelicot Require Import Complex.
From Verif Require Import Spec.Lin3 Spec.Cell Spec.Symm Spec.Scatter Spec.DensityMap Spec.Fourier Model.MatrixOps Model.UnitCell Model.Symmetry Model.StructFactor Model.MagStruct Model.Mem Model.MemFourier
  Proofs.MatrixOpsP Proofs.UnitCellP Proofs.ConstraintsP Proofs.SymmBaseP Proofs.SymmGridP Proofs.SymmGroupP Proofs.SymmExP Proofs.ScatterP Proofs.StructFactorP2 Proofs.MagStructP Proofs.DensMapP3.
Import ListNotations.
Open Scope list_scope.
Open Scope R_scope.

(** ** points and phases *)
Lemma point_fract : forall p n, grid_pos n -> let x := calc_symm_elem_points_by_index_points p n in
  (0 < snd x)%Z /\ forall i, frac (fst x) (snd x) i = grid_fract n p i.
Proof.
  intros p n Hn. unfold calc_symm_elem_points_by_index_points. cbv zeta. set (D := Z.lcm (Z.lcm (v_1 n) (v_2 n)) (v_3 n)). cbn [fst snd].
  pose proof (Hn X1) as N1. pose proof (Hn X2) as N2. pose proof (Hn X3) as N3. cbn [vget] in N1, N2, N3.
  assert (D3 : (v_3 n | D)%Z) by apply Z.divide_lcm_r.
  assert (D12 : (Z.lcm (v_1 n) (v_2 n) | D)%Z) by apply Z.divide_lcm_l.
  assert (D1 : (v_1 n | D)%Z) by (eapply Z.divide_trans; [apply Z.divide_lcm_l|exact D12]).
  assert (D2 : (v_2 n | D)%Z) by (eapply Z.divide_trans; [apply Z.divide_lcm_r|exact D12]).
  assert (P : (0 < D)%Z). { pose proof (Z.lcm_nonneg (Z.lcm (v_1 n) (v_2 n)) (v_3 n)). fold D in H. destruct (Z.eq_dec D 0) as [E|]; [|lia].
    apply Z.lcm_eq_0 in E. destruct E as [E|E]; [apply Z.lcm_eq_0 in E|]; lia. }
  split; [exact P|].
  assert (V : forall a m, (0 < m)%Z -> (m | D)%Z -> IZR (a * (D / m)) / IZR D = IZR a / IZR m).
  { intros a m Pm [k K]. rewrite K, Z.div_mul by lia. rewrite !mult_IZR. assert (IZR m <> 0) by (apply IZR_neq; lia). assert (IZR k <> 0) by (apply IZR_neq; nia). field. auto. }
  intros []; unfold frac, grid_fract; cbn [vget v_1 v_2 v_3]; apply V; assumption.
Qed.
Lemma phase_3d_eq : forall h p e, phase_3d h p e = phase (hdot h (act e (frac (fst p) (snd p)))).
Proof.
  intros h [[p1 p2 p3] d] [[b1 b2 b3] c [r11 r12 r13 r21 r22 r23 r31 r32 r33]]. unfold phase_3d. cbv zeta.
  set (a := -2 * PI * _). set (t := hdot _ _). assert (E : a = - (2 * PI * t)).
  { unfold a, t, hdot, act, frac, sum3, fract_point, m_real, v_add, calc_m_v. cbn [fst snd vget mget v_1 v_2 v_3 e_b e_d e_r m_11 m_12 m_13 m_21 m_22 m_23 m_31 m_32 m_33]. ring. }
  rewrite E. unfold phase. rewrite cos_neg, sin_neg. reflexivity.
Qed.
Lemma phase_grid : forall h p n e, grid_pos n -> phase_3d h (calc_symm_elem_points_by_index_points p n) e = phase (hdot h (act e (grid_fract n p))).
Proof.
  intros h p n e Hn. rewrite phase_3d_eq. destruct (point_fract p n Hn) as [_ E]. f_equal. unfold hdot, act, sum3. rewrite !E. reflexivity.
Qed.

(** ** sums over the operations *)
Lemma orbit_sum_gen : forall l x pts (g : Op -> C) (F : (ix -> R) -> C), symmetry_group l -> is_orbit l x pts ->
  (forall e p, In e l -> In p pts -> same_point p (act e x) -> g e = F p) ->
  csum (map g l) = Cmult (RtoC (INR (length (filter (fun f => spb (act f x) x) l)))) (csum (map F pts)).
Proof.
  intros l x pts g F G (O1 & O2 & O3) H. rewrite (csum_cover x g pts l O2 O3). rewrite <- csum_scal. apply csum_ext.
  intros p Hp. destruct (O1 p Hp) as (e & He & Ep). rewrite <- (fiber_size l x e p G He Ep).
  apply csum_const. intros f Hf. apply filter_In in Hf as [If Hf]. apply spb_spec in Hf. apply H; [exact If|exact Hp|exact Hf].
Qed.
Section Grid.
  Variables (n : V3 Z) (l : list Op).
  Hypothesis Hn : forall i, (0 < vget n i)%Z.
  Hypothesis Hg : symmetry_group l.
  Hypothesis Hc : forall e, In e l -> grid_compatible n e.
  Definition cls (r : V3 Z) : list (V3 Z) := filter (fun q => Z.eqb (min_value n l r) (min_value n l q)) (grid_points n).
  Lemma cls_in : forall r q, In q (cls r) <-> in_grid n q /\ grid_equivalent n l r q.
  Proof. intros r q. unfold cls. rewrite filter_In, grid_in, Z.eqb_eq, (min_value_iff n l Hn Hg Hc). reflexivity. Qed.
  Lemma cls_orbit : forall r, is_orbit l (grid_fract n r) (map (grid_fract n) (cls r)).
  Proof.
    intros r. split; [|split].
    - intros p H. apply in_map_iff in H. destruct H as (q & <- & H). apply cls_in in H. destruct H as (Gq & e & He & S). exists e. split; [exact He|]. apply sp_sym, S.
    - assert (ND : NoDup (cls r)) by (apply NoDup_filter, grid_nodup). assert (G : forall q, In q (cls r) -> in_grid n q) by (intros q H; apply cls_in in H; tauto).
      revert ND G. generalize (cls r) as L. induction L as [|q L IH]; intros ND G; [constructor|]. inversion ND as [|? ? NI ND2]; subst. cbn [map]. constructor.
      + apply Forall_forall. intros y Hy S. apply in_map_iff in Hy. destruct Hy as (q' & <- & Hq'). apply NI. rewrite (grid_same n q q' Hn (G q (or_introl eq_refl)) (G q' (or_intror Hq')) S). exact Hq'.
      + apply IH; [exact ND2|]. intros; apply G; right; assumption.
    - intros e He. set (q := apply_symm_elem_to_index e r n). assert (Gq : in_grid n q) by (apply apply_in_grid; exact Hn).
      assert (S : same_point (act e (grid_fract n r)) (grid_fract n q)) by (apply (proj1 (apply_iff e r q n Hn (Hc e He) Gq)); reflexivity).
      exists (grid_fract n q). split; [|exact S]. apply in_map. apply cls_in. split; [exact Gq|]. exists e. split; [exact He|exact S].
  Qed.
  Lemma stab_times : forall r, let st := length (filter (fun f => spb (act f (grid_fract n r)) (grid_fract n r)) l) in (0 < st)%nat /\ length l = (st * length (cls r))%nat.
  Proof.
    intros r st. split; [apply (stab_pos l _ Hg)|]. unfold st. rewrite (orbit_stabiliser l _ _ Hg (cls_orbit r)), map_length. reflexivity.
  Qed.
  (** the multiplicity computed when none is given *)
  Lemma mult_cls : forall r, calc_multiplicity l (AtomPos (fst (calc_symm_elem_points_by_index_points r n)) (snd (calc_symm_elem_points_by_index_points r n))) = length (cls r).
  Proof.
    intros r. destruct (point_fract r n Hn) as [P E]. set (x := calc_symm_elem_points_by_index_points r n) in *. unfold calc_multiplicity.
    replace (length (filter (fun e => calc_symm_flags e (AtomPos (fst x) (snd x))) l)) with (length (filter (fun f => spb (act f (grid_fract n r)) (grid_fract n r)) l)).
    - destruct (stab_times r) as [S L]. rewrite L, Nat.mul_comm. apply Nat.div_mul. lia.
    - apply filter_length_ext. intros e He. apply eq_true_iff_eq. rewrite spb_spec. rewrite (flags_position e (fst x) (snd x)) by (try exact P; apply (proj1 Hg); exact He).
      split; intros H i; destruct (H i) as [k K]; exists k; unfold act, sum3 in *; rewrite ?E in *; exact K.
  Qed.
  (** one point: sum over the operations times the multiplicity = |l| times the sum over the points equivalent to it *)
  Lemma point_sum : forall r h (g : Op -> C) (F : V3 Z -> C), 
    (forall e q, In e l -> In q (cls r) -> same_point (act e (grid_fract n r)) (grid_fract n q) -> g e = F q) ->
    Cmult (csum (map (fun e => Cmult (phase_3d h (calc_symm_elem_points_by_index_points r n) e) (g e)) l)) (RtoC (INR (length (cls r)))) =
    Cmult (RtoC (INR (length l))) (csum (map (fun q => Cmult (phase (hdot h (grid_fract n q))) (F q)) (cls r))).
  Proof.
    intros r h g F H.
    assert (E : csum (map (fun e => Cmult (phase_3d h (calc_symm_elem_points_by_index_points r n) e) (g e)) l) =
      Cmult (RtoC (INR (length (filter (fun f => spb (act f (grid_fract n r)) (grid_fract n r)) l)))) (csum (map (fun q => Cmult (phase (hdot h (grid_fract n q))) (F q)) (cls r)))).
    { pose proof (cls_orbit r) as (O1 & O2 & O3).
      set (L := cls r) in *. clearbody L.
      rewrite (csum_cover (grid_fract n r) _ (map (grid_fract n) L) l O2 O3). rewrite map_map, <- csum_scal. apply csum_ext. intros q Hq.
      destruct (O1 (grid_fract n q) (in_map _ _ _ Hq)) as (e & He & Ep). rewrite <- (fiber_size l _ e _ Hg He Ep).
      apply csum_const. intros f Hf. apply filter_In in Hf as [If Hf]. apply spb_spec in Hf. rewrite (phase_grid _ _ _ _ Hn).
      rewrite (phase_same h _ _ (sp_sym _ _ Hf)). f_equal. apply H; [exact If|exact Hq|apply sp_sym, Hf]. }
    rewrite E. destruct (stab_times r) as [_ L]. rewrite L, mult_INR, RtoC_mult. ring.
  Qed.
End Grid.
