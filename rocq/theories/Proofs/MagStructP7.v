From Coq Require Import Reals ZArith List Bool Lra Lia Permutation.
From Coquelicot Require Import Coquelicot.
From Verif Require Import Spec.Lin3 Spec.Cell Spec.Symm Spec.Scatter Spec.StructSpec Spec.MagSpec
  Model.MatrixOps Model.UnitCell Model.Symmetry Model.AtomFactors Model.StructFactor Model.MagStruct Model.Constraints
  Proofs.MatrixOpsP Proofs.UnitCellP Proofs.ConstraintsP Proofs.SymmBaseP Proofs.SymmGroupP Proofs.SymmExP Proofs.ScatterP Proofs.StructFactorP Proofs.StructFactorP2 Proofs.StructFactorP3
  Proofs.MagStructP Proofs.MagStructP2.
Import ListNotations.
Open Scope list_scope.
Open Scope R_scope.

Lemma op_eq_dec : forall e f : Op, {e = f} + {e <> f}.
Proof. repeat decide equality. Defined.
Definition theta_of (els : list (Op * Z)) (e : Op) : Z :=
  match find (fun et => if op_eq_dec e (fst et) then true else false) els with Some et => snd et | None => 0%Z end.
Lemma theta_in : forall els e th, NoDup (map fst els) -> In (e, th) els -> theta_of els e = th.
Proof.
  induction els as [|[f t] els IH]; intros e th N H; [destruct H|]. unfold theta_of. cbn [find fst]. destruct (op_eq_dec e f) as [->|Ne].
  - cbn [snd]. destruct H as [H|H]; [congruence|]. inversion N as [|? ? N1 N2]; subst. exfalso. apply N1. apply (in_map fst) in H. exact H.
  - destruct H as [H|H]; [congruence|]. inversion N; subst. apply IH; assumption.
Qed.
Lemma group_nodup : forall l, symmetry_group l -> NoDup l.
Proof.
  intros l (_ & _ & _ & _ & H). induction H as [|e l H1 H2 IH]; constructor; [|exact IH]. intros Hi. rewrite Forall_forall in H1.
  apply (H1 e Hi). intros x i. exists 0%Z. lra.
Qed.
Definition mff (only : bool) (h : V3 Z) (uc : U6 R) (a : moment) : R :=
  calc_form_factor only (calc_sthovl (hkl_real h) uc) (mo_lande a) (mo_kappa a) (mo_j0 a) (mo_j2 a).
Definition mdw (h : V3 Z) (uc : U6 R) (a : moment) : R := exp (- (mo_biso a * (calc_sthovl (hkl_real h) uc) ^ 2)).
Definition mmult (els : list (Op * Z)) (a : moment) : nat := calc_multiplicity (map fst els) (get_atom_symm_elem (mo_xyz a)).
Lemma mo_dwf : forall h uc e a, mo_isotropic a -> dwf_call h (calc_sthovl (hkl_real h) uc) e (mo_biso a) (mo_beta a) = mdw h uc a.
Proof.
  intros h uc e a H. exact (dwf_iso h uc e (mkA (mo_xyz a) (mo_occ a) (RtoC 0) (mo_biso a) (mo_beta a)) H).
Qed.
Lemma csum_swap : forall A B (f : A -> B -> C) la lb, csum (map (fun a => csum (map (fun b => f a b) lb)) la) = csum (map (fun b => csum (map (fun a => f a b) la)) lb).
Proof.
  intros A B f la lb. induction la as [|a la IH].
  - cbn [map]. change (csum []) with (RtoC 0). induction lb as [|b lb IHb]; [reflexivity|]. cbn [map]. change (csum (?x :: ?y)) with (Cplus x (csum y)). rewrite <- IHb. change (csum []) with (RtoC 0). ring.
  - cbn [map]. change (csum (?x :: ?y)) with (Cplus x (csum y)) at 1. rewrite IH, <- csum_plus. apply csum_ext. intros b _. reflexivity.
Qed.
Lemma f_m_form : forall only h els uc atoms i, NoDup (map fst els) -> (forall a, In a atoms -> mo_isotropic a) -> els <> [] ->
  vget (f_m_ordered only h els uc atoms) i =
  csum (map (fun a => Cmult (RtoC (mff only h uc a * (INR (mmult els a) * mo_occ a * mdw h uc a / INR (length els))))
     (wsum h (map fst els) (vget (mo_xyz a)) (fun e => vget (moment_ccs uc (e, theta_of els e) (mo_m a)) i))) atoms).
Proof.
  intros only h els uc atoms i ND Hi Ne. unfold f_m_ordered. cbv zeta. rewrite vget_tab. rewrite cdiv_scal, sum_c_csum.
  destruct els as [|et0 els0] eqn:Q; [congruence|]. rewrite <- Q in *. clear Ne.
  assert (L : length els = S (length els0)) by (rewrite Q; reflexivity). rewrite L, rtoc_inv, <- L. clear Q et0.
  rewrite (csum_ext _ _ (fun et => csum (map (fun a => Cmult (RtoC (mff only h uc a * (INR (mmult els a) * mo_occ a * mdw h uc a)))
     (Cmult (phase (hdot h (act (fst et) (vget (mo_xyz a))))) (RtoC (vget (moment_ccs uc (fst et, theta_of els (fst et)) (mo_m a)) i)))) atoms))).
  - rewrite csum_swap, <- csum_scal. apply csum_ext. intros a Ha. rewrite csum_scal. unfold wsum. rewrite map_map.
    rewrite Cmult_assoc. f_equal. rewrite <- RtoC_mult. f_equal. unfold Rdiv. ring.
  - intros [e th] He. cbn [fst]. rewrite (theta_in els e th ND He), sum_c_csum, <- csum_scal. apply csum_ext. intros a Ha.
    rewrite (mo_dwf h uc e a (Hi a Ha)), <- pr12_phase. fold (mff only h uc a). change (calc_multiplicity (map fst els) (get_atom_symm_elem (mo_xyz a))) with (mmult els a).
    rewrite !RtoC_mult. ring.
Qed.

(** M_norm is M with its columns divided by the lengths of the axes *)
Lemma m_norm_cols : forall uc i j, nondegenerate uc -> mget (calc_m_m uc) i j = mget (calc_m_m_norm uc) i j * axis_len uc j.
Proof.
  intros uc i j (A & B & Cc & Al & _). assert (S : sin (u_al uc) <> 0) by (apply Rgt_not_eq, sin_gt_0; lra).
  unfold calc_m_m, calc_m_m_norm, axis_len. destruct i, j; cbn [mget m_11 m_12 m_13 m_21 m_22 m_23 m_31 m_32 m_33]; try (field; exact S); ring.
Qed.
Lemma axis_pos : forall uc i, nondegenerate uc -> axis_len uc i <> 0.
Proof. intros uc i (A & B & Cc & _). destruct i; cbn; lra. Qed.
Lemma moment_carried : forall uc e th m i, nondegenerate uc -> (forall i j, mget (e_r e) i j <> 0%Z -> axis_len uc i = axis_len uc j) ->
  vget (moment_ccs uc (e, th) m) i = 2695 / 10000 * (IZR th * det3 (rot_real e) * sum3 (fun k => rho uc e i k * cartesian_moment uc m k)).
Proof.
  intros uc e th m i N Ax.
  assert (E : sum3 (fun k => rho uc e i k * cartesian_moment uc m k) = sum3 (fun k => mget (calc_m_m_norm uc) i k * sum3 (fun l => IZR (mget (e_r e) k l) * vget m l))).
  { pose proof (rho_frame uc N e) as F.
    transitivity (sum3 (fun l => vget m l / axis_len uc l * sum3 (fun k => rho uc e i k * mget (calc_m_m uc) k l))); [unfold cartesian_moment, sum3; ring|].
    transitivity (sum3 (fun l => vget m l * sum3 (fun k => mget (calc_m_m_norm uc) i k * IZR (mget (e_r e) k l)))); [|unfold sum3; ring].
    apply sum3_ext. intros l. rewrite F.
    assert (K : forall k, mget (calc_m_m uc) i k * IZR (mget (e_r e) k l) = mget (calc_m_m_norm uc) i k * IZR (mget (e_r e) k l) * axis_len uc l).
    { intros k. destruct (Z.eq_dec (mget (e_r e) k l) 0) as [Z|Z]; [rewrite Z; ring|]. rewrite (m_norm_cols uc i k N), (Ax k l Z). ring. }
    unfold sum3. rewrite !K. field. apply axis_pos. exact N. }
  rewrite E. unfold moment_ccs. cbn [fst snd].
  assert (D : calc_det_m (rot9 e) = det3 (rot_real e)).
  { rewrite det_spec. unfold rot9, det3. rewrite !mget_tab. reflexivity. }
  rewrite D.
  destruct e as [eb ed [r1 r2 r3 r4 r5 r6 r7 r8 r9]], m as [x y z]. set (dd := det3 _). clearbody dd.
  destruct (calc_m_m_norm uc) as [n1 n2 n3 n4 n5 n6 n7 n8 n9]. unfold rot9, m_tab, calc_m_v, sum3.
  destruct i; cbn [vget v_1 v_2 v_3 mget e_r m_11 m_12 m_13 m_21 m_22 m_23 m_31 m_32 m_33]; ring.
Qed.

Lemma mmult_orbit : forall els a, symmetry_group (map fst els) ->
  (forall e, In e (map fst els) -> (same_point (act e (rounded (mo_xyz a))) (rounded (mo_xyz a)) <-> same_point (act e (vget (mo_xyz a))) (vget (mo_xyz a)))) ->
  mmult els a = (length (map fst els) / length (filter (fun f => spb (act f (vget (mo_xyz a))) (vget (mo_xyz a))) (map fst els)))%nat.
Proof.
  intros els a (P & _) H. unfold mmult, calc_multiplicity. f_equal. apply filter_length_ext. intros e He.
  apply eq_true_iff_eq. rewrite spb_spec, <- (H e He). unfold rounded, get_atom_symm_elem. cbv zeta. cbn [atom_b atom_d].
  apply flags_position; [apply (P e He)|lia].
Qed.
(** C83 *)
Theorem ordered_textbook : forall only els uc atoms ions h V, symmetry_group (map fst els) -> nondegenerate uc -> axes_matched uc (map fst els) ->
  (forall a, In a atoms -> mo_isotropic a) -> Forall2 (fun a l => moments_of els uc a l) atoms ions ->
  (forall a e, In a atoms -> In e (map fst els) ->
     (same_point (act e (rounded (mo_xyz a))) (rounded (mo_xyz a)) <-> same_point (act e (vget (mo_xyz a))) (vget (mo_xyz a)))) ->
  h <> mkV 0%Z 0%Z 0%Z ->
  calc_f_m_perp_ordered only [h] els uc atoms = [V] ->
  exists F, (forall i, F i = structure_factor h (flat_map (mo_sites only h uc i) (combine atoms ions))) /\
    forall i, vget V i = Cminus (F i) (Cmult (cdot (vget (calc_eq_ccs (hkl_real h) uc)) F) (RtoC (vget (calc_eq_ccs (hkl_real h) uc) i))).
Proof.
  intros only els uc atoms ions h V G N Ax Hi Ho Hr Hh E. exists (vget (f_m_ordered only h els uc atoms)). split.
  - clear E V Hh. intros i.
    assert (Ne : els <> []). { intros ->. destruct G as (_ & (e & [] & _) & _). }
    rewrite f_m_form by (auto using group_nodup). unfold structure_factor. rewrite csum_flat_map.
    assert (K : forall a l, In a atoms -> moments_of els uc a l ->
      Cmult (RtoC (mff only h uc a * (INR (mmult els a) * mo_occ a * mdw h uc a / INR (length els))))
         (wsum h (map fst els) (vget (mo_xyz a)) (fun e => vget (moment_ccs uc (e, theta_of els e) (mo_m a)) i))
      = csum (map (fun p => Cmult (fst p) (phase (hdot h (snd p)))) (mo_sites only h uc i (a, l)))).
    { intros a l Ha [Oa Ta]. unfold mo_sites. cbn [fst snd]. rewrite map_map. cbn [fst snd].
      rewrite (orbit_wsum _ (map fst els) _ l fst (fun pt => 2695 / 10000 * snd pt i) h _ G Oa).
      2:{ intros e [p v] He Hp Sp. cbn [fst snd] in *. rewrite (moment_carried uc e _ _ i N (fun p q => Ax e p q He)). f_equal. symmetry.
          apply in_map_iff in He as ([e' th] & <- & He). cbn [fst] in *. rewrite (theta_in els e' th (group_nodup _ G) He).
          apply (Ta e' th (rho uc e') p v He Hp Sp). apply rho_frame, N. }
      rewrite mmult_orbit by auto. rewrite <- !csum_scal.
      set (x := vget (mo_xyz a)) in *. pose proof (orbit_stabiliser _ x _ G Oa) as L. rewrite map_length in L. pose proof (stab_pos _ x G) as Sp.
      set (st := length (filter (fun f => spb (act f x) x) (map fst els))) in *. rewrite map_length.
      assert (Lp : (0 < length els)%nat) by (destruct els; [congruence|cbn; lia]).
      rewrite map_length in L. rewrite L. rewrite Nat.mul_comm, Nat.div_mul by lia. rewrite mult_INR.
      assert (INR st <> 0) by (apply not_0_INR; lia).
      assert (INR (length l) <> 0) by (apply not_0_INR; nia).
      replace (INR (length l) * mo_occ a * mdw h uc a / (INR (length l) * INR st)) with (mo_occ a * mdw h uc a * / INR st) by (field; auto).
      apply csum_ext. intros [p v] _. cbn [fst snd]. unfold mo_amplitude. fold (mff only h uc a). fold (mdw h uc a).
      replace (Cmult (RtoC (mff only h uc a * (mo_occ a * mdw h uc a * / INR st))) (Cmult (RtoC (INR st)) (Cmult (phase (hdot h p)) (RtoC (2695 / 10000 * v i)))))
        with (Cmult (RtoC (mff only h uc a * (mo_occ a * mdw h uc a * / INR st) * INR st * (2695 / 10000 * v i))) (phase (hdot h p))) by (rewrite !RtoC_mult; ring).
      f_equal. f_equal. unfold mff, mdw. field. assumption. }
    clear Hi Hr. revert K. induction Ho as [|a l la lp Ho1 Ho2 IH]; intros K; [reflexivity|].
    cbn [combine map]. change (csum (?a :: ?b)) with (Cplus a (csum b)). rewrite IH by (intros; apply K; [right|]; assumption). f_equal.
    apply K; [left; reflexivity|exact Ho1].
  - intros i. unfold calc_f_m_perp_ordered in E. cbn [map] in E. injection E as E. subst V.
    assert (U : dot (vget (calc_eq_ccs (hkl_real h) uc)) (vget (calc_eq_ccs (hkl_real h) uc)) = 1).
    { apply eq_ccs_spec; [exact N|]. intros Q. apply Hh. destruct h as [a b c]. unfold hkl_real in Q. cbn in Q. injection Q as Q1 Q2 Q3. apply eq_IZR in Q1, Q2, Q3. congruence. }
    generalize (calc_eq_ccs (hkl_real h) uc) (f_m_ordered only h els uc atoms) U. clear. intros q F U. rewrite perp_formula, U. ring.
Qed.

(** * Axes of different lengths *)
Definition op_two : Op := mkE (mkV 0 0 0)%Z 1%Z (mkM 1 1 0 0 (-1) 0 0 0 (-1))%Z.
Definition sheared : U6 R := mkU (sqrt 2) 1 1 (PI / 2) (PI / 2) (PI / 4).
Definition two_els : list (Op * Z) := [(op_id, 1%Z); (op_two, 1%Z)].
Definition b_moment : moment := mkMo (mkV (1 / 5) (1 / 5) 0) 1 (mkV 0 1 0) 0 q_zero 2 1 (mkJ 0 0 0 0 0 0 1) (mkJ 0 0 0 0 0 0 0).
Lemma two_group : symmetry_group [op_id; op_two].
Proof.
  split; [|split; [|split; [|split]]].
  - intros e [<-|[<-|[]]]; reflexivity.
  - exists op_id. split; [left; reflexivity|]. hunt_sp.
  - intros e f He Hf. destruct He as [<-|[<-|[]]], Hf as [<-|[<-|[]]];
    first [ exists op_id; split; [cbn; tauto|unfold is_composition; hunt_sp] | exists op_two; split; [cbn; tauto|unfold is_composition; hunt_sp] ].
  - intros e He. exists e. split; [exact He|]. destruct He as [<-|[<-|[]]]; hunt_sp.
  - repeat constructor. intros H. destruct (H (fun _ => 1 / 3) X1) as [n E]. unfold act, sum3, op_id, op_two in E. cbn in E.
    assert (Q : IZR (3 * n) = IZR (-1)) by (rewrite mult_IZR; lra). apply eq_IZR in Q. lia.
Qed.
Lemma sheared_ok : nondegenerate sheared.
Proof.
  pose proof PI_RGT_0 as P. pose proof (sqrt_lt_R0 2 ltac:(lra)) as S. unfold nondegenerate, sheared. cbn [u_a u_b u_c u_al u_be u_ga]. rewrite ?cos_PI2, ?cos_PI4.
  assert (Q : (1 / sqrt 2) ^ 2 = 1 / 2). { replace ((1 / sqrt 2) ^ 2) with (1 / (sqrt 2 * sqrt 2)) by (field; lra). rewrite sqrt_sqrt by lra. reflexivity. }
  repeat split; try lra.
Qed.
Lemma sheared_metric : forall e, In e [op_id; op_two] -> metric_invariant sheared e.
Proof.
  pose proof (sqrt_lt_R0 2 ltac:(lra)) as S. pose proof (sqrt_sqrt 2 ltac:(lra)) as Q.
  assert (E : metric sheared = fun i j => match i, j with X1, X1 => 2 | X1, X2 => 1 | X2, X1 => 1 | X2, X2 => 1 | X3, X3 => 1 | _, _ => 0 end).
  { apply mat_ext. intros i j. unfold metric, sheared. destruct i, j; cbn; rewrite ?cos_PI2, ?cos_PI4; try lra; try (field; lra). }
  intros e He i j. rewrite E. destruct He as [<-|[<-|[]]]; destruct i, j; unfold sum3, op_id, op_two; cbn; lra.
Qed.

Lemma el_rot : forall i, vget (moment_ccs sheared (op_two, 1%Z) (mkV 0 1 0)) i = 2695 / 10000 * (mget (calc_m_m_norm sheared) i X1 - mget (calc_m_m_norm sheared) i X2).
Proof.
  intros i. unfold moment_ccs. cbn [fst snd]. destruct (calc_m_m_norm sheared) as [n1 n2 n3 n4 n5 n6 n7 n8 n9]. unfold rot9, m_tab, op_two, calc_m_v, calc_det_m.
  destruct i; cbn [vget v_1 v_2 v_3 mget e_r m_11 m_12 m_13 m_21 m_22 m_23 m_31 m_32 m_33]; ring.
Qed.
Lemma true_rot : forall i, sum3 (fun k => rho sheared op_two i k * cartesian_moment sheared (mkV 0 1 0) k) = mget (calc_m_m sheared) i X1 - mget (calc_m_m sheared) i X2.
Proof.
  intros i. pose proof (rho_frame sheared sheared_ok op_two i X2) as F.
  transitivity (sum3 (fun k => rho sheared op_two i k * mget (calc_m_m sheared) k X2)).
  - apply sum3_ext. intros k. f_equal. unfold cartesian_moment, sum3. cbn [vget v_1 v_2 v_3 axis_len sheared u_a u_b u_c]. field. pose proof (sqrt_lt_R0 2 ltac:(lra)). lra.
  - rewrite F. unfold sum3, op_two. cbn. ring.
Qed.
Definition b_ions : list ((ix -> R) * (ix -> R)) :=
  [(vget (mkV (1 / 5) (1 / 5) 0), fun i => mget (calc_m_m sheared) i X2);
   (vget (mkV (2 / 5) (4 / 5) 0), fun i => mget (calc_m_m sheared) i X1 - mget (calc_m_m sheared) i X2)].
Lemma op_id_matched : forall uc i j, mget (e_r op_id) i j <> 0%Z -> axis_len uc i = axis_len uc j.
Proof. intros uc [] [] H; try reflexivity; cbn in H; congruence. Qed.
Lemma rho_id_cart : forall i, sum3 (fun k => rho sheared op_id i k * cartesian_moment sheared (mkV 0 1 0) k) = mget (calc_m_m sheared) i X2.
Proof.
  intros i. pose proof (rho_frame sheared sheared_ok op_id i X2) as F.
  transitivity (sum3 (fun k => rho sheared op_id i k * mget (calc_m_m sheared) k X2)).
  - apply sum3_ext. intros k. f_equal. unfold cartesian_moment, sum3. cbn [vget v_1 v_2 v_3 axis_len sheared u_a u_b u_c]. field. pose proof (sqrt_lt_R0 2 ltac:(lra)). lra.
  - rewrite F. unfold sum3, op_id. cbn. ring.
Qed.
Lemma not_sp : forall (x y : ix -> R) i (a b d : Z), x i = IZR a / 5 -> y i = IZR b / 5 -> d = (a - b)%Z -> (0 < d < 5)%Z \/ (-5 < d < 0)%Z -> ~ same_point x y.
Proof.
  intros x y i a b d Ex Ey -> H S. destruct (S i) as [n E]. rewrite Ex, Ey in E.
  assert (Q : IZR (a - b) = IZR (5 * n)) by (rewrite minus_IZR, mult_IZR; lra). apply eq_IZR in Q. lia.
Qed.
Lemma b_moments : moments_of two_els sheared b_moment b_ions.
Proof.
  assert (A1 : forall i, act op_id (vget (mkV (1 / 5) (1 / 5) 0)) i = vget (mkV (1 / 5) (1 / 5) 0) i) by (intros []; unfold act, sum3, op_id; cbn; field).
  assert (A2 : forall i, act op_two (vget (mkV (1 / 5) (1 / 5) 0)) i = vget (mkV (2 / 5) (- 1 / 5) 0) i) by (intros []; unfold act, sum3, op_two; cbn; field).
  assert (S1 : same_point (act op_id (vget (mkV (1 / 5) (1 / 5) 0))) (vget (mkV (1 / 5) (1 / 5) 0))) by (intros i; exists 0%Z; rewrite A1; lra).
  assert (S2 : same_point (act op_two (vget (mkV (1 / 5) (1 / 5) 0))) (vget (mkV (2 / 5) (4 / 5) 0))).
  { intros []; rewrite A2; cbn [vget v_1 v_2 v_3]; [exists 0%Z|exists (-1)%Z|exists 0%Z]; lra. }
  split.
  - split; [|split].
    + intros p [<-|[<-|[]]]; [exists op_id|exists op_two]; (split; [cbn; tauto|]); apply sp_sym; assumption.
    + cbn [b_ions map fst]. repeat constructor. apply (not_sp _ _ X1 1 2 (-1)%Z); cbn [vget v_1]; [lra|lra|reflexivity|lia].
    + intros e [<-|[<-|[]]]; [exists (vget (mkV (1 / 5) (1 / 5) 0))|exists (vget (mkV (2 / 5) (4 / 5) 0))]; (split; [cbn; tauto|]); assumption.
  - intros e th rh p v He Hp Sp F i. rewrite (rho_unique sheared sheared_ok e rh F).
    change (vget (mo_xyz b_moment)) with (vget (mkV (1 / 5) (1 / 5) 0)) in Sp. change (mo_m b_moment) with (mkV 0 1 0).
    destruct He as [He|[He|[]]]; injection He as <- <-; destruct Hp as [Hp|[Hp|[]]]; injection Hp as <- <-.
    + rewrite rho_id_cart. unfold det3, rot_real, op_id. cbn. ring.
    + exfalso. revert Sp. apply (not_sp _ _ X1 1 2 (-1)%Z); [rewrite A1; cbn; lra|cbn; lra|reflexivity|lia].
    + exfalso. revert Sp. apply (not_sp _ _ X1 2 1 1%Z); [rewrite A2; cbn; lra|cbn; lra|reflexivity|lia].
    + rewrite true_rot. unfold det3, rot_real, op_two. cbn. ring.
Qed.
Lemma q_perp_a : forall uc j, nondegenerate uc -> j <> X3 ->
  sum3 (fun k => vget (calc_eq_ccs (hkl_real (mkV 0 0 1)%Z) uc) k * mget (calc_m_m uc) k j) = 0.
Proof.
  intros uc j N Hj. unfold calc_eq_ccs. cbv zeta. set (nn := if Req_EM_T _ _ then _ else _).
  assert (E : forall k, vget (mkV (v_1 (calc_q_ccs (hkl_real (mkV 0 0 1)%Z) uc) / nn) (v_2 (calc_q_ccs (hkl_real (mkV 0 0 1)%Z) uc) / nn) (v_3 (calc_q_ccs (hkl_real (mkV 0 0 1)%Z) uc) / nn)) k
     = / nn * mget (calc_m_b uc) k X3).
  { intros k. rewrite q_ccs_is_b_hkl. destruct (calc_m_b uc) as [b1 b2 b3 b4 b5 b6 b7 b8 b9]. unfold calc_m_v, hkl_real, Rdiv. destruct k; cbn [vget v_1 v_2 v_3 mget m_13 m_23 m_33]; ring. }
  pose proof (b_m_dual uc N X3 j) as D. transitivity (/ nn * sum3 (fun k => mget (calc_m_b uc) k X3 * mget (calc_m_m uc) k j)).
  - unfold sum3. rewrite !E. ring.
  - rewrite D. destruct j; [cbn; ring|cbn; ring|congruence].
Qed.
Theorem ordered_axes_refuted : exists (only : bool) (els : list (Op * Z)) (uc : U6 R) (a : moment) (ions : list ((ix -> R) * (ix -> R))) (h : V3 Z) V,
  symmetry_group (map fst els) /\ nondegenerate uc /\ (forall e, In e (map fst els) -> metric_invariant uc e) /\
  mo_isotropic a /\ moments_of els uc a ions /\ (forall i, exact_coordinate (vget (mo_xyz a) i)) /\
  h <> mkV 0%Z 0%Z 0%Z /\ calc_f_m_perp_ordered only [h] els uc [a] = [V] /\
  ~ exists F, (forall i, F i = structure_factor h (flat_map (mo_sites only h uc i) (combine [a] [ions]))) /\
    forall i, vget V i = Cminus (F i) (Cmult (cdot (vget (calc_eq_ccs (hkl_real h) uc)) F) (RtoC (vget (calc_eq_ccs (hkl_real h) uc) i))).
Proof.
  set (h := (mkV 0 0 1)%Z).
  exists false, two_els, sheared, b_moment, b_ions, h, (c_v1_v2_v1 (calc_eq_ccs (hkl_real h) sheared) (f_m_ordered false h two_els sheared [b_moment])).
  split; [exact two_group|]. split; [exact sheared_ok|]. split; [exact sheared_metric|]. split; [reflexivity|]. split; [exact b_moments|].
  split. { intros []; cbn [mo_xyz b_moment vget v_1 v_2 v_3]; [exists 600000%Z|exists 600000%Z|exists 0%Z]; repeat split; try lia; lra. }
  split; [discriminate|]. split; [reflexivity|]. intros (F & HF & HV).
  assert (U : dot (vget (calc_eq_ccs (hkl_real h) sheared)) (vget (calc_eq_ccs (hkl_real h) sheared)) = 1).
  { apply eq_ccs_spec; [exact sheared_ok|]. unfold h, hkl_real. cbn. intros Q. injection Q as Q. lra. }
  assert (A : mo_amplitude false h sheared b_moment = 2695 / 10000).
  { unfold mo_amplitude, b_moment, calc_form_factor, calc_j0, calc_j2, j_sum. cbn [mo_lande mo_kappa mo_j0 mo_j2 mo_occ mo_biso j_A j_B j_C j_D j_a j_b j_c].
    rewrite (Rmult_0_l (_ ^ 2)), Ropp_0, exp_0. ring. }
  assert (P0 : forall x y, phase (hdot h (vget (mkV x y 0))) = RtoC 1).
  { intros. replace (hdot h (vget (mkV x y 0))) with 0; [apply phase_0|]. unfold hdot, sum3, h. cbn. ring. }
  assert (Ft : forall i, F i = RtoC (2695 / 10000 * mget (calc_m_m sheared) i X1)).
  { intros i. rewrite HF. unfold structure_factor. cbn [combine flat_map]. rewrite app_nil_r. unfold mo_sites, b_ions. cbn [fst snd map]. rewrite A. unfold csum. cbn [fold_right].
    rewrite !P0, !RtoC_mult, !RtoC_minus. ring. }
  assert (Fc : forall i, vget (f_m_ordered false h two_els sheared [b_moment]) i = RtoC (2695 / 10000 * mget (calc_m_m_norm sheared) i X1)).
  { intros i. rewrite f_m_form; [|apply (group_nodup _ two_group)|intros a [<-|[]]; reflexivity|discriminate]. cbn [map]. unfold csum at 1. cbn [fold_right].
    unfold wsum. change (map fst two_els) with [op_id; op_two]. cbn [map]. unfold csum. cbn [fold_right].
    rewrite (theta_in two_els op_id 1 (group_nodup _ two_group) (or_introl eq_refl)), (theta_in two_els op_two 1 (group_nodup _ two_group) (or_intror (or_introl eq_refl))).
    change (mo_m b_moment) with (mkV 0 1 0). rewrite el_rot, (moment_carried sheared op_id 1 _ i sheared_ok (op_id_matched sheared)), rho_id_cart.
    change (vget (mo_xyz b_moment)) with (vget (mkV (1 / 5) (1 / 5) 0)).
    assert (Q1 : phase (hdot h (act op_id (vget (mkV (1 / 5) (1 / 5) 0)))) = RtoC 1).
    { replace (hdot h (act op_id (vget (mkV (1 / 5) (1 / 5) 0)))) with 0; [apply phase_0|]. unfold hdot, act, sum3, h, op_id. cbn. field. }
    assert (Q2 : phase (hdot h (act op_two (vget (mkV (1 / 5) (1 / 5) 0)))) = RtoC 1).
    { replace (hdot h (act op_two (vget (mkV (1 / 5) (1 / 5) 0)))) with 0; [apply phase_0|]. unfold hdot, act, sum3, h, op_two. cbn. field. }
    rewrite Q1, Q2.
    assert (Ms : mmult two_els b_moment = 2%nat).
    { unfold mmult. change (mo_xyz b_moment) with (mkV (1 / 5) (1 / 5) 0).
      assert (Rn : get_atom_symm_elem (mkV (1 / 5) (1 / 5) 0) = AtomPos (mkV 600000 600000 0)%Z 3000000).
      { unfold get_atom_symm_elem. cbn [v_1 v_2 v_3]. replace (0 * 3 * 10 ^ 6) with (IZR 0) by ring. replace (1 / 5 * 3 * 10 ^ 6) with (IZR 600000) by (simpl; field). rewrite !np_round_int. reflexivity. }
      rewrite Rn. reflexivity. }
    rewrite Ms. assert (Md : mff false h sheared b_moment = 1).
    { unfold mff, b_moment, calc_form_factor, calc_j0, calc_j2, j_sum. cbn [mo_lande mo_kappa mo_j0 mo_j2 j_A j_B j_C j_D j_a j_b j_c]. ring. }
    assert (Mw : mdw h sheared b_moment = 1) by (unfold mdw, b_moment; cbn [mo_biso]; rewrite (Rmult_0_l (_ ^ 2)), Ropp_0; apply exp_0).
    rewrite Md, Mw. change (mo_occ b_moment) with 1. change (length two_els) with 2%nat. change (det3 (rot_real op_id)) with (det3 (fun i j => IZR (mget (e_r op_id) i j))).
    replace (det3 (fun i j => IZR (mget (e_r op_id) i j))) with 1 by (unfold det3, op_id; cbn; ring).
    rewrite (m_norm_cols sheared i X2 sheared_ok). change (axis_len sheared X2) with 1. cbn [INR].
    rewrite <- !RtoC_mult, <- !RtoC_plus, <- !RtoC_mult, <- !RtoC_plus. f_equal. field. }
  specialize (HV X1). rewrite perp_formula, U in HV. unfold cdot, csum3 in HV. rewrite !Fc, !Ft in HV.
  rewrite <- !RtoC_mult, <- !RtoC_plus, <- !RtoC_mult, <- !RtoC_minus in HV. apply RtoC_inj in HV.
  pose proof (q_perp_a sheared X1 sheared_ok ltac:(discriminate)) as Q. fold h in Q. unfold sum3 in Q. rewrite !(m_norm_cols sheared _ X1 sheared_ok) in Q, HV.
  change (axis_len sheared X1) with (sqrt 2) in *. pose proof (sqrt_lt_R0 2 ltac:(lra)) as S.
  set (q1 := vget (calc_eq_ccs (hkl_real h) sheared) X1) in *. set (q2 := vget (calc_eq_ccs (hkl_real h) sheared) X2) in *. set (q3 := vget (calc_eq_ccs (hkl_real h) sheared) X3) in *.
  assert (N1 : mget (calc_m_m_norm sheared) X1 X1 <> 0).
  { unfold calc_m_m_norm, sheared, calc_phi, calc_phi_sq. cbn [mget m_11 u_a u_b u_c u_al u_be u_ga]. rewrite cos_PI2, sin_PI2, cos_PI4.
    assert (Q5 : Rsqr (1 / sqrt 2) = 1 / 2). { unfold Rsqr. replace (1 / sqrt 2 * (1 / sqrt 2)) with (1 / (sqrt 2 * sqrt 2)) by (field; lra). rewrite sqrt_sqrt by lra. reflexivity. }
    rewrite Q5. replace (1 - Rsqr 0 - Rsqr 0 - 1 / 2 + 2 * 0 * 0 * (1 / sqrt 2)) with (1 / 2) by (unfold Rsqr; field; lra).
    apply Rgt_not_eq. unfold Rdiv at 1. rewrite Rinv_1, Rmult_1_r. apply sqrt_lt_R0. lra. }
  set (n1 := mget (calc_m_m_norm sheared) X1 X1) in *. set (n2 := mget (calc_m_m_norm sheared) X2 X1) in *. set (n3 := mget (calc_m_m_norm sheared) X3 X1) in *.
  assert (Q' : q1 * n1 + q2 * n2 + q3 * n3 = 0).
  { apply (Rmult_eq_reg_r (sqrt 2)); [|lra]. rewrite Rmult_0_l, <- Q. ring. }
  assert (Hn : n1 = n1 * sqrt 2).
  { assert (E1 : (q1 * (2695 / 10000 * n1) + q2 * (2695 / 10000 * n2) + q3 * (2695 / 10000 * n3)) = 0) by (transitivity (2695 / 10000 * (q1 * n1 + q2 * n2 + q3 * n3)); [ring|rewrite Q'; ring]).
    assert (E2 : (q1 * (2695 / 10000 * (n1 * sqrt 2)) + q2 * (2695 / 10000 * (n2 * sqrt 2)) + q3 * (2695 / 10000 * (n3 * sqrt 2))) = 0)
      by (transitivity (2695 / 10000 * sqrt 2 * (q1 * n1 + q2 * n2 + q3 * n3)); [ring|rewrite Q'; ring]).
    rewrite E1, E2 in HV. lra. }
  assert (S2 : sqrt 2 = 1). { apply (Rmult_eq_reg_l n1); [|exact N1]. rewrite Rmult_1_r. symmetry. exact Hn. }
  pose proof (sqrt_sqrt 2 ltac:(lra)) as S3. rewrite S2 in S3. lra.
Qed.
