From Coq Require Import Reals ZArith List Bool Lra Lia Permutation.
From Coquelicot Require Import Complex.
From Verif Require Import Spec.Lin3 Spec.Cell Spec.Symm Spec.Scatter Spec.StructSpec Model.UnitCell Model.Symmetry Model.AtomFactors Model.StructFactor
  Proofs.SymmBaseP Proofs.SymmGroupP Proofs.SymmExP Proofs.ScatterP Proofs.StructFactorP Proofs.StructFactorP2.
Import ListNotations.
Open Scope list_scope.
Open Scope R_scope.

Definition holds {A} (c : option A) (v : A) : Prop := c = None \/ c = Some v.
Record inv (d : cache) (p : call) : Prop := mkInv {
  i_hkl : c_hkl d = Some (k_hkl p);
  i_full : holds (c_full d) (full_of (k_s p));
  i_mult : holds (c_mult d) (mult_arr (full_of (k_s p)) (k_atoms p));
  i_pr1 : holds (c_pr1 d) (pr1_arr (k_hkl p) (k_s p) (k_atoms p));
  i_pr2 : holds (c_pr2 d) (pr2_arr (k_hkl p) (k_s p));
  i_pr3 : holds (c_pr3 d) (pr3_arr (k_hkl p) (k_s p));
  i_pr4 : holds (c_pr4 d) (pr4_arr (k_hkl p) (k_s p));
  i_st : holds (c_sthovl d) (sthovl_arr (k_hkl p) (k_uc p));
  i_dwf : holds (c_dwf d) (dwf_arr (k_hkl p) (sthovl_arr (k_hkl p) (k_uc p)) (k_s p) (k_atoms p));
  i_fa : holds (c_f_asym d) (f_asym_arr (mult_arr (full_of (k_s p)) (k_atoms p)) (dwf_arr (k_hkl p) (sthovl_arr (k_hkl p) (k_uc p)) (k_s p) (k_atoms p)) (k_atoms p)
       (pr1_arr (k_hkl p) (k_s p) (k_atoms p)) (pr2_arr (k_hkl p) (k_s p)));
  i_fn : holds (c_f_nucl d) (fresh p) }.
Lemma fetch_holds : forall A (ok : bool) (c : option A) (v w : A), (ok = true -> holds c w /\ w = v) -> fetch ok c v = v.
Proof. intros A [] c v w H; [|reflexivity]. destruct (H eq_refl) as [[->| ->] ->]; reflexivity. Qed.
Lemma inv_with_hkl : forall p, inv (with_hkl (k_hkl p)) p.
Proof. intros p. constructor; try (left; reflexivity). reflexivity. Qed.

Lemma pr1_xyz : forall h s a b, map at_xyz a = map at_xyz b -> pr1_arr h s a = pr1_arr h s b.
Proof.
  intros h s a b H. unfold pr1_arr. apply map_ext. intros g. apply map_ext. intros e.
  rewrite <- (map_map at_xyz (fun x => calc_pr1 g e x)), H, map_map. reflexivity.
Qed.
Lemma map_pair : forall A B D (f : A -> B) (g : A -> D) a b, map f a = map f b -> map g a = map g b -> map (fun x => (f x, g x)) a = map (fun x => (f x, g x)) b.
Proof. intros A B D f g a b H1 H2. rewrite <- !combine_map2, H1, H2. reflexivity. Qed.
Lemma dwf_at : forall h st s a b, map at_biso a = map at_biso b -> map at_beta a = map at_beta b -> dwf_arr h st s a = dwf_arr h st s b.
Proof.
  intros h st s a b H1 H2. unfold dwf_arr. apply map_ext. intros g. apply map_ext. intros e.
  pose proof (map_pair _ _ _ at_biso at_beta a b H1 H2) as P.
  rewrite <- (map_map (fun x => (at_biso x, at_beta x)) (fun q => dwf_call (fst g) (snd g) e (fst q) (snd q))), P, map_map. reflexivity.
Qed.
Lemma atoms_eq : forall a b, map at_xyz a = map at_xyz b -> map at_occ a = map at_occ b -> map at_b a = map at_b b ->
  map at_biso a = map at_biso b -> map at_beta a = map at_beta b -> a = b.
Proof.
  induction a as [|x a IH]; intros [|y b] H1 H2 H3 H4 H5; try discriminate; [reflexivity|].
  cbn [map] in *. injection H1 as E1 H1. injection H2 as E2 H2. injection H3 as E3 H3. injection H4 as E4 H4. injection H5 as E5 H5.
  f_equal; [|apply IH; assumption]. destruct x, y; cbn in *; congruence.
Qed.

(** the call with a cleared or matching dictionary *)
Lemma step_matching : forall d p k, inv d p -> k_s k = k_s p -> k_hkl k = k_hkl p ->
  (k_use k = true -> announced p k /\ mult_arr (full_of (k_s k)) (k_atoms k) = mult_arr (full_of (k_s k)) (k_atoms p) /\
    (f_uc (k_fl k) || f_occ (k_fl k) = true -> refreshed (k_fl k) = true)) ->
  fst (do_call d k) = fresh k /\ inv (snd (do_call d k)) k.
Proof.
  intros d p k I Es Eh Hs. unfold do_call, calc_f_nucl_dict.
  assert (D0 : (if k_use k then match c_hkl d with Some h => if hkl_dec h (k_hkl k) then d else with_hkl (k_hkl k) | None => d end else d) = d).
  { rewrite (i_hkl _ _ I), Eh. destruct (k_use k); [|reflexivity]. destruct (hkl_dec (k_hkl p) (k_hkl p)); [reflexivity|congruence]. }
  rewrite D0. cbv zeta.
  assert (Ef : fetch true (c_full d) (full_of (k_s k)) = full_of (k_s k)).
  { apply (fetch_holds _ _ _ _ (full_of (k_s p))). intros _. rewrite Es. split; [apply (i_full _ _ I)|reflexivity]. }
  rewrite Ef.
  assert (Em : fetch (k_use k) (c_mult d) (mult_arr (full_of (k_s k)) (k_atoms k)) = mult_arr (full_of (k_s k)) (k_atoms k)).
  { apply (fetch_holds _ _ _ _ (mult_arr (full_of (k_s k)) (k_atoms p))). intros U. rewrite Es at 1. split; [apply (i_mult _ _ I)|]. symmetry. apply (Hs U). }
  rewrite Em.
  assert (E1 : fetch (k_use k && negb (f_xyz (k_fl k))) (c_pr1 d) (pr1_arr (k_hkl k) (k_s k) (k_atoms k)) = pr1_arr (k_hkl k) (k_s k) (k_atoms k)).
  { apply (fetch_holds _ _ _ _ (pr1_arr (k_hkl p) (k_s p) (k_atoms p))). intros U. apply andb_true_iff in U as [U X]. apply negb_true_iff in X.
    split; [apply (i_pr1 _ _ I)|]. rewrite Eh, Es. apply pr1_xyz. symmetry. apply (Hs U). exact X. }
  rewrite E1.
  assert (E2 : fetch (k_use k) (c_pr2 d) (pr2_arr (k_hkl k) (k_s k)) = pr2_arr (k_hkl k) (k_s k)).
  { apply (fetch_holds _ _ _ _ (pr2_arr (k_hkl p) (k_s p))). intros _. rewrite Eh, Es. split; [apply (i_pr2 _ _ I)|reflexivity]. }
  assert (E3 : fetch (k_use k) (c_pr3 d) (pr3_arr (k_hkl k) (k_s k)) = pr3_arr (k_hkl k) (k_s k)).
  { apply (fetch_holds _ _ _ _ (pr3_arr (k_hkl p) (k_s p))). intros _. rewrite Eh, Es. split; [apply (i_pr3 _ _ I)|reflexivity]. }
  assert (E4 : fetch (k_use k) (c_pr4 d) (pr4_arr (k_hkl k) (k_s k)) = pr4_arr (k_hkl k) (k_s k)).
  { apply (fetch_holds _ _ _ _ (pr4_arr (k_hkl p) (k_s p))). intros _. rewrite Eh, Es. split; [apply (i_pr4 _ _ I)|reflexivity]. }
  rewrite E2, E3, E4.
  assert (Eu : fetch (k_use k && negb (f_uc (k_fl k))) (c_sthovl d) (sthovl_arr (k_hkl k) (k_uc k)) = sthovl_arr (k_hkl k) (k_uc k)).
  { apply (fetch_holds _ _ _ _ (sthovl_arr (k_hkl p) (k_uc p))). intros U. apply andb_true_iff in U as [U X]. apply negb_true_iff in X.
    split; [apply (i_st _ _ I)|]. rewrite Eh. f_equal. symmetry. apply (Hs U). exact X. }
  rewrite Eu.
  assert (Ed : fetch (k_use k && negb (f_uc (k_fl k) || f_biso (k_fl k) || f_beta (k_fl k))) (c_dwf d)
      (dwf_arr (k_hkl k) (sthovl_arr (k_hkl k) (k_uc k)) (k_s k) (k_atoms k)) = dwf_arr (k_hkl k) (sthovl_arr (k_hkl k) (k_uc k)) (k_s k) (k_atoms k)).
  { apply (fetch_holds _ _ _ _ (dwf_arr (k_hkl p) (sthovl_arr (k_hkl p) (k_uc p)) (k_s p) (k_atoms p))). intros U. apply andb_true_iff in U as [U X].
    apply negb_true_iff in X. apply orb_false_iff in X as [X X3]. apply orb_false_iff in X as [X1 X2].
    split; [apply (i_dwf _ _ I)|]. destruct (Hs U) as ((A1 & A2 & A3 & A4 & A5 & A6) & _). rewrite Eh, Es, (A5 X1).
    apply dwf_at; symmetry; auto. }
  rewrite Ed.
  assert (Same : k_use k && negb (f_biso (k_fl k) || f_beta (k_fl k) || f_xyz (k_fl k)) = true -> k_atoms k = k_atoms p /\ k_uc k = k_uc p).
  { intros U. apply andb_true_iff in U as [U X]. apply negb_true_iff in X. apply orb_false_iff in X as [X X3]. apply orb_false_iff in X as [X1 X2].
    destruct (Hs U) as ((A1 & A2 & A3 & A4 & A5 & A6) & _ & Rf).
    assert (R0 : refreshed (k_fl k) = false) by (unfold refreshed; rewrite X1, X2, X3; reflexivity).
    assert (UO : f_uc (k_fl k) || f_occ (k_fl k) = false).
    { destruct (f_uc (k_fl k) || f_occ (k_fl k)) eqn:Q; [|reflexivity]. rewrite (Rf eq_refl) in R0. discriminate. }
    apply orb_false_iff in UO as [U1 U2]. split; [|apply A5; exact U1]. apply atoms_eq; auto. }
  set (fasym := f_asym_arr (mult_arr (full_of (k_s k)) (k_atoms k)) (dwf_arr (k_hkl k) (sthovl_arr (k_hkl k) (k_uc k)) (k_s k) (k_atoms k)) (k_atoms k) (pr1_arr (k_hkl k) (k_s k) (k_atoms k)) (pr2_arr (k_hkl k) (k_s k))).
  assert (Ea : fetch (k_use k && negb (f_biso (k_fl k) || f_beta (k_fl k) || f_xyz (k_fl k))) (c_f_asym d) fasym = fasym).
  { eapply fetch_holds. intros U. destruct (Same U) as [Q1 Q2]. split; [apply (i_fa _ _ I)|]. unfold fasym. rewrite Q1, Q2, Eh, Es. reflexivity. }
  rewrite Ea.
  assert (Fr : f_nucl_arr fasym (k_atoms k) (pr3_arr (k_hkl k) (k_s k)) (k_s k) (pr4_arr (k_hkl k) (k_s k)) = fresh k) by reflexivity.
  rewrite Fr.
  assert (En : fetch (k_use k && negb (f_biso (k_fl k) || f_beta (k_fl k) || f_xyz (k_fl k))) (c_f_nucl d) (fresh k) = fresh k).
  { eapply fetch_holds. intros U. destruct (Same U) as [Q1 Q2]. split; [apply (i_fn _ _ I)|]. unfold fresh. rewrite Q1, Q2, Eh, Es. reflexivity. }
  rewrite En. split; [reflexivity|]. cbn [snd].
  constructor; cbn [c_hkl c_full c_mult c_pr1 c_pr2 c_pr3 c_pr4 c_sthovl c_dwf c_f_asym c_f_nucl]; try (right; reflexivity).
  - rewrite (i_hkl _ _ I), Eh. reflexivity.
  - destruct (k_use k); [|right; reflexivity]. destruct (c_mult d); [|right; reflexivity]. rewrite Es. apply (i_full _ _ I).
Qed.
Lemma fetch_none : forall A (ok : bool) (v : A), fetch ok None v = v.
Proof. intros A [] v; reflexivity. Qed.
Lemma step_clear : forall k, fst (do_call (with_hkl (k_hkl k)) k) = fresh k /\ inv (snd (do_call (with_hkl (k_hkl k)) k)) k.
Proof.
  intros k. unfold do_call, calc_f_nucl_dict.
  assert (D0 : (if k_use k then match c_hkl (with_hkl (k_hkl k)) with Some h => if hkl_dec h (k_hkl k) then with_hkl (k_hkl k) else with_hkl (k_hkl k) | None => with_hkl (k_hkl k) end else with_hkl (k_hkl k)) = with_hkl (k_hkl k)).
  { cbn [c_hkl with_hkl]. destruct (k_use k); [|reflexivity]. destruct (hkl_dec (k_hkl k) (k_hkl k)); reflexivity. }
  rewrite D0. cbv zeta. unfold with_hkl. cbn [c_hkl c_full c_mult c_pr1 c_pr2 c_pr3 c_pr4 c_sthovl c_dwf c_f_asym c_f_nucl].
  rewrite !fetch_none. split; [reflexivity|]. cbn [snd].
  constructor; cbn [c_hkl c_full c_mult c_pr1 c_pr2 c_pr3 c_pr4 c_sthovl c_dwf c_f_asym c_f_nucl]; try (right; reflexivity); [reflexivity|].
  destruct (k_use k); right; reflexivity.
Qed.
Lemma step_safe : forall d p k, inv d p -> safe p k -> fst (do_call d k) = fresh k /\ inv (snd (do_call d k)) k.
Proof.
  intros d p k I (Es & Hu & Hs). destruct (hkl_dec (k_hkl p) (k_hkl k)) as [E|E].
  - apply (step_matching d p k I Es (eq_sym E)). intros U. destruct (Hs U (eq_sym E)) as (A & B & Cc). split; [exact A|]. split; [exact B|].
    intros Q. unfold refreshed. apply orb_true_iff in Q. destruct (Cc Q) as [T|[T|T]]; rewrite T; rewrite ?orb_true_r; reflexivity.
  - destruct (k_use k) eqn:U; [|exfalso; apply E; symmetry; apply Hu; reflexivity].
    assert (Q : do_call d k = do_call (with_hkl (k_hkl k)) k).
    { unfold do_call, calc_f_nucl_dict. rewrite U. cbn [c_hkl with_hkl]. rewrite (i_hkl _ _ I).
      destruct (hkl_dec (k_hkl p) (k_hkl k)); [contradiction|]. destruct (hkl_dec (k_hkl k) (k_hkl k)); [reflexivity|congruence]. }
    rewrite Q. apply step_clear.
Qed.
Lemma run_safe : forall ks d p, inv d p -> safe_history p ks -> run d ks = map fresh ks.
Proof.
  induction ks as [|k ks IH]; intros d p I H; [reflexivity|]. destruct H as [H1 H2]. cbn [run map].
  destruct (step_safe d p k I H1) as [A B]. destruct (do_call d k) as [v d']. cbn [fst snd] in *. subst v. f_equal. apply (IH d' k B H2).
Qed.
Theorem cached_fresh : forall k ks, safe_history k ks -> run (with_hkl (k_hkl k)) (k :: ks) = map fresh (k :: ks).
Proof.
  intros k ks H. cbn [run map]. destruct (step_clear k) as [A B]. destruct (do_call (with_hkl (k_hkl k)) k) as [v d']. cbn [fst snd] in *.
  subst v. f_equal. apply (run_safe ks d' k B H).
Qed.

(** * Failing histories *)
Definition no_fl : fflags := mkFl false false false false false.
Definition s_p1 : symmetry := mkS [op_id] false (mkV 0 0 0, 1)%Z [(mkV 0 0 0, 1)%Z].
Definition s_pm1 : symmetry := mkS [op_id] true (mkV 0 0 0, 1)%Z [(mkV 0 0 0, 1)%Z].
Definition cubic (a : R) : U6 R := mkU a a a (PI / 2) (PI / 2) (PI / 2).
Definition at_origin (occ biso : R) : atom := mkA (mkV 0 0 0) occ (RtoC 1) biso q_zero.
Lemma s_p1_ok : sym_ok s_p1.
Proof. unfold sym_ok, s_p1; cbn [s_red s_tr s_cp snd]. repeat split; try discriminate; try lia; intros x [<-|[]]; cbn; lia. Qed.
Lemma s_pm1_ok : sym_ok s_pm1.
Proof. unfold sym_ok, s_pm1; cbn [s_red s_tr s_cp snd]. repeat split; try discriminate; try lia; intros x [<-|[]]; cbn; lia. Qed.
Lemma round_0 : get_atom_symm_elem (mkV 0 0 0) = AtomPos (mkV 0 0 0)%Z 3000000.
Proof.
  unfold get_atom_symm_elem. cbn [v_1 v_2 v_3]. replace (0 * 3 * 10 ^ 6) with (IZR 0) by ring. rewrite np_round_int. reflexivity.
Qed.
Lemma p1_mult : forall a, at_xyz a = mkV 0 0 0 -> mult_of (full_of s_p1) a = 1%nat.
Proof. intros a H. unfold mult_of. rewrite H, round_0. reflexivity. Qed.
Lemma p1_origin : forall h uc occ biso, calc_f_nucl [h] s_p1 uc [at_origin occ biso] = [RtoC (occ * exp (- (biso * calc_sthovl (hkl_real h) uc ^ 2)))].
Proof.
  intros h uc occ biso. rewrite f_nucl_map. cbn [map]. f_equal. rewrite f_one_iso; [|apply s_p1_ok|intros a [<-|[]]; reflexivity].
  cbn [map]. unfold csum at 1. cbn [fold_right]. rewrite p1_mult by reflexivity.
  change (full_of s_p1) with [op_id]. unfold dsum. cbn [map length]. unfold csum. cbn [fold_right].
  replace (hdot h (act op_id (vget (at_xyz (at_origin occ biso))))) with 0.
  2:{ unfold hdot, act, sum3. cbn. lra. }
  rewrite phase_0. unfold dw, at_origin. cbn [at_b at_occ at_biso]. replace (INR 1) with 1 by reflexivity.
  replace (1 * occ * exp (- (biso * calc_sthovl (hkl_real h) uc ^ 2)) / 1) with (occ * exp (- (biso * calc_sthovl (hkl_real h) uc ^ 2))) by field. ring.
Qed.
Lemma dict_stale : forall d fl h s uc atoms v, c_hkl d = Some h -> refreshed fl = false -> c_f_nucl d = Some v -> fst (calc_f_nucl_dict true fl d h s uc atoms) = v.
Proof.
  intros d fl h s uc atoms v H R E. unfold calc_f_nucl_dict. rewrite H. destruct (hkl_dec h h); [|congruence]. cbv zeta. cbn [fst].
  unfold refreshed in R. apply orb_false_iff in R as [R R3]. apply orb_false_iff in R as [R1 R2]. rewrite R1, R2, R3, E. reflexivity.
Qed.
Lemma after_first : forall k, c_hkl (snd (do_call (with_hkl (k_hkl k)) k)) = Some (k_hkl k) /\ c_f_nucl (snd (do_call (with_hkl (k_hkl k)) k)) = Some (fresh k).
Proof.
  intros k. destruct (step_clear k) as [A B]. split; [apply (i_hkl _ _ B)|]. destruct (i_fn _ _ B) as [Q|Q]; [|exact Q].
  unfold do_call, calc_f_nucl_dict in Q. cbn [snd c_f_nucl] in Q. discriminate.
Qed.
Lemma run_stale : forall k k', k_hkl k' = k_hkl k -> k_use k' = true -> refreshed (k_fl k') = false ->
  run (with_hkl (k_hkl k)) [k; k'] = [fresh k; fresh k].
Proof.
  intros k k' Eh U R. cbn [run]. destruct (step_clear k) as [A _]. destruct (after_first k) as [B1 B2].
  destruct (do_call (with_hkl (k_hkl k)) k) as [v d]. cbn [fst snd] in *. subst v. f_equal.
  unfold do_call. rewrite U, Eh. pose proof (dict_stale d (k_fl k') (k_hkl k) (k_s k') (k_uc k') (k_atoms k') (fresh k) B1 R B2) as Q.
  destruct (calc_f_nucl_dict true (k_fl k') d (k_hkl k) (k_s k') (k_uc k') (k_atoms k')) as [v d']. cbn [fst] in Q. subst. reflexivity.
Qed.
Lemma second_eq : forall (u : list C) x y, [u; [RtoC x]] = [u; [RtoC y]] -> x = y.
Proof. intros u x y H. injection H as H. exact H. Qed.
Lemma rtoc_ne : forall x y, x <> y -> [RtoC x] <> [RtoC y].
Proof. intros x y H E. injection E as E. auto. Qed.
Theorem occupancy_stale : exists k k', announced k k' /\ k_s k' = k_s k /\ k_hkl k' = k_hkl k /\
  run (with_hkl (k_hkl k)) [k; k'] <> [fresh k; fresh k'].
Proof.
  exists (mkCall true (mkFl false false true false false) [mkV 0 0 0]%Z s_p1 (cubic 1) [at_origin 1 0]),
         (mkCall true (mkFl false false true false false) [mkV 0 0 0]%Z s_p1 (cubic 1) [at_origin 2 0]).
  split; [repeat split; cbn; congruence|]. split; [reflexivity|]. split; [reflexivity|].
  rewrite run_stale by reflexivity. unfold fresh. cbn [k_hkl k_s k_uc k_atoms]. rewrite !p1_origin. intros E. injection E as E.
  rewrite !Rmult_0_l, Ropp_0, exp_0 in E. lra.
Qed.
Lemma cubic_sthovl : forall a, 0 < a -> calc_sthovl (hkl_real (mkV 1 0 0)%Z) (cubic a) ^ 2 = 1 / (4 * a * a).
Proof.
  intros a Ha. unfold calc_sthovl, calc_inv_d, cubic, hkl_real. cbn [u_a u_b u_c u_al u_be u_ga v_1 v_2 v_3]. rewrite cos_PI2.
  cbv zeta. set (X := _ / (1 - _ - _ - _ + _)). replace X with (Rsqr (/ a)).
  - rewrite sqrt_Rsqr by (left; apply Rinv_0_lt_compat; exact Ha). field. lra.
  - unfold X, Rsqr. field. lra.
Qed.
Theorem cell_stale : exists k k', announced k k' /\ k_s k' = k_s k /\ k_hkl k' = k_hkl k /\ f_uc (k_fl k') = true /\
  run (with_hkl (k_hkl k)) [k; k'] <> [fresh k; fresh k'].
Proof.
  exists (mkCall true (mkFl true false false false false) [mkV 1 0 0]%Z s_p1 (cubic 1) [at_origin 1 1]),
         (mkCall true (mkFl true false false false false) [mkV 1 0 0]%Z s_p1 (cubic 2) [at_origin 1 1]).
  split; [repeat split; cbn; congruence|]. split; [reflexivity|]. split; [reflexivity|]. split; [reflexivity|].
  rewrite run_stale by reflexivity. unfold fresh. cbn [k_hkl k_s k_uc k_atoms]. rewrite !p1_origin. intros E. apply second_eq in E.
  rewrite !cubic_sthovl in E by lra. rewrite !Rmult_1_l in E. apply exp_inv in E. lra.
Qed.

Definition at_x (x : R) : atom := mkA (mkV x 0 0) 1 (RtoC 1) 0 q_zero.
Definition all_fl : fflags := mkFl true true true true true.
Lemma fetch_hit : forall A (c : option A) v w, c = Some w -> fetch true c v = w.
Proof. intros A c v w ->. reflexivity. Qed.
(** a call with all flags set takes only the multiplicity and the pr_2, pr_3, pr_4 terms from the dictionary *)
Lemma call_all_flags : forall k k', k_s k' = k_s k -> k_hkl k' = k_hkl k -> k_use k' = true -> k_fl k' = all_fl ->
  fst (do_call (snd (do_call (with_hkl (k_hkl k)) k)) k') =
  f_nucl_arr (f_asym_arr (mult_arr (full_of (k_s k)) (k_atoms k)) (dwf_arr (k_hkl k) (sthovl_arr (k_hkl k) (k_uc k')) (k_s k) (k_atoms k')) (k_atoms k')
     (pr1_arr (k_hkl k) (k_s k) (k_atoms k')) (pr2_arr (k_hkl k) (k_s k))) (k_atoms k') (pr3_arr (k_hkl k) (k_s k)) (k_s k) (pr4_arr (k_hkl k) (k_s k)).
Proof.
  intros k k' Es Eh U Fl. destruct (step_clear k) as [_ I].
  assert (Full : c_mult (snd (do_call (with_hkl (k_hkl k)) k)) <> None /\ c_pr2 (snd (do_call (with_hkl (k_hkl k)) k)) <> None /\
      c_pr3 (snd (do_call (with_hkl (k_hkl k)) k)) <> None /\ c_pr4 (snd (do_call (with_hkl (k_hkl k)) k)) <> None).
  { unfold do_call, calc_f_nucl_dict. cbn [snd c_mult c_pr2 c_pr3 c_pr4]. repeat split; discriminate. }
  destruct Full as (F1 & F2 & F3 & F4). set (d := snd _) in *.
  pose proof (i_mult _ _ I) as [Q1|Q1]; [contradiction|]. pose proof (i_pr2 _ _ I) as [Q2|Q2]; [contradiction|].
  pose proof (i_pr3 _ _ I) as [Q3|Q3]; [contradiction|]. pose proof (i_pr4 _ _ I) as [Q4|Q4]; [contradiction|].
  unfold do_call, calc_f_nucl_dict. rewrite U, Fl, (i_hkl _ _ I), Eh, Es. destruct (hkl_dec (k_hkl k) (k_hkl k)); [|congruence].
  cbv zeta. unfold all_fl. cbn [f_uc f_xyz f_occ f_biso f_beta orb andb negb fst].
  rewrite Q1, Q2, Q3, Q4. reflexivity.
Qed.
Lemma run_two : forall d k k', run d [k; k'] = [fst (do_call d k); fst (do_call (snd (do_call d k)) k')].
Proof. intros. cbn [run]. destruct (do_call d k) as [v d']. cbn [fst snd]. destruct (do_call d' k') as [w d'']. reflexivity. Qed.
Lemma dw_zero : forall h uc x, dw h uc (at_x x) = 1.
Proof. intros. unfold dw, at_x. cbn [at_biso]. rewrite Rmult_0_l, Ropp_0. apply exp_0. Qed.
Lemma phase_000 : forall y, phase (hdot (mkV 0 0 0)%Z y) = RtoC 1.
Proof. intros y. replace (hdot (mkV 0 0 0)%Z y) with 0 by (unfold hdot, sum3; cbn [vget v_1 v_2 v_3]; ring). apply phase_0. Qed.
Lemma f_000 : forall s uc mu x, sym_ok s -> f_one s uc mu [at_x x] (mkV 0 0 0)%Z = RtoC (INR (mu (at_x x))).
Proof.
  intros s uc mu x Ok. rewrite f_one_iso; [|exact Ok|intros a [<-|[]]; reflexivity]. cbn [map]. unfold csum. cbn [fold_right].
  unfold dsum. rewrite (csum_const _ _ (RtoC 1)) by (intros; apply phase_000). rewrite dw_zero. unfold at_x at 1 3. cbn [at_b at_occ].
  assert (N : INR (length (full_of s)) <> 0).
  { apply not_0_INR. pose proof (full_nonempty s Ok). destruct (full_of s); [congruence|discriminate]. }
  rewrite !Cmult_1_l, !Cmult_1_r, Cplus_0_r, <- RtoC_mult. f_equal. field. exact N.
Qed.
Lemma round_15 : get_atom_symm_elem (mkV (1 / 5) 0 0) = AtomPos (mkV 600000 0 0)%Z 3000000.
Proof.
  unfold get_atom_symm_elem. cbn [v_1 v_2 v_3]. replace (0 * 3 * 10 ^ 6) with (IZR 0) by ring.
  replace (1 / 5 * 3 * 10 ^ 6) with (IZR 600000) by (simpl; field). rewrite !np_round_int. reflexivity.
Qed.
Theorem multiplicity_stale : exists k k', announced k k' /\ k_s k' = k_s k /\ k_hkl k' = k_hkl k /\ k_fl k' = all_fl /\
  run (with_hkl (k_hkl k)) [k; k'] <> [fresh k; fresh k'].
Proof.
  exists (mkCall true all_fl [mkV 0 0 0]%Z s_pm1 (cubic 1) [at_x 0]), (mkCall true all_fl [mkV 0 0 0]%Z s_pm1 (cubic 1) [at_x (1 / 5)]).
  split; [repeat split; cbn; congruence|]. do 3 (split; [reflexivity|]).
  rewrite run_two. rewrite call_all_flags by reflexivity. rewrite (proj1 (step_clear _)). cbn [k_hkl k_s k_uc k_atoms].
  set (mu := fun _ : atom => calc_multiplicity (full_of s_pm1) (get_atom_symm_elem (mkV 0 0 0))).
  change (mult_arr (full_of s_pm1) [at_x 0]) with (map mu [at_x (1 / 5)]). rewrite f_nucl_gen. cbn [map].
  unfold fresh. cbn [k_hkl k_s k_uc k_atoms]. rewrite !f_nucl_map. cbn [map].
  rewrite !f_000 by apply s_pm1_ok. intros E. apply second_eq in E. unfold mu, mult_of, at_x in E. cbn [at_xyz] in E. rewrite round_0, round_15 in E.
  apply INR_eq in E. discriminate E.
Qed.
Theorem hkl_stale : exists k k' k'', k_uc k' = k_uc k /\ k_uc k'' = k_uc k /\ k_atoms k' = k_atoms k /\ k_atoms k'' = k_atoms k /\ k_s k' = k_s k /\ k_s k'' = k_s k /\
  run (with_hkl (k_hkl k)) [k; k'; k''] <> [fresh k; fresh k'; fresh k''].
Proof.
  set (mk u h := mkCall u no_fl [h] s_p1 (cubic 1) [at_origin 1 1]).
  exists (mk true (mkV 0 0 0)%Z), (mk false (mkV 1 0 0)%Z), (mk true (mkV 0 0 0)%Z).
  do 6 (split; [reflexivity|]).
  cbn [run]. destruct (step_clear (mk true (mkV 0 0 0)%Z)) as [A B]. destruct (after_first (mk true (mkV 0 0 0)%Z)) as [B1 B2].
  destruct (do_call _ (mk true (mkV 0 0 0)%Z)) as [v d]. cbn [fst snd] in *.
  destruct (do_call d (mk false (mkV 1 0 0)%Z)) as [v2 d2] eqn:E2.
  assert (Q : v2 = fresh (mk false (mkV 1 0 0)%Z) /\ c_hkl d2 = Some [mkV 0 0 0]%Z /\ c_f_nucl d2 = Some v2).
  { pose proof (i_full _ _ B) as F. unfold do_call, calc_f_nucl_dict, mk in E2. cbn [k_use k_fl k_hkl k_s k_uc k_atoms] in E2. cbv zeta in E2.
    assert (Ff : fetch true (c_full d) (full_of s_p1) = full_of s_p1) by (destruct F as [-> | ->]; reflexivity).
    rewrite Ff in E2. unfold no_fl in E2. cbn [f_uc f_xyz f_occ f_biso f_beta orb andb negb fetch] in E2. injection E2 as E2 E3. subst d2 v2.
    split; [reflexivity|]. split; [exact B1|reflexivity]. }
  destruct Q as (Q1 & Q2 & Q3). pose proof (dict_stale d2 no_fl [mkV 0 0 0]%Z s_p1 (cubic 1) [at_origin 1 1] v2 Q2 eq_refl Q3) as Q4.
  change (do_call d2 (mk true (mkV 0 0 0)%Z)) with (calc_f_nucl_dict true no_fl d2 [mkV 0 0 0]%Z s_p1 (cubic 1) [at_origin 1 1]).
  destruct (calc_f_nucl_dict true no_fl d2 [mkV 0 0 0]%Z s_p1 (cubic 1) [at_origin 1 1]) as [v3 d3]. cbn [fst] in Q4.
  intros E. pose proof (f_equal (fun l => nth 2 l []) E) as E'. cbn [nth] in E'. rewrite Q4, Q1 in E'. unfold fresh, mk in E'. cbn [k_hkl k_s k_uc k_atoms] in E'.
  rewrite !p1_origin in E'. assert (E3 : forall x y, [RtoC x] = [RtoC y] -> x = y) by (intros x y H; injection H as H; exact H).
  apply E3 in E'. rewrite cubic_sthovl in E' by lra.
  replace (calc_sthovl (hkl_real (mkV 0 0 0)%Z) (cubic 1)) with 0 in E'.
  - rewrite !Rmult_1_l in E'. apply exp_inv in E'. lra.
  - unfold calc_sthovl, calc_inv_d, cubic, hkl_real. cbn [u_a u_b u_c u_al u_be u_ga v_1 v_2 v_3]. rewrite cos_PI2. cbv zeta.
    match goal with |- _ = _ * sqrt ?X => replace X with 0 by (unfold Rsqr; field) end. rewrite sqrt_0. ring.
Qed.
Theorem symmetry_stale : exists k k', k_uc k' = k_uc k /\ k_atoms k' = k_atoms k /\ k_hkl k' = k_hkl k /\ k_use k' = false /\
  run (with_hkl (k_hkl k)) [k; k'] <> [fresh k; fresh k'].
Proof.
  exists (mkCall false all_fl [mkV 0 0 0]%Z s_p1 (cubic 1) [at_x (1 / 5)]), (mkCall false all_fl [mkV 0 0 0]%Z s_pm1 (cubic 1) [at_x (1 / 5)]).
  do 4 (split; [reflexivity|]). rewrite run_two.
  match goal with |- context [do_call (snd ?X) ?k'] => assert (Q : fst (do_call (snd X) k') = f_nucl_arr (f_asym_arr (map (mult_of (full_of s_p1)) [at_x (1/5)]) 
     (dwf_arr [mkV 0 0 0]%Z (sthovl_arr [mkV 0 0 0]%Z (cubic 1)) s_pm1 [at_x (1/5)]) [at_x (1/5)]
     (pr1_arr [mkV 0 0 0]%Z s_pm1 [at_x (1/5)]) (pr2_arr [mkV 0 0 0]%Z s_pm1)) [at_x (1/5)] (pr3_arr [mkV 0 0 0]%Z s_pm1) s_pm1 (pr4_arr [mkV 0 0 0]%Z s_pm1)) by reflexivity end.
  rewrite Q, f_nucl_gen. rewrite (proj1 (step_clear _)). unfold fresh. cbn [k_hkl k_s k_uc k_atoms]. rewrite !f_nucl_map. cbn [map].
  rewrite !f_000 by (apply s_pm1_ok || apply s_p1_ok). intros E. apply second_eq in E. unfold mult_of, at_x in E. cbn [at_xyz] in E. rewrite round_15 in E.
  apply INR_eq in E. discriminate E.
Qed.
