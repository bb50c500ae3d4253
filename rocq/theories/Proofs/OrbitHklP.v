(** Cell.calc_hkl: one reflection of every Laue class in the range. *)
From Coq Require Import Reals ZArith List Bool Arith Lra Lia Permutation Sorting.Sorted.
From Coquelicot Require Import Complex.
From Verif Require Import Spec.Lin3 Spec.Cell Spec.Symm Spec.Scatter Spec.HklSpec Model.UnitCell Model.Symmetry Model.StructFactor Model.HklList Model.CellObj Model.Orbits
  Proofs.UnitCellP Proofs.SymmBaseP Proofs.SymmGroupP Proofs.SymmExP Proofs.ScatterP Proofs.StructFactorP Proofs.StructFactorP2 Proofs.HklListP Proofs.HklListP2 Proofs.CellItemP Proofs.OrbitsP.
Import ListNotations.
Open Scope list_scope.
Open Scope R_scope.

(* ---- the centring test ---- *)
Lemma centring_S : forall h ts, centring_sum h ts = S (z_opp_v h) ts.
Proof.
  intros h ts. unfold centring_sum, S. change sum_c with csum. apply csum_ext. intros [[t1 t2 t3] d] _. cbn [fst snd].
  unfold cexp, phase, hdot, frac, sum3, z_opp_v. cbn [vget v_1 v_2 v_3]. rewrite !mult_IZR.
  set (u := IZR t1 / IZR d * IZR (v_1 h) + IZR t2 / IZR d * IZR (v_2 h) + IZR t3 / IZR d * IZR (v_3 h)).
  replace (-1 * IZR (v_1 h) * (IZR t1 / IZR d) + -1 * IZR (v_2 h) * (IZR t2 / IZR d) + -1 * IZR (v_3 h) * (IZR t3 / IZR d)) with (- u) by (unfold u; ring).
  replace (2 * PI * - u) with (- (2 * PI * u)) by ring. rewrite cos_neg, sin_neg, Ropp_involutive. reflexivity.
Qed.
Lemma present_opp : forall ts h, present ts (z_opp_v h) <-> present ts h.
Proof.
  assert (A : forall ts h, present ts h -> present ts (z_opp_v h)).
  { intros ts h P t Ht. destruct (P t Ht) as [n E]. exists (- n)%Z. rewrite opp_IZR, <- E. unfold hdot, sum3, z_opp_v. cbn [vget v_1 v_2 v_3]. rewrite !mult_IZR. ring. }
  intros ts h. split; [|apply A]. intros P. apply A in P. replace h with (z_opp_v (z_opp_v h)); [exact P|]. destruct h as [x1 x2 x3]. unfold z_opp_v. cbn [v_1 v_2 v_3]. f_equal; ring.
Qed.
Lemma flag_present : forall h ts, symmetry_group (map translation_op ts) -> (centring_flag h ts = true <-> present ts h).
Proof.
  intros h ts G. unfold centring_flag. rewrite centring_S. rewrite <- present_opp. generalize (z_opp_v h) as k. intros k. pose proof (ts_len ts G) as N.
  destruct (present_dec ts k) as [P|(t & Ht & Nt)].
  - assert (E : S k ts = RtoC (INR (length ts))).
    { unfold S. rewrite (csum_const _ _ (RtoC 1)) by (intros t Ht; destruct (P t Ht) as [n ->]; apply phase_int). ring. }
    rewrite E, Cmod_R. assert (1 <= INR (length ts)) by (destruct ts as [|t ts]; [cbn in N; lra|]; change 1 with (INR 1); apply le_INR; cbn [length]; lia).
    rewrite Rabs_pos_eq by lra. destruct (Rlt_dec (1 / 100000) (INR (length ts))); [split; auto|lra].
  - assert (E : S k ts = RtoC 0).
    { pose proof (pr3_absent k ts t G Ht Nt) as Z0. rewrite pr3_phase in Z0 by (apply ts_pos; exact G). rewrite cdiv_scal in Z0. fold (S k ts) in Z0.
      rewrite <- (Cmult_1_l (S k ts)), <- (Cinv_r (RtoC (INR (length ts)))), <- Cmult_assoc, Z0; [ring|]. intros E; injection E as E; exact (N E). }
    rewrite E, Cmod_0. destruct (Rlt_dec (1 / 100000) 0); [lra|]. split; [discriminate|]. intros P. destruct (P t Ht) as [n0 En]. exfalso. exact (Nt n0 En).
Qed.

(* ---- the largest key ---- *)
Lemma key_fold : forall r m0, let m := fold_left (fun m y => if (key m <=? key y)%Z then y else m) r m0 in
  In m (m0 :: r) /\ forall y, In y (m0 :: r) -> (key y <= key m)%Z.
Proof.
  induction r as [|x r IH]; intros m0; cbn [fold_left]; cbv zeta.
  - split; [left; reflexivity|]. intros y [<-|[]]. lia.
  - destruct (IH (if (key m0 <=? key x)%Z then x else m0)) as [A B]. cbv zeta in A, B. destruct (Z.leb_spec (key m0) (key x)) as [L|L].
    + split; [right; exact A|]. intros y [<-|Hy]; [|apply B; exact Hy]. specialize (B x (or_introl eq_refl)). lia.
    + split; [destruct A as [A|A]; [left; exact A|right; right; exact A]|]. intros y [<-|[<-|Hy]].
      * apply B. left. reflexivity.
      * specialize (B m0 (or_introl eq_refl)). lia.
      * apply B. right. exact Hy.
Qed.
Lemma last_spec : forall l, l <> [] -> In (last_by_key l) l /\ forall y, In y l -> (key y <= key (last_by_key l))%Z.
Proof. intros [|x r] H; [congruence|]. apply (key_fold r x). Qed.
Lemma half_box_in : forall a b c h, In h (half_box a b c) <-> (0 <= v_1 h <= a /\ Z.abs (v_2 h) <= b /\ Z.abs (v_3 h) <= c)%Z.
Proof.
  intros a b c [h k l]. unfold half_box. rewrite in_flat_map. cbn [v_1 v_2 v_3]. split.
  - intros (x & Hx & H). apply in_flat_map in H as (y & Hy & H). apply in_map_iff in H as (z & E & Hz). injection E as -> -> ->.
    apply in_map_iff in Hx as (n & <- & Hn). apply in_seq in Hn. apply arange_sym_in in Hy, Hz. lia.
  - intros (A & B & D). exists h. split.
    + apply in_map_iff. exists (Z.to_nat h). split; [lia|]. apply in_seq. lia.
    + apply in_flat_map. exists k. split; [now apply arange_sym_in|]. apply in_map. now apply arange_sym_in.
Qed.

Section Main.
Variables (cell : U6 R) (red : list Op) (ts : list (V3 Z * Z)) (smin smax : R).
Let uc := get_unit_cell_parameters cell.
Hypothesis N : nondegenerate uc.
Hypothesis G : rotation_group red true.
Hypothesis M : forall e, In e red -> metric_invariant uc e.
Hypothesis T : centring_group ts red.
Definition eqs (h : V3 Z) : list (V3 Z) := map (hkl_r h) red ++ map z_opp_v (map (hkl_r h) red).
Lemma eqs_in : forall h g, In g (eqs h) <-> equivalent red true h g.
Proof. intros h g. rewrite <- eqv_members. reflexivity. Qed.
Definition krep (h : V3 Z) : V3 Z := last_by_key (eqs h).
Definition ksize (h : V3 Z) : nat := length (fold_right insert_hkl [] (eqs h)).
Lemma krep_eqv : forall h, equivalent red true h (krep h).
Proof.
  intros h. apply eqs_in. apply last_spec. intros E. pose proof (proj2 (eqs_in h h) (eqv_refl red true G h)) as H. rewrite E in H. destruct H.
Qed.
Lemma krep_max : forall h g, equivalent red true h g -> (key g <= key (krep h))%Z.
Proof. intros h g H. apply eqs_in in H. apply last_spec; [|exact H]. intros E. rewrite E in H. destruct H. Qed.
Lemma ksize_eqv : forall h g, equivalent red true h g -> ksize h = ksize g.
Proof.
  intros h g H. unfold ksize. f_equal. apply sorted_ext; [apply uniq_sorted|apply uniq_sorted|]. intros x. rewrite !uniq_in, !eqs_in. split; intros K.
  - eapply eqv_trans; [exact G|apply eqv_sym; [exact G|exact H]|exact K].
  - eapply eqv_trans; eassumption.
Qed.
Lemma step_in : forall b acc, let l := fold_left (hkl_step red ts) b acc in
  (forall q, In q acc -> In q l) /\
  (forall g m, In (g, m) l -> In (g, m) acc \/ exists h, In h b /\ present ts h /\ g = krep h /\ m = ksize h) /\
  (forall h, In h b -> present ts h -> exists m, In (krep h, m) l) /\
  (NoDup (map fst acc) -> NoDup (map fst l)).
Proof.
  induction b as [|h b IH]; intros acc; cbv zeta; cbn [fold_left].
  - repeat split; auto. intros h [].
  - destruct (IH (hkl_step red ts acc h)) as (A & B & C1 & D). cbv zeta in A, B, C1, D.
    assert (St : (forall q, In q acc -> In q (hkl_step red ts acc h)) /\
      (forall g m, In (g, m) (hkl_step red ts acc h) -> In (g, m) acc \/ (present ts h /\ g = krep h /\ m = ksize h)) /\
      (present ts h -> exists m, In (krep h, m) (hkl_step red ts acc h)) /\ (NoDup (map fst acc) -> NoDup (map fst (hkl_step red ts acc h)))).
    { unfold hkl_step. cbv zeta. fold (eqs h). fold (krep h). fold (ksize h). destruct (centring_flag h ts) eqn:F.
      - pose proof (proj1 (flag_present h ts (proj1 T)) F) as P. destruct (existsb (fun q => hkl_eqb (krep h) (fst q)) acc) eqn:X.
        + apply existsb_exists in X as ([g m] & Hq & E). apply hkl_eqb_eq in E. cbn [fst] in E. subst g. repeat split; auto. intros _. exists m. exact Hq.
        + repeat split.
          * intros q Hq. apply in_or_app. now left.
          * intros g m Hq. apply in_app_or in Hq as [Hq|[E|[]]]; [now left|]. right. injection E as <- <-. auto.
          * intros _. exists (ksize h). apply in_or_app. right. now left.
          * intros Nd. rewrite map_app. cbn [map fst]. apply NoDup_app_intro; [exact Nd|repeat constructor; intros []|].
            intros x Hx [<-|[]]. apply in_map_iff in Hx as ([g m] & E & Hq). cbn [fst] in E. subst g.
            assert (existsb (fun q => hkl_eqb (krep h) (fst q)) acc = true) by (apply existsb_exists; exists (krep h, m); split; [exact Hq|now apply hkl_eqb_eq]). congruence.
      - repeat split; auto. intros P. apply (flag_present h ts (proj1 T)) in P. congruence. }
    destruct St as (SA & SB & SC & SD). repeat split.
    + intros q Hq. apply A, SA, Hq.
    + intros g m Hq. destruct (B g m Hq) as [K|(h' & Hh & P & E1 & E2)].
      * destruct (SB g m K) as [K'|(P & E1 & E2)]; [now left|]. right. exists h. repeat split; auto. now left.
      * right. exists h'. repeat split; auto. now right.
    + intros h' [<-|Hh] P; [|now apply C1]. destruct (SC P) as [m Hm]. exists m. now apply A.
    + intros Nd. apply D, SD, Nd.
Qed.
Definition s_c (h : V3 Z) : R := calc_sthovl (hkl_real h) uc.
Definition kout := cell_calc_hkl cell red ts smin smax.
Definition kbox := half_box (py_int (2 * u_a cell * smax)) (py_int (2 * u_b cell * smax)) (py_int (2 * u_c cell * smax)).
Lemma s_cell : forall h, cell_sthovl cell (hkl_real h) = s_c h.
Proof. intros h. unfold s_c. apply sthovl_agrees. Qed.
Lemma kout_in : forall g m, In (g, m) kout <-> In (g, m) (fold_left (hkl_step red ts) kbox []) /\ smin < s_c g < smax.
Proof.
  intros g m. unfold kout, cell_calc_hkl. cbv zeta. fold kbox. rewrite filter_In. cbn [fst]. rewrite s_cell, andb_true_iff. unfold rlt.
  assert (P : forall x, In x (sort_by (fun q : V3 Z * nat => cell_sthovl cell (hkl_real (fst q))) (fold_left (hkl_step red ts) kbox [])) <-> In x (fold_left (hkl_step red ts) kbox [])).
  { intros x. split; apply Permutation_in; [|apply Permutation_sym]; apply sort_by_perm. }
  rewrite P. destruct (Rlt_dec smin (s_c g)), (Rlt_dec (s_c g) smax); split; intros H; try (exfalso; destruct H as [? [? ?]]; discriminate || lra); destruct H as [H [? ?]]; auto; try lra; try discriminate.
Qed.
Lemma kbox_in : forall h, s_c h <= smax -> (0 <= v_1 h)%Z -> In h kbox.
Proof.
  intros h Sh H0. apply half_box_in. pose proof (in_box uc h smax N Sh) as B. apply box_in in B. unfold uc, get_unit_cell_parameters in B. cbn [u_a u_b u_c] in B. lia.
Qed.
Lemma kfrom : forall g m, In (g, m) (fold_left (hkl_step red ts) kbox []) -> exists h, In h kbox /\ present ts h /\ g = krep h /\ m = ksize h.
Proof. intros g m H. destruct (step_in kbox []) as (_ & B & _). destruct (B g m H) as [[]|K]. exact K. Qed.
Theorem kout_range : forall g m, In (g, m) kout -> smin < s_c g < smax /\ present ts g.
Proof.
  intros g m H. apply kout_in in H as [H S0]. split; [exact S0|]. apply kfrom in H as (h & _ & P & -> & _).
  eapply present_eqv1; [exact T|apply krep_eqv|exact P].
Qed.
Theorem kout_sorted : StronglySorted (fun a b => s_c (fst a) <= s_c (fst b)) kout.
Proof.
  apply filter_sorted. pose proof (sort_by_sorted _ (fun q : V3 Z * nat => cell_sthovl cell (hkl_real (fst q))) (fold_left (hkl_step red ts) kbox [])) as S0.
  cbv beta in S0. fold kbox. revert S0. generalize (sort_by (fun q : V3 Z * nat => cell_sthovl cell (hkl_real (fst q))) (fold_left (hkl_step red ts) kbox [])) as l.
  intros l S0. induction S0 as [|a l S0 IH F]; constructor; [exact IH|]. eapply Forall_impl; [|exact F]. intros b. cbn beta. rewrite !s_cell. auto.
Qed.
Lemma opp_eqv : forall h, equivalent red true h (z_opp_v h).
Proof.
  intros h. pose proof (eqv_refl red true G h) as E. apply eqs_in in E. apply eqs_in. unfold eqs in *. apply in_or_app. apply in_app_or in E as [E|E].
  - right. apply in_map. exact E.
  - left. apply in_map_iff in E as (x & E & Hx). replace (z_opp_v h) with x; [exact Hx|]. rewrite <- E. clear; destruct x as [x1 x2 x3]. unfold z_opp_v. cbn [v_1 v_2 v_3]. f_equal; ring.
Qed.
Theorem kout_complete : forall h, smin < s_c h < smax -> present ts h -> exists g m, In (g, m) kout /\ equivalent red true h g.
Proof.
  intros h Sh P.
  assert (K : exists k, equivalent red true h k /\ (0 <= v_1 k)%Z).
  { destruct (Z.le_gt_cases 0 (v_1 h)) as [L|L]; [exists h; split; [apply eqv_refl; exact G|exact L]|].
    exists (z_opp_v h). split; [apply opp_eqv|]. unfold z_opp_v. cbn [v_1]. lia. }
  destruct K as (k & Ek & Hk). assert (Sk : s_c k = s_c h) by (apply (eqv_s uc red true N M h k Ek)).
  destruct (step_in kbox []) as (_ & _ & C1 & _). destruct (C1 k) as [m Hm]; [apply kbox_in; [lra|exact Hk]|eapply present_eqv1; eassumption|].
  assert (E : equivalent red true h (krep k)) by (eapply eqv_trans; [exact G|exact Ek|apply krep_eqv]).
  exists (krep k), m. split; [|exact E]. apply kout_in. split; [exact Hm|]. rewrite <- (eqv_s uc red true N M h (krep k) E : s_c _ = s_c h) in Sh. exact Sh.
Qed.
Theorem kout_size : forall g m, In (g, m) kout -> exists cls, NoDup cls /\ (forall x, In x cls <-> equivalent red true g x) /\ length cls = m.
Proof.
  intros g m H. apply kout_in in H as [H _]. apply kfrom in H as (h & _ & _ & -> & ->). exists (fold_right insert_hkl [] (eqs (krep h))).
  split; [apply uniq_nodup|]. split; [intros x; rewrite uniq_in; apply eqs_in|]. apply (ksize_eqv (krep h) h). apply eqv_sym; [exact G|apply krep_eqv].
Qed.
Lemma kout_nodup : NoDup (map fst kout).
Proof.
  destruct (step_in kbox []) as (_ & _ & _ & D). unfold kout, cell_calc_hkl. cbv zeta. fold kbox. apply nodup_map_filter.
  eapply Permutation_NoDup; [apply Permutation_map, Permutation_sym, sort_by_perm|]. apply D. constructor.
Qed.
Hypothesis Hb : 2 * u_b cell * smax < 50.
Hypothesis Hc : 2 * u_c cell * smax < 50.
Lemma k_small : forall h, s_c h <= smax -> (Z.abs (v_2 h) < 50 /\ Z.abs (v_3 h) < 50)%Z.
Proof.
  intros h S0. unfold s_c, calc_sthovl in S0.
  assert (K : forall i, Rabs (IZR (vget h i)) <= 2 * u_len uc i * smax).
  { intros i. pose proof (index_bound uc (hkl_real h) i N) as B. replace (vget (hkl_real h) i) with (IZR (vget h i)) in B by (destruct i; reflexivity).
    assert (L : 0 < u_len uc i) by (destruct N as (La & Lb & Lc & _); destruct i; assumption). nra. }
  pose proof (K X2) as K2. pose proof (K X3) as K3. unfold uc, get_unit_cell_parameters in K2, K3. cbn [vget u_len u_b u_c] in K2, K3. rewrite <- abs_IZR in K2, K3.
  split; apply lt_IZR; lra.
Qed.
Lemma krep_same : forall h g, s_c h <= smax -> equivalent red true h g -> krep h = krep g.
Proof.
  intros h g Sh H. assert (Sg : s_c g <= smax) by (rewrite (eqv_s uc red true N M h g H : s_c g = s_c h); exact Sh).
  assert (Sr : s_c (krep h) <= smax) by (rewrite (eqv_s uc red true N M h _ (krep_eqv h) : s_c _ = s_c h); exact Sh).
  assert (Sq : s_c (krep g) <= smax) by (rewrite (eqv_s uc red true N M g _ (krep_eqv g) : s_c _ = s_c g); exact Sg).
  apply k_small in Sr, Sq.
  pose proof (krep_max h (krep g) (eqv_trans red true G h g (krep g) H (krep_eqv g))).
  pose proof (krep_max g (krep h) (eqv_trans red true G g h (krep h) (eqv_sym red true G h g H) (krep_eqv h))).
  revert Sr Sq H0 H1. generalize (krep h) (krep g). intros [a1 a2 a3] [b1 b2 b3]. unfold key. cbn [v_1 v_2 v_3]. intros. assert (a3 = b3) by lia. assert (a2 = b2) by lia. assert (a1 = b1) by lia. congruence.
Qed.
Theorem kout_distinct : ForallOrdPairs (fun a b => ~ equivalent red true (fst a) (fst b)) kout.
Proof.
  apply (nodup_fop _ _ fst _ kout kout_nodup). intros [a m] [b n] Ha Hb' Nab E. cbn [fst] in *. apply Nab.
  apply kout_in in Ha as [Ha Sa]. apply kout_in in Hb' as [Hb' Sb]. apply kfrom in Ha as (h & _ & _ & -> & _). apply kfrom in Hb' as (h' & _ & _ & -> & _).
  assert (Sh : s_c h <= smax) by (rewrite <- (eqv_s uc red true N M h _ (krep_eqv h) : s_c _ = s_c h); lra).
  apply krep_same; [exact Sh|]. eapply eqv_trans; [exact G|apply krep_eqv|]. eapply eqv_trans; [exact G|exact E|]. apply eqv_sym; [exact G|apply krep_eqv].
Qed.
End Main.
