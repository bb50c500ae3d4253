From Coq Require Import Reals ZArith List Bool Lra Lia Permutation Sorting.Sorted.
From Coquelicot Require Import Complex.
From Verif Require Import Spec.Lin3 Spec.Cell Spec.Symm Spec.Scatter Spec.HklSpec Model.UnitCell Model.Symmetry Model.StructFactor Model.HklList
  Proofs.UnitCellP Proofs.SymmBaseP Proofs.SymmGroupP Proofs.SymmExP Proofs.ScatterP Proofs.StructFactorP Proofs.StructFactorP2 Proofs.HklListP.
Import ListNotations.
Open Scope list_scope.
Open Scope R_scope.

(* ---- centring ---- *)
Lemma act_tr : forall t x i, act (translation_op t) x i = x i + frac (fst t) (snd t) i.
Proof. intros t x i. unfold act, translation_op, frac, sum3. cbn [e_r e_b e_d]. destruct i; cbn [mget m_11 m_12 m_13 m_21 m_22 m_23 m_31 m_32 m_33]; ring. Qed.
Lemma hdot_tr : forall h t x, hdot h (act (translation_op t) x) = hdot h x + hdot h (frac (fst t) (snd t)).
Proof. intros. rewrite <- hdot_add. apply hdot_ext. intros i. apply act_tr. Qed.
Lemma ts_pos : forall ts, symmetry_group (map translation_op ts) -> forall t, In t ts -> (0 < snd t)%Z.
Proof. intros ts (Hd & _) t Ht. apply (Hd (translation_op t)). apply in_map. exact Ht. Qed.
Lemma ts_len : forall ts, symmetry_group (map translation_op ts) -> INR (length ts) <> 0.
Proof.
  intros ts (_ & (e & He & _) & _) E. apply (INR_eq _ 0) in E. destruct ts; [destruct He|discriminate].
Qed.
Definition S (h : V3 Z) (ts : list (V3 Z * Z)) : C := csum (map (fun t => phase (hdot h (frac (fst t) (snd t)))) ts).
Lemma S_shift : forall h ts t, symmetry_group (map translation_op ts) -> In t ts ->
  S h ts = Cmult (phase (hdot h (frac (fst t) (snd t)))) (S h ts).
Proof.
  intros h ts t G Ht. set (z := fun _ : ix => 0).
  assert (E : S h ts = csum (map (fun e => phase (hdot h (act e z))) (map translation_op ts))).
  { unfold S. rewrite map_map. apply csum_ext. intros u _. rewrite hdot_tr. unfold z. unfold hdot at 2, sum3. f_equal. ring. }
  rewrite E at 1. transitivity (csum (map (fun e => phase (hdot h (act (translation_op t) (act e z)))) (map translation_op ts))).
  - symmetry. apply (group_sum _ (translation_op t) (fun k => phase (hdot h (act k z))) G (in_map _ _ _ Ht)).
    + intros a b Eab. apply phase_same, Eab.
    + intros f k Hf Hk. symmetry. apply phase_same, Hk.
  - rewrite (csum_ext _ _ (fun e => Cmult (phase (hdot h (frac (fst t) (snd t)))) (phase (hdot h (act e z))))).
    + rewrite csum_scal, <- E. reflexivity.
    + intros e _. rewrite hdot_tr, phase_add. ring.
Qed.
Lemma present_dec : forall ts h, {present ts h} + {exists t, In t ts /\ forall n : Z, hdot h (frac (fst t) (snd t)) <> IZR n}.
Proof.
  intros ts h. destruct (forallb (fun t => intb (hdot h (frac (fst t) (snd t)))) ts) eqn:E.
  - left. intros t Ht. rewrite forallb_forall in E. apply intb_spec, E, Ht.
  - right. assert (N : existsb (fun t => negb (intb (hdot h (frac (fst t) (snd t))))) ts = true).
    { induction ts as [|t ts IH]; cbn in *; [discriminate|]. destruct (intb (hdot h (frac (fst t) (snd t)))); cbn in *; auto. }
    apply existsb_exists in N as (t & Ht & N). exists t. split; [exact Ht|]. intros n Hn. apply negb_true_iff in N.
    assert (T : intb (hdot h (frac (fst t) (snd t))) = true) by (apply intb_spec; exists n; exact Hn). congruence.
Qed.
Lemma pr3_present : forall h ts, symmetry_group (map translation_op ts) -> present ts h -> calc_pr3 h ts = RtoC 1.
Proof.
  intros h ts G P. rewrite pr3_phase by (apply ts_pos; exact G). rewrite cdiv_scal.
  rewrite (csum_const _ _ (RtoC 1)) by (intros t Ht; destruct (P t Ht) as [n ->]; apply phase_int).
  pose proof (ts_len ts G) as H.
  rewrite Cmult_assoc, (Cmult_comm (Cinv _)), Cinv_r by (intros E; injection E as E; exact (H E)). ring.
Qed.
Lemma pr3_absent : forall h ts t, symmetry_group (map translation_op ts) -> In t ts -> (forall n : Z, hdot h (frac (fst t) (snd t)) <> IZR n) ->
  calc_pr3 h ts = RtoC 0.
Proof.
  intros h ts t G Ht N. rewrite pr3_phase by (apply ts_pos; exact G). rewrite cdiv_scal. pose proof (S_shift h ts t G Ht) as E.
  fold (S h ts). assert (P : phase (hdot h (frac (fst t) (snd t))) <> RtoC 1).
  { intros P. apply phase_one_int in P as [n P]. exact (N n P). }
  assert (Z0 : Cmult (S h ts) (Cminus (phase (hdot h (frac (fst t) (snd t)))) (RtoC 1)) = RtoC 0).
  { transitivity (Cminus (Cmult (phase (hdot h (frac (fst t) (snd t)))) (S h ts)) (S h ts)); [ring|]. rewrite <- E. ring. }
  destruct (Ceq_dec (S h ts) (RtoC 0)) as [Q|NF]; [rewrite Q; ring|exfalso].
  set (D := Cminus (phase (hdot h (frac (fst t) (snd t)))) (RtoC 1)) in *.
  assert (D0 : D = RtoC 0) by (rewrite <- (Cmult_1_l D), <- (Cinv_l (S h ts) NF), <- Cmult_assoc, Z0; ring).
  apply P. rewrite <- (Cplus_0_l (RtoC 1)), <- D0. unfold D. ring.
Qed.
Lemma close_present : forall h ts, symmetry_group (map translation_op ts) -> (negb (close_to_0 (calc_pr3 h ts)) = true <-> present ts h).
Proof.
  intros h ts G. destruct (present_dec ts h) as [P|(t & Ht & N)].
  - rewrite pr3_present by assumption. unfold close_to_0. rewrite Cmod_R, Rabs_R1. destruct (Rle_dec 1 (1 / 100000000)); [lra|]. split; auto.
  - rewrite (pr3_absent h ts t G Ht N). unfold close_to_0. rewrite Cmod_0. destruct (Rle_dec 0 (1 / 100000000)); [|lra]. split; [discriminate|].
    intros P. destruct (P t Ht) as [n E]. exfalso. exact (N n E).
Qed.

Section Main.
Variables (uc : U6 R) (red : list Op) (c : bool) (ts : list (V3 Z * Z)) (smin smax : R).
Hypothesis N : nondegenerate uc.
Hypothesis G : rotation_group red c.
Hypothesis M : forall e, In e red -> metric_invariant uc e.
Hypothesis T : centring_group ts red.
Hypothesis Hb : 2 * u_b uc * smax < 500.
Hypothesis Hc : 2 * u_c uc * smax < 500.
Definition s_of (h : V3 Z) : R := calc_sthovl (hkl_real h) uc.
Lemma eqv_s : forall h g, equivalent red c h g -> s_of g = s_of h.
Proof.
  intros h g H. apply eqv_members in H. unfold s_of, calc_sthovl. rewrite !hkl_real_vR. rewrite (equivalent_d h red c uc N M g H). reflexivity.
Qed.
Lemma hdot_zrow : forall h g e s x, (forall i, vget g i = (s * zrow h (e_r e) i)%Z) ->
  hdot g x = IZR s * hdot h (fun i => sum3 (fun j => IZR (mget (e_r e) i j) * x j)).
Proof. intros h g e s x H. unfold hdot, sum3. rewrite !H. unfold zrow. rewrite !mult_IZR, !plus_IZR, !mult_IZR. ring. Qed.
Lemma hdot3 : forall h x, hdot h x = IZR (vget h X1) * x X1 + IZR (vget h X2) * x X2 + IZR (vget h X3) * x X3.
Proof. reflexivity. Qed.
Lemma present_eqv1 : forall h g, equivalent red c h g -> present ts h -> present ts g.
Proof.
  intros h g H P t Ht. apply eqv_iff in H as (e & s & He & _ & H). rewrite (hdot_zrow h g e s _ H).
  destruct T as [_ T']. destruct (T' e t He Ht) as (t' & Ht' & E). destruct (P t' Ht') as [n En].
  destruct (E X1) as [n1 E1], (E X2) as [n2 E2], (E X3) as [n3 E3].
  exists (s * (n + (vget h X1 * n1 + vget h X2 * n2 + vget h X3 * n3)))%Z. rewrite mult_IZR, !plus_IZR, !mult_IZR, <- En.
  f_equal. rewrite !hdot3. rewrite E1, E2, E3. ring.
Qed.
Lemma present_eqv : forall h g, equivalent red c h g -> (present ts h <-> present ts g).
Proof. intros h g H. split; apply present_eqv1; [exact H|apply eqv_sym; assumption]. Qed.
Lemma in_small : forall h, s_of h <= smax -> small h.
Proof.
  intros h S0. unfold s_of, calc_sthovl in S0.
  assert (K : forall i, Rabs (IZR (vget h i)) <= 2 * u_len uc i * smax).
  { intros i. pose proof (index_bound uc (hkl_real h) i N) as B. replace (vget (hkl_real h) i) with (IZR (vget h i)) in B by (destruct i; reflexivity).
    assert (L : 0 < u_len uc i) by (destruct N as (La & Lb & Lc & _); destruct i; assumption). nra. }
  pose proof (K X2) as K2. pose proof (K X3) as K3. cbn [vget u_len] in K2, K3. rewrite <- abs_IZR in K2, K3.
  split; apply lt_IZR; lra.
Qed.
Definition rep (h : V3 Z) : V3 Z := largest (calc_equivalent_reflections h red c).
Lemma rep_eqv : forall h, equivalent red c h (rep h).
Proof.
  intros h. apply eqv_members. apply largest_spec. intros E. pose proof (proj2 (eqv_members h red c h) (eqv_refl red c G h)) as H. rewrite E in H. destruct H.
Qed.
Lemma rep_max : forall h g, equivalent red c h g -> (label g <= label (rep h))%Z.
Proof.
  intros h g H. apply eqv_members in H. apply largest_spec; [|exact H]. intros E. rewrite E in H. destruct H.
Qed.
Lemma rep_same : forall h g, s_of h <= smax -> equivalent red c h g -> rep h = rep g.
Proof.
  intros h g Sh H. apply label_inj.
  - apply in_small. rewrite (eqv_s h); [exact Sh|apply rep_eqv].
  - apply in_small. rewrite (eqv_s g); [rewrite (eqv_s h g H); exact Sh|apply rep_eqv].
  - pose proof (rep_max h (rep g) (eqv_trans red c G h g (rep g) H (rep_eqv g))).
    pose proof (rep_max g (rep h) (eqv_trans red c G g h (rep h) (eqv_sym red c G h g H) (rep_eqv h))). lia.
Qed.
Lemma rep_unique : forall h g, s_of h <= smax -> rep h = rep g -> equivalent red c h g.
Proof. intros h g _ E. apply (eqv_trans red c G h (rep h)); [apply rep_eqv|]. rewrite E. apply eqv_sym; [exact G|apply rep_eqv]. Qed.
Definition box := hkl_box (py_int (2 * u_a uc * smax)) (py_int (2 * u_b uc * smax)) (py_int (2 * u_c uc * smax)).
Definition out := calc_index_hkl_multiplicity_in_range smin smax uc red ts c.
Lemma out_in : forall g m, In (g, m) out <-> (smin <= s_of g <= smax /\ present ts g /\ (exists h, In h box /\ rep h = g) /\ m = length (filter (hkl_eqb g) (map rep box))).
Proof.
  intros g m. unfold out, calc_index_hkl_multiplicity_in_range. cbv zeta. rewrite filter_In.
  assert (P : forall x, In x (sort_by (fun q : V3 Z * nat => calc_sthovl (hkl_real (fst q)) uc) (filter (fun q => negb (close_to_0 (calc_pr3 (fst q) ts))) (unique_hkl (map rep box))))
     <-> In x (filter (fun q => negb (close_to_0 (calc_pr3 (fst q) ts))) (unique_hkl (map rep box)))).
  { intros x. split; apply Permutation_in; [|apply Permutation_sym]; apply sort_by_perm. }
  unfold box, rep in P. rewrite P. fold rep. fold box. rewrite filter_In. cbn [fst]. rewrite unique_in, close_present by apply T. rewrite in_map_iff.
  rewrite andb_true_iff. unfold rle. fold (s_of g). destruct (Rle_dec smin (s_of g)), (Rle_dec (s_of g) smax); split; intros H; try (exfalso; destruct H as [? [? ?]]; discriminate).
  - destruct H as [[[(h & Eh & Hh) E] Pr] _]. repeat split; auto. exists h. auto.
  - destruct H as (_ & Pr & (h & Hh & Eh) & E). repeat split; auto. exists h. auto.
  - destruct H as (Hr & _). lra.
  - destruct H as (Hr & _). lra.
  - destruct H as (Hr & _). lra.
Qed.
Theorem out_range : forall g m, In (g, m) out -> smin <= s_of g <= smax /\ present ts g.
Proof. intros g m H. apply out_in in H. tauto. Qed.
Theorem out_sorted : StronglySorted (fun a b => s_of (fst a) <= s_of (fst b)) out.
Proof. apply filter_sorted. apply (sort_by_sorted _ (fun q : V3 Z * nat => calc_sthovl (hkl_real (fst q)) uc)). Qed.
Theorem out_complete : forall h, smin <= s_of h <= smax -> present ts h -> exists g m, In (g, m) out /\ equivalent red c h g.
Proof.
  intros h Sh P. exists (rep h), (length (filter (hkl_eqb (rep h)) (map rep box))). split; [|apply rep_eqv]. apply out_in.
  rewrite (eqv_s h (rep h) (rep_eqv h)). split; [exact Sh|]. split; [apply (present_eqv1 h); [apply rep_eqv|exact P]|]. split; [|reflexivity].
  exists h. split; [|reflexivity]. apply in_box; [exact N|apply Sh].
Qed.
Lemma nodup_map_filter : forall A B (f : A -> B) p l, NoDup (map f l) -> NoDup (map f (filter p l)).
Proof.
  intros A B f p l. induction l as [|x l IH]; cbn; intros H; [constructor|]. inversion H; subst. destruct (p x); cbn; auto. constructor; auto.
  intros K. apply H2. apply in_map_iff in K as (y & E & Hy). apply filter_In in Hy. apply in_map_iff. exists y. tauto.
Qed.
Lemma out_nodup : NoDup (map fst out).
Proof.
  unfold out, calc_index_hkl_multiplicity_in_range. cbv zeta. apply nodup_map_filter.
  eapply Permutation_NoDup; [apply Permutation_map, Permutation_sym, sort_by_perm|]. apply nodup_map_filter. apply unique_nodup.
Qed.
Lemma nodup_fop : forall A B (f : A -> B) (P : A -> A -> Prop) l, NoDup (map f l) -> (forall a b, In a l -> In b l -> f a <> f b -> P a b) -> ForallOrdPairs P l.
Proof.
  intros A B f P l. induction l as [|x l IH]; cbn; intros H K; constructor; inversion H; subst.
  - apply Forall_forall. intros y Hy. apply K; auto. intros E. apply H2. rewrite E. apply in_map. exact Hy.
  - apply IH; auto.
Qed.
Theorem out_distinct : ForallOrdPairs (fun a b => ~ equivalent red c (fst a) (fst b)) out.
Proof.
  apply (nodup_fop _ _ fst); [apply out_nodup|]. intros [a ma] [b mb] Ha Hb' Nab E. cbn [fst] in *. apply Nab.
  apply out_in in Ha as (Sa & _ & (x & Hx & Ex) & _). apply out_in in Hb' as (Sb & _ & (y & Hy & Ey) & _).
  assert (Sx : s_of x <= smax) by (rewrite <- (eqv_s x (rep x) (rep_eqv x)), Ex; apply Sa).
  rewrite <- Ex, <- Ey. apply rep_same; [exact Sx|]. apply (eqv_trans red c G x (rep x)); [apply rep_eqv|]. rewrite Ex.
  apply (eqv_trans red c G a b); [exact E|]. rewrite <- Ey. apply eqv_sym; [exact G|apply rep_eqv].
Qed.
Lemma filter_map_len : forall A B (f : A -> B) p l, length (filter p (map f l)) = length (filter (fun x => p (f x)) l).
Proof. intros A B f p l. induction l as [|x l IH]; cbn; [reflexivity|]. destruct (p (f x)); cbn; rewrite IH; reflexivity. Qed.
Theorem out_multiplicity : forall g m, In (g, m) out -> exists cls, NoDup cls /\ (forall x, In x cls <-> equivalent red c g x) /\ length cls = m.
Proof.
  intros g m H. apply out_in in H as (Sg & _ & (h & Hh & Eh) & ->). exists (filter (fun x => hkl_eqb g (rep x)) box). split.
  - apply NoDup_filter. apply box_nodup.
  - split; [|symmetry; apply filter_map_len]. intros x. rewrite filter_In, hkl_eqb_eq. subst g. split.
    + intros [_ E]. rewrite E. apply eqv_sym; [exact G|apply rep_eqv].
    + intros E. assert (Ex : equivalent red c x h). { apply eqv_sym; [exact G|]. apply (eqv_trans red c G h (rep h)); [apply rep_eqv|exact E]. }
      assert (Sx : s_of x <= smax) by (rewrite (eqv_s _ _ E); apply Sg). split; [apply in_box; [exact N|exact Sx]|]. symmetry. apply rep_same; assumption.
Qed.
End Main.
