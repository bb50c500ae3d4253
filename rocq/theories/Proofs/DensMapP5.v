(** Maps of the whole cell, their totals, the list in P1 (C102). *)
From Coq Require Import Reals ZArith List Lra Lia Bool Sorted Permutation.
From Verif Require Import Spec.Lin3 Spec.Symm Spec.DensityMap Model.MatrixOps Model.Symmetry Model.Matrices Model.DensityMaps
  Proofs.SymmBaseP Proofs.SymmGridP Proofs.SymmGroupP Proofs.DensMapP Proofs.DensMapP2 Proofs.DensMapP3 Proofs.DensMapP4.
Import ListNotations.
Open Scope list_scope.
Open Scope Z_scope.

Lemma lex_of_seq : forall n, StronglySorted lex_lt (grid_points n).
Proof.
  intros n. unfold grid_points.
  assert (Ar : forall k, StronglySorted Z.lt (arange k)).
  { intros k. unfold arange. generalize 0%nat as s. induction (Z.to_nat k) as [|m IH]; intros s; cbn [seq map]; constructor; [apply IH|].
    rewrite Forall_forall. intros x H. apply in_map_iff in H. destruct H as (y & <- & H). apply in_seq in H. lia. }
  assert (App : forall a b : list (V3 Z), StronglySorted lex_lt a -> StronglySorted lex_lt b -> (forall x y, In x a -> In y b -> lex_lt x y) -> StronglySorted lex_lt (a ++ b)).
  { intros a b Sa Sb H. induction Sa as [|x a Sa IH F]; [exact Sb|]. cbn [app]. constructor; [apply IH; intros; apply H; [right|]; assumption|].
    rewrite Forall_forall in *. intros y Hy. apply in_app_iff in Hy. destruct Hy; [apply F; assumption|apply H; [left; reflexivity|assumption]]. }
  assert (Fl : forall (f : Z -> list (V3 Z)) ks, StronglySorted Z.lt ks -> (forall k, StronglySorted lex_lt (f k)) ->
    (forall k k' x y, k < k' -> In x (f k) -> In y (f k') -> lex_lt x y) -> StronglySorted lex_lt (flat_map f ks)).
  { intros f ks Sk Sf H. induction Sk as [|k ks Sk IH F]; [constructor|]. cbn [flat_map]. apply App; [apply Sf|exact IH|].
    intros x y Hx Hy. apply in_flat_map in Hy. destruct Hy as (k' & Ik & Hy). rewrite Forall_forall in F. apply (H k k'); auto. }
  apply Fl; [apply Ar| |].
  - intros i. apply Fl; [apply Ar| |].
    + intros j. pose proof (Ar (v_3 n)) as S. induction S as [|k ks Sk IH F]; [constructor|]. cbn [map]. constructor; [exact IH|].
      rewrite Forall_forall in *. intros x Hx. apply in_map_iff in Hx. destruct Hx as (k' & <- & Ik). apply F in Ik. unfold lex_lt. cbn. lia.
    + intros j j' x y Hj Hx Hy. apply in_map_iff in Hx, Hy. destruct Hx as (k & <- & _), Hy as (k' & <- & _). unfold lex_lt. cbn. lia.
  - intros i i' x y Hi Hx Hy. apply in_flat_map in Hx, Hy. destruct Hx as (j & _ & Hx), Hy as (j' & _ & Hy).
    apply in_map_iff in Hx, Hy. destruct Hx as (k & <- & _), Hy as (k' & <- & _). unfold lex_lt. cbn. lia.
Qed.

Lemma fop_nth : forall (X : Type) (R : X -> X -> Prop) (L : list X), (forall i j x y, (i < j)%nat -> nth_error L i = Some x -> nth_error L j = Some y -> R x y) -> ForallOrdPairs R L.
Proof.
  intros X R L. induction L as [|x L IH]; intros H; [constructor|]. constructor.
  - rewrite Forall_forall. intros y Hy. apply In_nth_error in Hy. destruct Hy as [j Hj]. apply (H 0%nat (S j)); [lia|reflexivity|exact Hj].
  - apply IH. intros i j a b Hij Ha Hb. apply (H (S i) (S j)); [lia|exact Ha|exact Hb].
Qed.
Section Whole.
  Variables (n : V3 Z) (l : list Op) (cells : list (V3 Z * nat)).
  Hypothesis Hn : forall i, 0 < vget n i.
  Hypothesis Hg : symmetry_group l.
  Hypothesis Hc : forall e, In e l -> grid_compatible n e.
  Hypothesis HA : calc_asymmetric_unit_cell_indexes n l = Some cells.
  Lemma rows_fop : forall (A : Type) (dens : list A), ForallOrdPairs (fun a b => ~ grid_equivalent n l (fst a) (fst b)) (combine (map fst cells) dens).
  Proof.
    intros A dens. apply fop_nth. intros i j [p d] [q d'] Hij Ei Ej K. cbn [fst] in K. apply nth_error_combine in Ei, Ej. destruct Ei as [Ei _], Ej as [Ej _].
    rewrite nth_error_map in Ei, Ej. destruct (nth_error cells i) as [[r c]|] eqn:E1; [|discriminate]. destruct (nth_error cells j) as [[r' c']|] eqn:E2; [|discriminate].
    inversion Ei; inversion Ej; subst. pose proof (cells_unique n l cells Hn Hg Hc HA _ _ _ _ _ _ _ E1 E2 K (ge_refl n l Hg q)). lia.
  Qed.
  Lemma in_rows : forall (A : Type) (dens : list A) k r c d, nth_error cells k = Some (r, c) -> nth_error dens k = Some d -> In (r, d) (combine (map fst cells) dens).
  Proof.
    intros A dens k r c d E1 E2. apply (nth_error_In _ k). apply nth_error_combine. split; [rewrite nth_error_map, E1; reflexivity|exact E2].
  Qed.
  Lemma density_whole : forall dens k r c d q, nth_error cells k = Some (r, c) -> nth_error dens k = Some d -> in_grid n q -> grid_equivalent n l r q ->
    transfer_to_density_3d (combine (map fst cells) dens) n l q = d.
  Proof.
    intros dens k r c d q E1 E2 G E. apply (proj1 (density_rows n l Hn Hg Hc _ q G (rows_fop R dens)) r d); [eapply in_rows; eassumption|exact E].
  Qed.
  Lemma density_total : forall dens pts, length dens = length cells -> is_grid n pts ->
    total pts (transfer_to_density_3d (combine (map fst cells) dens) n l) = fold_right Rplus 0%R (map (fun x => INR (snd (fst x)) * snd x)%R (combine cells dens)).
  Proof.
    intros dens pts Len (ND & Hp). set (f := transfer_to_density_3d _ n l).
    assert (P : Permutation pts (grid_points n)). { apply NoDup_Permutation; [exact ND|apply grid_nodup|]. intros q. rewrite Hp, grid_in. reflexivity. }
    change (total pts f) with (msum Rplus 0%R f pts). rewrite (msum_perm Rplus 0%R Rplus_comm (fun a b c => eq_sym (Rplus_assoc a b c)) _ f _ _ P).
    rewrite (grid_sum n l cells Hn Hg Hc HA R Rplus 0%R Rplus_comm (fun a b c => eq_sym (Rplus_assoc a b c)) Rplus_0_l f).
    destruct (cells_spec n l cells Hn Hg Hc HA) as (A & _ & _).
    assert (K : forall k r c d, nth_error cells k = Some (r, c) -> nth_error dens k = Some d ->
      msum Rplus 0%R f (filter (fun q => min_value n l r =? min_value n l q) (grid_points n)) = (INR c * d)%R).
    { intros k r c d E1 E2. destruct (A r c (nth_error_In _ _ E1)) as (G & ->).
      assert (C : forall q, In q (filter (fun q => min_value n l r =? min_value n l q) (grid_points n)) -> f q = d).
      { intros q Hq. apply filter_In in Hq. destruct Hq as [Gq E]. apply grid_in in Gq. apply Z.eqb_eq in E. apply (min_value_iff n l Hn Hg Hc) in E.
        eapply density_whole; eassumption. }
      revert C. generalize (filter (fun q => min_value n l r =? min_value n l q) (grid_points n)) as L. clear. intros L. induction L as [|q L IH]; intros C.
      - cbn. lra.
      - change (msum Rplus 0%R f (q :: L)) with (f q + msum Rplus 0%R f L)%R. rewrite IH by (intros; apply C; right; assumption). rewrite (C q (or_introl eq_refl)).
        cbn [length]. rewrite S_INR. ring. }
    clearbody f. clear - K Len. unfold msum at 1. revert dens K Len. generalize cells as cs. induction cs as [|[r c] cs IH]; intros [|d dens] K Len; try discriminate; [reflexivity|].
    cbn [map combine fold_right fst snd]. f_equal; [apply (K 0%nat); reflexivity|]. apply IH; [|cbn in Len; lia]. intros k r' c' d' E1 E2. apply (K (S k) r' c' d'); assumption.
  Qed.
  Lemma chi_whole : forall chis k r c chi q e, nth_error cells k = Some (r, c) -> nth_error chis k = Some chi ->
    (forall f, In f l -> same_point (act f (grid_fract n r)) (grid_fract n r) -> forall i j, Symm.conj (rot_real f) (qget chi) i j = qget chi i j) ->
    in_grid n q -> In e l -> same_point (act e (grid_fract n r)) (grid_fract n q) ->
    forall i j, qget (transfer_to_chi_3d (combine (map fst cells) chis) n l q) i j = Symm.conj (rot_real e) (qget chi) i j.
  Proof.
    intros chis k r c chi q e E1 E2 Adm G Ie S i j. eapply (chi_rows n l Hn Hg Hc); [exact G|apply rows_fop|eapply in_rows; eassumption|exact Adm|exact Ie|exact S].
  Qed.
End Whole.

(** ** transform_density_point_to_p1 *)
Lemma decode : forall n, (forall i, 0 < vget n i) -> forall q, in_grid n q ->
  let k := value_index n q in
  k / (v_2 n * v_3 n) = v_1 q /\ (k - v_2 n * v_3 n * (k / (v_2 n * v_3 n))) / v_3 n = v_2 q /\ (k - v_2 n * v_3 n * (k / (v_2 n * v_3 n))) mod v_3 n = v_3 q.
Proof.
  intros n Hn q G. pose proof (Hn X1). pose proof (Hn X2). pose proof (Hn X3). pose proof (G X1). pose proof (G X2). pose proof (G X3). cbn [vget] in *.
  unfold value_index. cbv zeta.
  assert (A : (v_3 n * v_2 n * v_1 q + v_3 n * v_2 q + v_3 q) / (v_2 n * v_3 n) = v_1 q).
  { symmetry. apply Z.div_unique with (v_3 n * v_2 q + v_3 q); [left; nia|ring]. }
  rewrite A. replace (v_3 n * v_2 n * v_1 q + v_3 n * v_2 q + v_3 q - v_2 n * v_3 n * v_1 q) with (v_3 n * v_2 q + v_3 q) by ring.
  split; [reflexivity|]. split; symmetry; [apply Z.div_unique with (v_3 q)|apply Z.mod_unique with (v_2 q)]; try (left; lia); ring.
Qed.
Lemma sorted_eq : forall a b : list Z, StronglySorted Z.lt a -> StronglySorted Z.lt b -> (forall x, In x a <-> In x b) -> a = b.
Proof.
  intros a. induction a as [|x a IH]; intros b Sa Sb H.
  - destruct b as [|y b]; [reflexivity|]. exfalso. apply (proj2 (H y)). left. reflexivity.
  - destruct b as [|y b]; [exfalso; apply (proj1 (H x)); left; reflexivity|].
    apply StronglySorted_inv in Sa, Sb. destruct Sa as [Sa Fa], Sb as [Sb Fb]. rewrite Forall_forall in Fa, Fb.
    assert (x = y).
    { destruct (proj1 (H x) (or_introl eq_refl)) as [E|E]; [congruence|]. destruct (proj2 (H y) (or_introl eq_refl)) as [E2|E2]; [congruence|].
      apply Fb in E. apply Fa in E2. lia. }
    subst y. f_equal. apply IH; [assumption|assumption|]. intros z. split; intros I.
    + destruct (proj1 (H z) (or_intror I)) as [E|E]; [subst z; apply Fa in I; lia|exact E].
    + destruct (proj2 (H z) (or_intror I)) as [E|E]; [subst z; apply Fb in I; lia|exact E].
Qed.
Lemma value_bound : forall n q, (forall i, 0 < vget n i) -> in_grid n q -> 0 <= value_index n q < v_1 n * v_2 n * v_3 n.
Proof.
  intros n q Hn G. pose proof (Hn X1). pose proof (Hn X2). pose proof (Hn X3). pose proof (G X1). pose proof (G X2). pose proof (G X3). cbn [vget] in *.
  unfold value_index. assert (v_3 n * v_2 q + v_3 q < v_3 n * v_2 n) by nia. assert (0 <= v_3 n * v_2 q) by nia. split; [nia|].
  assert (v_3 n * v_2 n * v_1 q <= v_3 n * v_2 n * (v_1 n - 1)) by (apply Z.mul_le_mono_nonneg_l; nia). nia.
Qed.
Lemma value_lex : forall n p q, (forall i, 0 < vget n i) -> in_grid n p -> in_grid n q -> lex_lt p q -> value_index n p < value_index n q.
Proof.
  intros n p q Hn Gp Gq L. pose proof (Hn X1). pose proof (Hn X2). pose proof (Hn X3).
  pose proof (Gp X1). pose proof (Gp X2). pose proof (Gp X3). pose proof (Gq X1). pose proof (Gq X2). pose proof (Gq X3). cbn [vget] in *.
  unfold value_index. destruct L as [L|(E1 & [L|(E2 & L)])].
  - assert (v_3 n * v_2 p + v_3 p < v_3 n * v_2 n) by nia. assert (0 <= v_3 n * v_2 q) by nia.
    assert (v_3 n * v_2 n * (v_1 p + 1) <= v_3 n * v_2 n * v_1 q) by (apply Z.mul_le_mono_nonneg_l; nia). nia.
  - rewrite E1. assert (v_3 n * (v_2 p + 1) <= v_3 n * v_2 q) by (apply Z.mul_le_mono_nonneg_l; lia). nia.
  - rewrite E1, E2. lia.
Qed.
Lemma values_seq : forall n, (forall i, 0 < vget n i) -> map (value_index n) (grid_points n) = map Z.of_nat (seq 0 (length (grid_points n))).
Proof.
  intros n Hn.
  assert (S1 : StronglySorted Z.lt (map (value_index n) (grid_points n))).
  { assert (A : forall q, In q (grid_points n) -> in_grid n q) by (intros; apply grid_in; assumption). pose proof (lex_of_seq n) as S.
    induction S as [|p ps Sp IH F]; [constructor|]. cbn [map]. constructor; [apply IH; intros; apply A; right; assumption|].
    rewrite Forall_forall in *. intros x Hx. apply in_map_iff in Hx. destruct Hx as (q & <- & Iq).
    apply value_lex; [exact Hn|apply A; left; reflexivity|apply A; right; exact Iq|apply F, Iq]. }
  assert (S2 : forall m s, StronglySorted Z.lt (map Z.of_nat (seq s m))).
  { induction m as [|m IH]; intros s; cbn [seq map]; constructor; [apply IH|]. rewrite Forall_forall. intros x Hx. apply in_map_iff in Hx. destruct Hx as (y & <- & Hy). apply in_seq in Hy. lia. }
  apply sorted_eq; [exact S1|apply S2|].
  set (N := length (grid_points n)).
  assert (EN : Z.of_nat N = v_1 n * v_2 n * v_3 n).
  { unfold N. rewrite grid_length. pose proof (Hn X1). pose proof (Hn X2). pose proof (Hn X3). cbn [vget] in *. rewrite !Nat2Z.inj_mul, !Z2Nat.id by lia. reflexivity. }
  assert (I1 : incl (map (value_index n) (grid_points n)) (map Z.of_nat (seq 0 N))).
  { intros x Hx. apply in_map_iff in Hx. destruct Hx as (q & <- & Iq). apply grid_in in Iq. pose proof (value_bound n q Hn Iq) as B.
    apply in_map_iff. exists (Z.to_nat (value_index n q)). split; [lia|]. apply in_seq. lia. }
  intros x. split; [apply I1|].
  apply (NoDup_length_incl (sorted_nodup _ S1)); [rewrite !map_length, seq_length; unfold N; lia|exact I1].
Qed.
Lemma combine_maps : forall (X A B : Type) (f : X -> A) (g : X -> B) L, combine (map f L) (map g L) = map (fun x => (f x, g x)) L.
Proof. intros. induction L as [|x L IH]; [reflexivity|]. cbn. rewrite IH. reflexivity. Qed.
Lemma p1_list : forall rows elems n, (forall i, 0 < vget n i) ->
  transform_density_point_to_p1 rows elems n =
  map (fun q => (q, mkV (IZR (v_1 q) / IZR (v_1 n)) (IZR (v_2 q) / IZR (v_2 n)) (IZR (v_3 q) / IZR (v_3 n)), transfer_to_density_3d rows n (map int_translation elems) q)%R) (grid_points n).
Proof.
  intros rows elems n Hn. unfold transform_density_point_to_p1. cbv zeta. rewrite map_length, <- (values_seq n Hn). rewrite combine_maps, map_map.
  apply map_ext_in. intros q Iq. apply grid_in in Iq. destruct (decode n Hn q Iq) as (A & B & C). cbv zeta in A, B, C.
  rewrite A in *. rewrite B, C. destruct q as [q1 q2 q3]. reflexivity.
Qed.
Definition whole_op (e : Op) : Prop := 0 < e_d e /\ forall i, (e_d e | vget (e_b e) i).
Lemma int_translation_np : forall n e p, whole_op e -> (forall i, 0 < vget n i) -> np_ind n (int_translation e) p = np_ind n e p.
Proof.
  intros n e p (Hd & H) Hn. unfold np_ind, int_translation. cbn [e_r e_b e_d v_1 v_2 v_3].
  destruct (H X1) as [t1 T1], (H X2) as [t2 T2], (H X3) as [t3 T3]. cbn [vget] in *. rewrite T1, T2, T3. rewrite !Z.quot_mul by lia.
  rewrite !Z.mul_1_r. set (r := z_m_v (e_r e) p).
  f_equal; f_equal.
  - replace (v_1 r * e_d e + v_1 n * (t1 * e_d e)) with ((v_1 r + v_1 n * t1) * e_d e) by ring. rewrite around_exact by exact Hd. rewrite <- (Z.mul_1_r (v_1 r + v_1 n * t1)) at 1. apply around_exact. lia.
  - replace (v_2 r * e_d e + v_2 n * (t2 * e_d e)) with ((v_2 r + v_2 n * t2) * e_d e) by ring. rewrite around_exact by exact Hd. rewrite <- (Z.mul_1_r (v_2 r + v_2 n * t2)) at 1. apply around_exact. lia.
  - replace (v_3 r * e_d e + v_3 n * (t3 * e_d e)) with ((v_3 r + v_3 n * t3) * e_d e) by ring. rewrite around_exact by exact Hd. rewrite <- (Z.mul_1_r (v_3 r + v_3 n * t3)) at 1. apply around_exact. lia.
Qed.
Lemma int_translation_map : forall rows n elems, (forall i, 0 < vget n i) -> (forall e, In e elems -> whole_op e) ->
  transfer_to_density_3d rows n (map int_translation elems) = transfer_to_density_3d rows n elems.
Proof.
  intros rows n elems Hn Hw. unfold transfer_to_density_3d, fill. generalize (fun _ : V3 Z => 0%R) as m. revert Hw. induction elems as [|e elems IH]; intros Hw m; [reflexivity|].
  cbn [map fold_left]. rewrite IH by (intros; apply Hw; right; assumption).
  assert (R : forall L m, fold_left (fun m row => assign m (np_ind n (int_translation e) (fst row)) (snd row)) L m
                        = fold_left (fun m (row : V3 Z * R) => assign m (np_ind n e (fst row)) (snd row)) L m).
  { induction L as [|[p d] L IHr]; intros m'; [reflexivity|].
    cbn [fold_left fst snd]. rewrite int_translation_np by (try exact Hn; apply Hw; left; reflexivity). apply IHr. }
  rewrite R. reflexivity.
Qed.
Lemma p1_points_whole : forall n l cells dens, (forall i, 0 < vget n i) -> symmetry_group l -> (forall e, In e l -> grid_compatible n e) ->
  (forall e, In e l -> forall i, (e_d e | vget (e_b e) i)) ->
  calc_asymmetric_unit_cell_indexes n l = Some cells -> length dens = length cells ->
  let out := transform_density_point_to_p1 (combine (map fst cells) dens) l n in
  StronglySorted lex_lt (map (fun x => fst (fst x)) out) /\ (forall q, In q (map (fun x => fst (fst x)) out) <-> in_grid n q) /\
  forall q x d, In (q, x, d) out -> (forall i, vget x i = grid_fract n q i) /\
    exists k r c, nth_error cells k = Some (r, c) /\ nth_error dens k = Some d /\ grid_equivalent n l r q.
Proof.
  intros n l cells dens Hn Hg Hc Hw HA Len out.
  assert (W : forall e, In e l -> whole_op e) by (intros e I; split; [apply Hg, I|apply Hw, I]).
  unfold out. rewrite p1_list by exact Hn. rewrite (int_translation_map _ n l Hn W). rewrite map_map. cbn [fst]. rewrite map_id.
  split; [apply lex_of_seq|]. split; [apply grid_in|].
  intros q x d I. apply in_map_iff in I. destruct I as (q' & E & I). inversion E; subst q' x. clear E. apply grid_in in I. split; [intros []; reflexivity|].
  destruct (cells_spec n l cells Hn Hg Hc HA) as (_ & B & _). destruct (B q I) as (r & c & Ir & R). apply In_nth_error in Ir. destruct Ir as [k Ek].
  destruct (nth_error dens k) as [d'|] eqn:Ed; [|apply nth_error_None in Ed; assert (nth_error cells k <> None) by congruence; apply nth_error_Some in H; lia].
  exists k, r, c. split; [exact Ek|]. split; [|exact R]. rewrite Ed. f_equal. symmetry. eapply (density_whole n l cells Hn Hg Hc HA); eassumption.
Qed.
