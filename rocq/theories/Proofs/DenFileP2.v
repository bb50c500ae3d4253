(** Density files: the statements of C103. *)
From Coq Require Import Reals ZArith List Lra Lia Bool Sorted.
From Verif Require Import Spec.Lin3 Spec.Cell Spec.Symm Spec.DensityMap Model.MatrixOps Model.Symmetry Model.DensityMaps Model.SiteSymm Model.DenFile
  Proofs.SiteSymmP Proofs.SymmExP Proofs.DensMapP3 Proofs.DensMapExP Proofs.DenFileP.
Import ListNotations.
Open Scope list_scope.
Open Scope R_scope.

Lemma Forall2_map_r : forall (A B : Type) (P : A -> B -> Prop) (f : A -> B) l, (forall x, In x l -> P x (f x)) -> Forall2 P l (map f l).
Proof. intros A B P f l. induction l as [|x l IH]; intros H; constructor; [apply H; left; reflexivity|apply IH; intros; apply H; right; assumption]. Qed.
Lemma round7 : forall x, Rabs (np_round 7 x - x) <= 5 / 100000000.
Proof. intro x. pose proof (np_round_error 7 x). lra. Qed.
Lemma op_value : forall e, (0 < e_d e)%Z -> (e_d e | 48)%Z ->
  e_r (kept_op e) = e_r e /\ (0 < e_d (kept_op e))%Z /\ (e_d (kept_op e) | e_d e)%Z /\ forall i, frac (e_b (kept_op e)) (e_d (kept_op e)) i = frac (e_b e) (e_d e) i.
Proof.
  intros [[b1 b2 b3] d r] P D. cbn [e_d e_b e_r v_1 v_2 v_3] in *. unfold kept_op. cbn [e_d e_b e_r v_1 v_2 v_3]. cbv zeta.
  pose proof (numerators_value _ _ _ _ _ _ (translation_read b1 d P D) (translation_read b2 d P D) (translation_read b3 d P D)) as H.
  destruct (numerators _ _ _) as [num c]. destruct H as (Pc & Dc & E1 & E2 & E3 & M). cbn [e_d e_b e_r].
  split; [reflexivity|]. split; [exact Pc|]. split; [apply M; try assumption; apply Z.divide_factor_r|].
  assert (V : forall b, IZR (b * (48 / d)) / 48 = IZR b / IZR d).
  { intros b. destruct D as [m K]. replace (48 / d)%Z with m by (rewrite K, Z.div_mul; lia). rewrite mult_IZR.
    assert (IZR d <> 0) by (apply IZR_neq; lia). assert (IZR m <> 0) by (apply IZR_neq; lia).
    assert (E48 : 48 = IZR m * IZR d) by (rewrite <- mult_IZR, <- K; reflexivity). rewrite E48. field. split; assumption. }
  intros []; unfold frac; cbn [vget v_1 v_2 v_3]; [rewrite E1|rewrite E2|rewrite E3]; apply V.
Qed.
Lemma whole_read : forall n, rint (48 * np_round 4 (IZR n)) = (n * (48 / 1))%Z.
Proof.
  intros n. apply rint_near. pose proof (np_round_error 4 (IZR n)) as E. replace (IZR (n * (48 / 1))) with (48 * IZR n) by (rewrite mult_IZR; replace (48 / 1)%Z with 48%Z by reflexivity; ring).
  rewrite <- Rmult_minus_distr_l, Rabs_mult, (Rabs_right 48) by lra. lra.
Qed.
Lemma shift_value : forall s, snd s = 1%Z -> snd (kept_shift s) = 1%Z /\ forall i, vget (fst (kept_shift s)) i = vget (fst s) i.
Proof.
  intros [[b1 b2 b3] d] E. cbn [snd] in E. subst d. unfold kept_shift. cbn [fst v_1 v_2 v_3].
  pose proof (numerators_value _ _ _ _ _ _ (whole_read b1) (whole_read b2) (whole_read b3)) as H.
  destruct (numerators _ _ _) as [num c]. destruct H as (Pc & Dc & E1 & E2 & E3 & M). cbn [fst snd].
  assert (C : (c | 1)%Z) by (apply M; [lia|exists 48%Z; reflexivity|apply Z.divide_factor_r|apply Z.divide_factor_r|apply Z.divide_factor_r]).
  assert (c = 1%Z) by (apply Z.divide_1_r_nonneg in C; lia). subst c. split; [reflexivity|].
  assert (V : forall a b, IZR a / IZR 1 = IZR (b * (48 / 1)) / 48 -> a = b). { intros a b K. apply eq_IZR. rewrite mult_IZR in K. replace (48 / 1)%Z with 48%Z in K by reflexivity. lra. }
  intros []; cbn [vget v_1 v_2 v_3]; apply V; assumption.
Qed.

(** ** round trip *)
Lemma row_kept_close : forall r, row_close r (kept_row r).
Proof. intros [p [[d f] a]]. unfold row_close, kept_row. cbn [fst snd]. split; [reflexivity|]. split; [apply round7|]. split; apply round7. Qed.
Lemma cell_kept_close : forall u, cell_close u (kept_cell u).
Proof.
  intros [a b c al be ga]. unfold cell_close, kept_cell. cbn [u_a u_b u_c u_al u_be u_ga].
  assert (A : forall x, np_round 5 x * (PI / 180) * (180 / PI) = np_round 5 x) by (intros x; field; apply PI_neq0). rewrite !A.
  repeat split; apply np_round5_error.
Qed.
Lemma round_trip : forall x, (forall e, In e (dn_ops x) -> (0 < e_d e)%Z /\ (e_d e | 48)%Z) -> (forall s, In s (dn_shift x) -> snd s = 1%Z) ->
  exists y, read_den_file (save_to_den_file x) = Some y /\ dn_points y = dn_points x /\ dn_centro y = dn_centro x /\ cell_close (dn_cell x) (dn_cell y) /\
    Forall2 row_close (dn_rows x) (dn_rows y) /\
    Forall2 (fun e f => e_r f = e_r e /\ (0 < e_d f)%Z /\ (e_d f | e_d e)%Z /\ forall i, frac (e_b f) (e_d f) i = frac (e_b e) (e_d e) i) (dn_ops x) (dn_ops y) /\
    Forall2 (fun s t => snd t = snd s /\ forall i, vget (fst t) i = vget (fst s) i) (dn_shift x) (dn_shift y).
Proof.
  intros x Ho Hs. eexists. split; [apply read_saved|]. cbn [dn_points dn_cell dn_ops dn_rows dn_centro dn_shift].
  split; [reflexivity|]. split; [reflexivity|]. split; [apply cell_kept_close|].
  split; [apply Forall2_map_r; intros; apply row_kept_close|].
  split; [apply Forall2_map_r; intros e He; destruct (Ho e He); apply op_value; assumption|].
  apply Forall2_map_r. intros s H. pose proof (Hs s H) as E. destruct (shift_value s E) as [A B]. split; [rewrite A, E; reflexivity|exact B].
Qed.

(** ** a file of the asymmetric unit made into one of the whole cell *)
Lemma nth_error_map_in : forall (A B : Type) (f : A -> B) l y, In y (map f l) -> exists x, In x l /\ f x = y.
Proof. intros A B f l y H. apply in_map_iff in H. destruct H as (x & E & I). exists x. tauto. Qed.
Lemma recalc_whole : forall input x l cells dens, read_den_file input = Some x ->
  (forall i, (0 < vget (dn_points x) i)%Z) -> symmetry_group l -> (forall e, In e l -> grid_compatible (dn_points x) e) ->
  calc_asymmetric_unit_cell_indexes (dn_points x) l = Some cells -> List.length dens = List.length cells -> dn_rows x = combine (map fst cells) dens ->
  (forall e, In e (dn_ops x) -> grid_compatible (dn_points x) e) -> (forall s, In s (dn_shift x) -> shift_compatible (dn_points x) s) ->
  generated l (dn_ops x) (dn_shift x) (dn_centro x) ->
  exists out y, recalc_den_file_to_p1 input = Some out /\ read_den_file out = Some y /\ dn_points y = dn_points x /\ dn_centro y = false /\
    (exists e s, dn_ops y = [e] /\ dn_shift y = [s] /\ forall p i, act e p i + frac (fst s) (snd s) i = p i) /\
    StronglySorted lex_lt (map fst (dn_rows y)) /\ (forall q, In q (map fst (dn_rows y)) <-> in_grid (dn_points x) q) /\
    forall q d, In (q, d) (dn_rows y) -> exists k r c d0, nth_error cells k = Some (r, c) /\ nth_error dens k = Some d0 /\ grid_equivalent (dn_points x) l r q /\ row_close (q, d0) (q, d).
Proof.
  intros input x l cells dens Ei Hn Hg Hc HA Len Er Ho Hs Gen.
  destruct (p1_whole _ l cells Hn Hg Hc HA _ _ _ _ dens Ho Hs Gen Len) as (rows & E & So & Me & Va).
  unfold recalc_den_file_to_p1. rewrite Ei. cbn [bind]. rewrite Er, E. cbn [bind]. cbv zeta. eexists. eexists. split; [reflexivity|]. split; [apply read_saved|].
  cbn [dn_points dn_cell dn_ops dn_rows dn_centro dn_shift map]. split; [reflexivity|]. split; [reflexivity|].
  assert (F : map fst (map kept_row rows) = map fst rows). { rewrite map_map. apply map_ext. intros [p [[d f] a]]. reflexivity. }
  split; [|split; [rewrite F; exact So|split; [intro q; rewrite F; apply Me|]]].
  - eexists. eexists. split; [reflexivity|]. split; [reflexivity|].
    assert (D1 : (0 < 1)%Z) by lia. assert (D48 : (1 | 48)%Z) by (exists 48%Z; reflexivity).
    destruct (op_value (mkE (mkV 0 0 0) 1 (mkM 1 0 0 0 1 0 0 0 1))%Z D1 D48) as (R1 & _ & _ & R2).
    destruct (shift_value (mkV 0 0 0, 1)%Z eq_refl) as (S1 & S2).
    intros p i. unfold act. change (IZR (vget (e_b ?e) i) / IZR (e_d ?e)) with (frac (e_b e) (e_d e) i). rewrite R1, R2. unfold frac. rewrite S1, S2.
    destruct i; unfold sum3; cbn; field.
  - intros q d H. apply in_map_iff in H. destruct H as ([q' d0] & K & I).
    assert (q' = q) as -> by (destruct d0 as [[d1 f1] a1]; unfold kept_row in K; inversion K; reflexivity).
    apply Va in I. destruct I as (_ & k & r & c & N1 & N2 & GE). exists k, r, c, d0. split; [exact N1|]. split; [exact N2|]. split; [exact GE|].
    rewrite <- K. apply row_kept_close.
Qed.

(** ** what is lost *)
Definition den_right : den := mkDen (mkV 1 1 1)%Z (mkU 5 5 5 90 90 90) [op_id] [((mkV 0 0 0)%Z, (1, 1, 0))] false [no_shift].
Lemma id48 : forall e, In e [op_id] -> (0 < e_d e)%Z /\ (e_d e | 48)%Z.
Proof. intros e [<-|[]]. split; [reflexivity|exists 48%Z; reflexivity]. Qed.
Lemma round5_int : forall z, np_round 5 (IZR z) = IZR z.
Proof. intros z. replace (IZR z) with (IZR (z * 100000) / 10 ^ 5) by (rewrite mult_IZR; cbn; field). apply np_round_exact. Qed.
Lemma recalc_angle_refuted : exists input x out y, read_den_file input = Some x /\ recalc_den_file_to_p1 input = Some out /\ read_den_file out = Some y /\
  u_al (dn_cell x) = PI / 2 /\ u_al (dn_cell y) < 1 / 20.
Proof.
  exists (save_to_den_file den_right). eexists. pose proof (read_saved den_right) as E.
  assert (P : (0 < 1)%Z) by lia. assert (D : (1 | 48)%Z) by (exists 48%Z; reflexivity).
  destruct (op_value op_id P D) as (O1 & O2 & O3 & O4). destruct (shift_value no_shift eq_refl) as (S1 & S2).
  cbn [dn_points dn_cell dn_ops dn_rows dn_centro dn_shift den_right map] in E. set (xx := mkDen _ _ _ _ _ _) in E.
  assert (Od : e_d (kept_op op_id) = 1%Z). { apply Z.divide_1_r_nonneg in O3; [exact O3|lia]. }
  assert (T : exists rows, transform_to_p1 (dn_points xx) (dn_ops xx) (dn_shift xx) (dn_centro xx) (dn_rows xx) = Some rows).
  { unfold transform_to_p1. cbn [dn_points dn_cell dn_ops dn_rows dn_centro dn_shift xx forallb]. rewrite Od, S1. cbn [points_compatible v_1 v_2 v_3 Z.modulo]. eexists. reflexivity. }
  destruct T as [rows T]. do 2 eexists. split; [exact E|]. split; [unfold recalc_den_file_to_p1; rewrite E; cbn [bind]; rewrite T; reflexivity|].
  split; [apply read_saved|]. cbn [dn_cell xx kept_cell u_al]. clear. rewrite (round5_int 90). split; [field|].
  pose proof (np_round5_error (90 * (PI / 180))) as H. replace (90 * (PI / 180)) with (PI / 2) in * by field.
  pose proof PI_4. pose proof PI_RGT_0. apply Rabs_def2b in H || idtac. unfold Rabs in H. destruct (Rcase_abs _) in H; nra.
Qed.
Definition den_body : den := mkDen (mkV 2 2 2)%Z (mkU 5 5 5 90 90 90) [op_id] [] false [((mkV 1 1 1)%Z, 2%Z)].
Lemma shift_refuted : exists x y, read_den_file (save_to_den_file x) = Some y /\ dn_shift x = [((mkV 1 1 1)%Z, 2%Z)] /\ dn_shift y = [((mkV 1 1 1)%Z, 1%Z)].
Proof.
  exists den_body. eexists. split; [apply read_saved|]. split; [reflexivity|]. cbn [dn_shift den_body map].
  assert (K : kept_shift (mkV 1 1 1, 2)%Z = kept_shift (mkV 1 1 1, 1)%Z) by reflexivity. rewrite K.
  destruct (shift_value (mkV 1 1 1, 1)%Z eq_refl) as [A B]. destruct (kept_shift _) as [[a b c] d]. cbn [fst snd] in *. subst d.
  pose proof (B X1) as B1. pose proof (B X2) as B2. pose proof (B X3) as B3. cbn in B1, B2, B3. subst. reflexivity.
Qed.
(** Two ways of giving the same density. *)
Lemma sign_refuted : exists d, d < 0 /\ row_of_one d <> row_of_two (0, - d) /\ fst (fst (row_of_one d)) = fst (fst (row_of_two (0, - d))).
Proof.
  exists (-1). split; [lra|]. unfold row_of_one, row_of_two. destruct (Rle_dec 0 (-1)) as [H|H]; [lra|]. cbn [fst snd]. split; [|ring].
  intros E. injection E as _ E. lra.
Qed.
(** ** the hypotheses are met *)
Lemma kept_act : forall e, (0 < e_d e)%Z -> (e_d e | 48)%Z -> forall x i, act (kept_op e) x i = act e x i.
Proof.
  intros e P D x i. destruct (op_value e P D) as (A & _ & _ & B). unfold act. specialize (B i). unfold frac in B. rewrite A, B. reflexivity.
Qed.
Lemma kept_compatible : forall n e, (e_d e | 48)%Z -> grid_compatible n e -> grid_compatible n (kept_op e).
Proof.
  intros n e D (P & A & B). destruct (op_value e P D) as (E1 & E2 & E3 & _). split; [exact E2|]. split; [|intros i j; rewrite E1; apply B].
  intros i. eapply Z.divide_trans; [exact E3|apply A].
Qed.
Definition den_screw (dens : list (R * R * R)) : den :=
  match calc_asymmetric_unit_cell_indexes n242 p21m with
  | Some cells => mkDen n242 (mkU 3 4 5 90 100 90) [op_id; op_screw] (combine (map fst cells) dens) true [no_shift]
  | None => mkDen n242 (mkU 3 4 5 90 100 90) [op_id; op_screw] [] true [no_shift]
  end.
Lemma screw_read : forall dens, List.length dens = 8%nat -> exists x cells d, read_den_file (save_to_den_file (den_screw dens)) = Some x /\
  (forall i, (0 < vget (dn_points x) i)%Z) /\ symmetry_group p21m /\ (forall e, In e p21m -> grid_compatible (dn_points x) e) /\
  calc_asymmetric_unit_cell_indexes (dn_points x) p21m = Some cells /\ List.length d = List.length cells /\ dn_rows x = combine (map fst cells) d /\
  (forall e, In e (dn_ops x) -> grid_compatible (dn_points x) e) /\ (forall s, In s (dn_shift x) -> shift_compatible (dn_points x) s) /\
  generated p21m (dn_ops x) (dn_shift x) (dn_centro x).
Proof.
  intros dens Len. destruct screw_cells as (cells & EC & L8).
  eexists. exists cells, (map (fun d => (np_round 7 (fst (fst d)), np_round 7 (snd (fst d)), np_round 7 (snd d))) dens). split; [apply read_saved|].
  unfold den_screw. rewrite EC. cbn [dn_points dn_cell dn_ops dn_rows dn_centro dn_shift].
  assert (D48 : forall e, In e [op_id; op_screw] -> (0 < e_d e)%Z /\ (e_d e | 48)%Z) by (intros e [<-|[<-|[]]]; split; try reflexivity; [exists 48%Z|exists 24%Z]; reflexivity).
  split; [exact n242_pos|]. split; [exact p21m_group|]. split; [exact n242_compat|]. split; [exact EC|]. split; [rewrite map_length; congruence|].
  split; [|split; [|split]].
  - clear. revert cells. induction dens as [|[[d f] a] dens IH]; intros [|[r c] cells]; cbn; try reflexivity. f_equal. apply IH.
  - intros e H. apply in_map_iff in H. destruct H as (e0 & <- & H). apply kept_compatible; [apply D48; exact H|apply screw_compat; exact H].
  - intros s H. apply in_map_iff in H. destruct H as (s0 & <- & [<-|[]]). destruct (shift_value no_shift eq_refl) as (A & B). split; [rewrite A; reflexivity|]. intros i. rewrite A. apply Z.divide_1_l.
  - assert (SP : forall e s sign x i, In e [op_id; op_screw] -> In s [no_shift] -> sign * (act (kept_op e) x i + frac (fst (kept_shift s)) (snd (kept_shift s)) i) = sign * (act e x i + frac (fst s) (snd s) i)).
    { intros e s sign x i He Hs'. rewrite kept_act by (apply D48; exact He). destruct Hs' as [<-|[]]. destruct (shift_value no_shift eq_refl) as (A & B). unfold frac. rewrite A, B. reflexivity. }
    destruct p21m_generated as [G1 G2]. split.
    + intros g Hg. destruct (G1 g Hg) as (e & s & sign & He & Hs & Sg & V). exists (kept_op e), (kept_shift s), sign. split; [apply in_map; exact He|]. split; [apply in_map; exact Hs|]. split; [exact Sg|].
      intros x i. destruct (V x i) as [k K]. exists k. rewrite K. rewrite SP by assumption. reflexivity.
    + intros e s sign He Hs Sg. apply in_map_iff in He, Hs. destruct He as (e0 & <- & He), Hs as (s0 & <- & Hs). destruct (G2 e0 s0 sign He Hs Sg) as (g & Hg & V).
      exists g. split; [exact Hg|]. intros x i. destruct (V x i) as [k K]. exists k. rewrite K. rewrite SP by assumption. reflexivity.
Qed.
Lemma right_met : (forall e, In e (dn_ops den_right) -> (0 < e_d e)%Z /\ (e_d e | 48)%Z) /\ (forall s, In s (dn_shift den_right) -> snd s = 1%Z).
Proof. split; [exact id48|]. intros s [<-|[]]. reflexivity. Qed.
