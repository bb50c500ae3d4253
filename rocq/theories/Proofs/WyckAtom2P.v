(** Atoms after apply_constraints. *)
From Coq Require Import Reals ZArith QArith Qabs Qreals List String Bool Lia Lra.
From Verif Require Import Spec.Lin3 Spec.Symm Spec.SgSpec Model.Strings Model.Symmetry Model.SgTables Model.WyckoffData Model.SpaceGroup Proofs.SymmBaseP Proofs.SgCheckP Proofs.SgAllP Proofs.SgWyckP Proofs.WyckSolP Proofs.WyckAtomP.
Import ListNotations.
Open Scope string_scope.
Open Scope list_scope.
Open Scope Z_scope.

Lemma shape3_rb : forall r b, shape3 (r, b) = true -> exists a1 a2 a3 a4 a5 a6 a7 a8 a9 x y z,
  r = [[a1; a2; a3]; [a4; a5; a6]; [a7; a8; a9]] /\ b = [x; y; z].
Proof.
  intros r b H. unfold shape3 in H.
  destruct r as [|[|a1 [|a2 [|a3 [|]]]] [|[|a4 [|a5 [|a6 [|]]]] [|[|a7 [|a8 [|a9 [|]]]] [|]]]]; try discriminate.
  destruct b as [|x [|y [|z [|]]]]; try discriminate. repeat eexists.
Qed.
Notation pt := coords.
Lemma Q2R_qadd : forall a b, Q2R (qadd a b) = (Q2R a + Q2R b)%R.
Proof. intros a b. unfold qadd. rewrite (Qeq_eqR _ _ (Qred_correct _)), Q2R_plus. reflexivity. Qed.
Lemma Q2R_qmul : forall a b, Q2R (qmul a b) = (Q2R a * Q2R b)%R.
Proof. intros a b. unfold qmul. rewrite (Qeq_eqR _ _ (Qred_correct _)), Q2R_mult. reflexivity. Qed.
(** r h + b in rationals *)
Lemma apply_rb : forall r b h, shape3 (r, b) = true -> List.length h = 3%nat ->
  exists u v, mult_matrix_vector r h = Some u /\ add_vec u b = Some v /\ List.length v = 3%nat /\ forall i, pt v i = pos_at (r, b) (pt h) i.
Proof.
  intros r b h S L. destruct (shape3_rb r b S) as [a1 [a2 [a3 [a4 [a5 [a6 [a7 [a8 [a9 [x [y [z [-> ->]]]]]]]]]]]]].
  destruct h as [|p [|q [|s [|]]]]; try discriminate. eexists _, _. split; [reflexivity|]. split; [reflexivity|]. split; [reflexivity|].
  intros i. unfold coords, pos_at, sum3. destruct i; cbn [nat_of_ix nth fst snd combine map]; rewrite !Q2R_qadd, !Q2R_qmul, RMicromega.Q2R_0; ring.
Qed.
Lemma isclose_frac : forall d, isclose_0 (frac_mod_1 d) = true -> exists n : Z, (Rabs (Q2R d - IZR n) <= / 100000000)%R.
Proof.
  intros d H. unfold isclose_0 in H. apply Qle_bool_iff in H. destruct (frac_mod_range d) as [A B]. rewrite Qabs_pos in H by exact A.
  destruct (eqm_Q2R _ _ (frac_mod_eqm d)) as [n N]. exists (- n)%Z. apply Qle_Rle in H, A. rewrite RMicromega.Q2R_0 in A.
  assert (E : Q2R (1 # 100000000) = (/ 100000000)%R) by (unfold Q2R; cbn; field). rewrite E in H.
  replace (Q2R d - IZR (- n))%R with (Q2R (frac_mod_1 d)) by (rewrite N, opp_IZR; ring). rewrite Rabs_pos_eq by exact A. exact H.
Qed.
Lemma hits_close : forall r b h p, shape3 (r, b) = true -> List.length h = 3%nat -> List.length p = 3%nat -> hits r b h p = true ->
  close_points (/ 100000000) (pos_at (r, b) (pt h)) (pt p).
Proof.
  intros r b h p S L LP H. destruct (apply_rb r b h S L) as [u [v [U [V [LV E]]]]]. unfold hits in H. rewrite U, V in H.
  destruct v as [|v1 [|v2 [|v3 [|]]]]; try discriminate. destruct p as [|p1 [|p2 [|p3 [|]]]]; try discriminate. cbn in H.
  rewrite !andb_true_iff in H. destruct H as [H1 [H2 [H3 _]]].
  assert (G : forall a q, isclose_0 (frac_mod_1 (qadd a (qmul (-1) q))) = true -> exists n : Z, (Rabs (Q2R a - Q2R q - IZR n) <= / 100000000)%R).
  { intros a q K. destruct (isclose_frac _ K) as [n N]. exists n. rewrite Q2R_qadd, Q2R_qmul in N.
    assert (M : Q2R (-1) = (-1)%R) by (unfold Q2R; cbn; field). rewrite M in N. replace (Q2R a - Q2R q - IZR n)%R with (Q2R a + -1 * Q2R q - IZR n)%R by ring. exact N. }
  intros i. rewrite <- E. destruct i; unfold coords; cbn [nat_of_ix nth]; apply G; assumption.
Qed.
Lemma candidates_length : forall x y z h, In h (candidates x y z) -> List.length h = 3%nat.
Proof.
  intros x y z h H. unfold candidates in H. apply in_flat_map in H as [[[a b] c] [_ H]]. apply in_map_iff in H as [[[u v] w] [<- _]]. reflexivity.
Qed.
(** Point (or vector) modulo 1. *)
Lemma map_frac_pt : forall v, List.length v = 3%nat -> same_point (pt (map frac_mod_1 v)) (pt v).
Proof.
  intros v L i. destruct v as [|a [|b [|c [|]]]]; try discriminate. unfold coords. destruct i; cbn [nat_of_ix nth map]; apply eqm_Q2R, frac_mod_eqm.
Qed.
Lemma default_total : forall r b full x y z, shape3 (r, b) = true -> exists q h, give_default_xyz r b full x y z = Some q /\ List.length q = 3%nat /\ List.length h = 3%nat /\
  same_point (pt q) (pos_at (r, b) (pt h)).
Proof.
  intros r b full x y z S. unfold give_default_xyz. set (h := match find _ _ with Some h => h | None => _ end).
  assert (L : List.length h = 3%nat). { unfold h. destruct (find _ _) as [k|] eqn:F; [|reflexivity]. apply find_some in F as [F _]. eapply candidates_length, F. }
  destruct (apply_rb r b h S L) as [u [v [U [V [LV E]]]]]. unfold obind. rewrite U, V. eexists. exists h. split; [reflexivity|]. split; [rewrite map_length; exact LV|]. split; [exact L|].
  eapply sp_trans; [apply map_frac_pt, LV|]. apply sp_ext. intros i. apply E.
Qed.
(** When one of the candidates is on the position. *)
Definition some_candidate (full : list (mat * vec)) (x y z : Q) : bool :=
  let t := limit_denominator 100000 in
  existsb (fun h => existsb (fun rb => hits (fst rb) (snd rb) h [t x; t y; t z]) full) (candidates (t x) (t y) (t z)).
Lemma default_hit : forall r b full x y z, shape3 (r, b) = true -> (forall rb, In rb full -> shape3 rb = true) -> some_candidate full x y z = true ->
  exists q h rb, give_default_xyz r b full x y z = Some q /\ In rb full /\ same_point (pt q) (pos_at (r, b) (pt h)) /\
    close_points (/ 100000000) (pos_at rb (pt h)) (point (limit_denominator 100000 x) (limit_denominator 100000 y) (limit_denominator 100000 z)).
Proof.
  intros r b full x y z S SF C. unfold some_candidate in C. cbv zeta in C. unfold give_default_xyz. cbv zeta.
  set (p := [limit_denominator 100000 x; limit_denominator 100000 y; limit_denominator 100000 z]) in *.
  destruct (find _ _) as [h|] eqn:F.
  - apply find_some in F as [F HH]. assert (L := candidates_length _ _ _ _ F). apply existsb_exists in HH as [[r' b'] [I H]]. cbn [fst snd] in H.
    destruct (apply_rb r b h S L) as [u [v [U [V [LV E]]]]]. unfold obind. rewrite U, V. eexists. exists h, (r', b'). split; [reflexivity|]. split; [exact I|]. split.
    + eapply sp_trans; [apply map_frac_pt, LV|]. apply sp_ext. intros i. apply E.
    + assert (X := hits_close r' b' h p (SF _ I) L eq_refl H). intros i. specialize (X i). destruct i; exact X.
  - exfalso. apply existsb_exists in C as [h [I H]]. assert (K := find_none _ _ F h I). cbv beta in K. congruence.
Qed.
Lemma entry3 : forall r b i, shape3 (r, b) = true -> (i < 3)%nat -> entry r i i = Some (ent r i i).
Proof.
  intros r b i S I. destruct (shape3_rb r b S) as [a1 [a2 [a3 [a4 [a5 [a6 [a7 [a8 [a9 [x [y [z [-> ->]]]]]]]]]]]]].
  destruct i as [|[|[|i]]]; try lia; reflexivity.
Qed.

(** ** apply_constraints on a new atom *)
Section Atom.
Variables (it : Z) (code : option string) (g : SpaceGroup) (x y z : Q).
Hypothesis HI : 1 <= it <= 230.
Hypothesis HO : offered (get_it_coordinate_system_codes_by_it_number it) code.
Hypothesis HB : space_group it code = Some g.
Notation lx := (limit_denominator 99999 x).
Notation ly := (limit_denominator 99999 y).
Notation lz := (limit_denominator 99999 z).
Lemma atom_inv : exists w r0 b0 full q, apply_constraints_on_atom (sg_shift g) (sg_wyckoff g) x y z =
    Some (w_mult w, w_letter w, (Qeq_bool (ent r0 0 0) 0, Qeq_bool (ent r0 1 1) 0, Qeq_bool (ent r0 2 2) 0), q) /\
  In w (sg_wyckoff g) /\ good_position (sg_shift g) (doubled_position it code (w_letter w)) w r0 b0 full /\
  is_valid_for_fract full x y z = true /\ give_default_xyz r0 b0 full x y z = Some q /\
  (forall w', In w' (sg_wyckoff g) -> valid_for (sg_shift g) w' x y z -> w_mult w <= w_mult w').
Proof.
  destruct (all_good it code g HI HO HB) as [A [[wg [fg [WG [FG IG]]]] _]].
  assert (T : get_id_for_fract (sg_shift g) (sg_wyckoff g) x y z <> None).
  { apply get_id_total; [intros w W; destruct (A w W) as [r0 [b0 [full G]]]; rewrite (gp_full _ _ _ _ _ _ G); discriminate|].
    exists wg. split; [exact WG|]. exists fg. split; [exact FG|]. unfold is_valid_for_fract. apply existsb_exists. exists id_rb. split; [exact IG|]. apply mask_id. }
  unfold apply_constraints_on_atom. destruct (get_id_for_fract _ _ x y z) as [i|] eqn:E; [clear T|congruence].
  destruct (get_id_ok _ _ _ _ _ _ E) as [w [N [[full' [F' V]] M]]]. assert (W := nth_error_In _ _ N).
  destruct (A w W) as [r0 [b0 [full G]]]. assert (full' = full) by (assert (K := gp_full _ _ _ _ _ _ G); congruence). subst full'.
  destruct (gp_first _ _ _ _ _ _ G) as [c0 [cs [C S0]]]. assert (SH := gp_shape _ _ _ _ _ _ G).
  destruct (default_total r0 b0 full x y z SH) as [q [h [D _]]].
  exists w, r0, b0, full, q. split; [|auto]. cbn [obind]. rewrite N. cbn [obind]. unfold form_object_on_atom. rewrite C. cbn [nth_error obind]. rewrite S0. cbn [obind]. rewrite <- C, F'. cbn [obind]. rewrite D. cbn [obind].
  rewrite (entry3 r0 b0 0 SH), (entry3 r0 b0 1 SH), (entry3 r0 b0 2 SH) by lia. reflexivity.
Qed.
Lemma atom_total : apply_constraints_on_atom (sg_shift g) (sg_wyckoff g) x y z <> None.
Proof. destruct atom_inv as [w [r0 [b0 [full [q [E _]]]]]]. rewrite E. discriminate. Qed.
End Atom.

Lemma triang_flags : forall r b, shape3 (r, b) = true -> triang r = true ->
  parametrized (pos_at (r, b)) (flag_of (Qeq_bool (ent r 0 0) 0, Qeq_bool (ent r 1 1) 0, Qeq_bool (ent r 2 2) 0)).
Proof.
  intros r b S T.
  set (R := fun i j => ent r (nat_of_ix i) (nat_of_ix j)).
  set (f := flag_of _). assert (F : forall i, f i = Qeq_bool (R i i) 0) by (intros [| |]; reflexivity).
  assert (T1 : forall i j, f i = false -> i <> j -> (R i j == 0)%Q).
  { intros i j K N. unfold triang in T. rewrite forallb_forall in T. specialize (T (nat_of_ix i)). rewrite F in K. unfold R in K. unfold nz in T. rewrite K in T. cbn [negb] in T.
    assert (I : In (nat_of_ix i) ixs) by (destruct i; cbn; auto). specialize (T I). rewrite forallb_forall in T. specialize (T (nat_of_ix j)).
    assert (J : In (nat_of_ix j) ixs) by (destruct j; cbn; auto). specialize (T J). destruct (Nat.eqb_spec (nat_of_ix i) (nat_of_ix j)) as [E|_]; [destruct i, j; try discriminate; congruence|].
    rewrite negb_involutive in T. apply Qeq_bool_eq in T. exact T. }
  assert (T2 : forall i j, f i = true -> f j = true -> (R i j == 0)%Q).
  { intros i j K L. unfold triang in T. rewrite forallb_forall in T. specialize (T (nat_of_ix i)). rewrite F in K, L. unfold R in K, L. unfold nz in T. rewrite K in T. cbn [negb] in T.
    assert (I : In (nat_of_ix i) ixs) by (destruct i; cbn; auto). specialize (T I). rewrite forallb_forall in T. specialize (T (nat_of_ix j)).
    assert (J : In (nat_of_ix j) ixs) by (destruct j; cbn; auto). specialize (T J). rewrite L in T. destruct (Qeq_bool (ent r (nat_of_ix i) (nat_of_ix j)) 0) eqn:E; [|discriminate].
    apply Qeq_bool_eq in E. exact E. }
  assert (P : forall t i, pos_at (r, b) t i = (Q2R (R i X1) * t X1 + Q2R (R i X2) * t X2 + Q2R (R i X3) * t X3 + Q2R (nth (nat_of_ix i) b 0%Q))%R) by reflexivity.
  assert (D : forall t i, f i = false -> pos_at (r, b) t i = (Q2R (R i i) * t i + Q2R (nth (nat_of_ix i) b 0%Q))%R).
  { intros t i K. rewrite P. assert (Z : forall j, i <> j -> Q2R (R i j) = 0%R) by (intros j N; rewrite (Qeq_eqR _ _ (T1 i j K N)); apply RMicromega.Q2R_0).
    destruct i; [rewrite (Z X2), (Z X3) by discriminate|rewrite (Z X1), (Z X3) by discriminate|rewrite (Z X1), (Z X2) by discriminate]; ring. }
  assert (NZ : forall i, f i = false -> Q2R (R i i) <> 0%R).
  { intros i K E. rewrite F in K. apply Qeq_bool_neq in K. apply K. apply eqR_Qeq. rewrite RMicromega.Q2R_0. exact E. }
  split.
  - intros v. exists (fun i => ((v i - Q2R (nth (nat_of_ix i) b 0%Q)) / Q2R (R i i))%R). intros i K. rewrite (D _ i K). field. exact (NZ i K).
  - intros t t' H i. assert (E : forall j, f j = false -> t j = t' j).
    { intros j K. specialize (H j K). rewrite !(D _ j K) in H. apply (Rmult_eq_reg_l (Q2R (R j j))); [lra|exact (NZ j K)]. }
    destruct (f i) eqn:K; [|now apply H]. rewrite !P.
    assert (Z : forall j, (Q2R (R i j) * t j = Q2R (R i j) * t' j)%R).
    { intros j. destruct (f j) eqn:L; [rewrite (Qeq_eqR _ _ (T2 i j K L)), RMicromega.Q2R_0; ring|rewrite (E j L); reflexivity]. }
    rewrite !Z. reflexivity.
Qed.

(** ** Statements *)
Definition small (q : Q) : Prop := Zpos (Qden (Qred q)) <= 99999.
Lemma small_limit : forall q m, 99999 <= m -> small q -> limit_denominator m q = Qred q.
Proof. intros q m H S. apply limit_small. unfold small in S. lia. Qed.
Lemma lies_red : forall full x y z, lies_on full (point (Qred x) (Qred y) (Qred z)) <-> lies_on full (point x y z).
Proof.
  intros full x y z. split; intros [rb [t [I S]]]; exists rb, t; (split; [exact I|]); intros i; specialize (S i); rewrite point_red in *; exact S.
Qed.
Lemma int_close : forall d, (exists n : Z, Q2R d = IZR n) -> isclose_0 (frac_mod_1 d) = true.
Proof.
  intros d [n N]. assert (eqm d 0) as K. { exists n. apply eqR_Qeq. rewrite Q2R_plus, RMicromega.Q2R_0, Q2R_inject, N. ring. }
  apply frac_mod_zero in K. unfold isclose_0. apply Qle_bool_iff. rewrite K. discriminate.
Qed.
Lemma hits_exact : forall r b h p, shape3 (r, b) = true -> List.length h = 3%nat -> List.length p = 3%nat -> same_point (pos_at (r, b) (pt h)) (pt p) -> hits r b h p = true.
Proof.
  intros r b h p S L LP H. destruct (apply_rb r b h S L) as [u [v [U [V [LV E]]]]]. unfold hits. rewrite U, V.
  destruct v as [|v1 [|v2 [|v3 [|]]]]; try discriminate. destruct p as [|p1 [|p2 [|p3 [|]]]]; try discriminate.
  change (add_vec [v1; v2; v3] (opp_vec [p1; p2; p3])) with (Some [qadd v1 (qmul (-1) p1); qadd v2 (qmul (-1) p2); qadd v3 (qmul (-1) p3)]). cbn [forallb].
  assert (G : forall i a k, a = pt [v1; v2; v3] i -> k = pt [p1; p2; p3] i -> forall a' k', Q2R a' = a -> Q2R k' = k -> isclose_0 (frac_mod_1 (qadd a' (qmul (-1) k'))) = true).
  { intros i a k -> -> a' k' A K. apply int_close. destruct (H i) as [n N]. rewrite <- E in N. exists n. rewrite Q2R_qadd, Q2R_qmul, A, K, N.
    assert (M : Q2R (-1) = (-1)%R) by (unfold Q2R; cbn; field). rewrite M. ring. }
  rewrite (G X1 _ _ eq_refl eq_refl v1 p1), (G X2 _ _ eq_refl eq_refl v2 p2), (G X3 _ _ eq_refl eq_refl v3 p3) by reflexivity. reflexivity.
Qed.
Lemma candidate_of : forall a b c h, signed_order (point a b c) h -> exists k, In k (candidates a b c) /\ forall i, pt k i = h i.
Proof.
  intros a b c h [s [u [J H]]].
  set (v := fun i => match s i with X1 => a | X2 => b | X3 => c end). set (w := fun i => if u i then (-(1))%Q else 1%Q).
  exists [qmul (w X1) (v X1); qmul (w X2) (v X2); qmul (w X3) (v X3)]. split.
  - unfold candidates. apply in_flat_map. exists (v X1, v X2, v X3). split.
    + assert (N12 : s X1 <> s X2) by (intros E; apply J in E; discriminate). assert (N13 : s X1 <> s X3) by (intros E; apply J in E; discriminate).
      assert (N23 : s X2 <> s X3) by (intros E; apply J in E; discriminate).
      unfold v. destruct (s X1), (s X2), (s X3); try congruence; cbn; tauto.
    + apply in_map_iff. exists (w X1, w X2, w X3). split; [reflexivity|]. unfold w, signs. destruct (u X1), (u X2), (u X3); cbn; tauto.
  - assert (M : Q2R (-(1)) = (-1)%R) by (unfold Q2R; cbn; field).
    assert (K : forall i, Q2R (qmul (w i) (v i)) = h i).
    { intros i. rewrite H, Q2R_qmul. unfold w, v, point. destruct (u i); rewrite ?M, ?RMicromega.Q2R_1; destruct (s i); ring. }
    intros [| |]; apply K.
Qed.
Lemma sp_close : forall eps p q k, same_point p q -> close_points eps q k -> close_points eps p k.
Proof. intros eps p k' k S C i. destruct (S i) as [n N]. destruct (C i) as [m M]. exists (n + m)%Z. rewrite N, plus_IZR. replace (k' i + IZR n - k i - (IZR n + IZR m))%R with (k' i - k i - IZR m)%R by ring. exact M. Qed.
Lemma unique_letter : forall l w w', NoDup (map w_letter l) -> In w l -> In w' l -> w_letter w = w_letter w' -> w = w'.
Proof.
  induction l as [|a l IH]; intros w w' ND W W' E; [destruct W|]. cbn in ND. inversion ND as [|? ? NI ND']; subst. destruct W as [->|W], W' as [->|W'].
  - reflexivity.
  - exfalso. apply NI. rewrite E. now apply in_map.
  - exfalso. apply NI. rewrite <- E. now apply in_map.
  - now apply IH.
Qed.
Section Atom2.
Variables (it : Z) (code : option string) (g : SpaceGroup) (x y z : Q) (mult : Z) (letter : str) (flags : bool * bool * bool) (q : vec).
Hypothesis HI : 1 <= it <= 230.
Hypothesis HO : offered (get_it_coordinate_system_codes_by_it_number it) code.
Hypothesis HB : space_group it code = Some g.
Hypothesis HA : apply_constraints_on_atom (sg_shift g) (sg_wyckoff g) x y z = Some (mult, letter, flags, q).
Hypothesis HX : small x. Hypothesis HY : small y. Hypothesis HZ : small z.
Lemma atom_data : odd_position it code letter = false -> exists ops w full r0 b0, get_symm_elems (sg_full g) = Some ops /\ symmetry_group ops /\
  In w (sg_wyckoff g) /\ w_mult w = mult /\ w_letter w = letter /\ good_position (sg_shift g) (doubled_position it code letter) w r0 b0 full /\
  wyckoff_position ops mult full /\ lies_on full (point x y z) /\ give_default_xyz r0 b0 full x y z = Some q /\
  flags = (Qeq_bool (ent r0 0 0) 0, Qeq_bool (ent r0 1 1) 0, Qeq_bool (ent r0 2 2) 0).
Proof.
  intros OD. destruct (atom_inv it code g x y z HI HO HB) as [w [r0 [b0 [full [q' [E [W [G [V [D M]]]]]]]]]]. rewrite HA in E. inversion E; subst.
  destruct (groups it code g HI HO HB) as [ops [GO [GG _]]].
  { intros [-> MC]. unfold odd_position, misplaced_origin in OD. rewrite MC in OD. discriminate. }
  destruct (positions it code g HI HO HB) as [ops' [GO' P]]. assert (ops' = ops) by congruence. subst ops'.
  destruct (P w W OD) as [full' [F' WP]]. assert (full' = full) by (assert (K := gp_full _ _ _ _ _ _ G); congruence). subst full'.
  exists ops, w, full, r0, b0. repeat (split; [first [assumption|reflexivity]|]). split; [|auto].
  assert (L := valid_sound _ _ _ _ _ _ _ _ _ G V). rewrite !(small_limit _ 99999) in L by (lia || assumption). now apply lies_red.
Qed.
Lemma atom_multiplicity : odd_position it code letter = false -> exists ops, get_symm_elems (sg_full g) = Some ops /\ orbit_at_most ops (point x y z) mult.
Proof.
  intros OD. destruct (atom_data OD) as [ops [w [full [r0 [b0 [GO [GG [_ [_ [_ [_ [WP [L _]]]]]]]]]]]]]. exists ops. split; [exact GO|]. eapply on_orbit; eassumption.
Qed.
Lemma atom_smallest : forall w' full', In w' (sg_wyckoff g) -> wyckoff_full (sg_shift g) (w_coords w') = Some full' -> lies_on full' (point x y z) ->
  doubled_position it code (w_letter w') = false -> mult <= w_mult w'.
Proof.
  intros w' full' W' F' L D'. destruct (atom_inv it code g x y z HI HO HB) as [w [r0 [b0 [full [q' [E [W [G [V [D M]]]]]]]]]]. rewrite HA in E. inversion E; subst.
  apply M; [exact W'|]. exists full'. split; [exact F'|]. destruct (all_good it code g HI HO HB) as [A _]. destruct (A w' W') as [r1 [b1 [f1 G1]]].
  assert (f1 = full') by (assert (K := gp_full _ _ _ _ _ _ G1); congruence). subst f1. rewrite D' in G1. eapply valid_complete; [exact G1|].
  rewrite !(small_limit _ 99999) by (lia || assumption). now apply lies_red.
Qed.
Lemma atom_letter : exists w, In w (sg_wyckoff g) /\ w_mult w = mult /\ w_letter w = letter /\
  exists c0 cs rb, w_coords w = c0 :: cs /\ symop_r_b c0 = Some rb /\ parametrized (pos_at rb) (flag_of flags) /\ exists t, same_point (coords q) (pos_at rb t).
Proof.
  destruct (atom_inv it code g x y z HI HO HB) as [w [r0 [b0 [full [q' [E [W [G [V [D M]]]]]]]]]]. rewrite HA in E. inversion E; subst.
  exists w. repeat (split; [assumption || reflexivity|]). destruct (gp_first _ _ _ _ _ _ G) as [c0 [cs [C S0]]]. exists c0, cs, (r0, b0). repeat (split; [assumption|]).
  split; [apply (triang_flags r0 b0); [exact (gp_shape _ _ _ _ _ _ G)|exact (gp_triang _ _ _ _ _ _ G)]|].
  destruct (default_total r0 b0 full x y z (gp_shape _ _ _ _ _ _ G)) as [q2 [h [D2 [_ [_ S2]]]]]. assert (q2 = q') by congruence. subst q2. exists (pt h). exact S2.
Qed.
Lemma atom_moved : odd_position it code letter = false -> forall w full rb h, In w (sg_wyckoff g) -> w_letter w = letter ->
  wyckoff_full (sg_shift g) (w_coords w) = Some full ->
  In rb full -> signed_order (point x y z) h -> same_point (point x y z) (pos_at rb h) ->
  exists ops, get_symm_elems (sg_full g) = Some ops /\ equivalent_within (/ 100000000) ops (point x y z) (coords q).
Proof.
  intros OD w full rb h W LW F IR SO SP. destruct (all_good it code g HI HO HB) as [_ [_ ND]]. destruct (atom_data OD) as [ops [w' [full' [r0 [b0 [GO [GG [W' [MW [LW' [G [WP [_ [D _]]]]]]]]]]]]]].
  assert (w' = w) by (eapply (unique_letter (sg_wyckoff g)); [exact ND|exact W'|exact W|congruence]).
  subst w'. assert (full' = full) by (assert (K := gp_full _ _ _ _ _ _ G); congruence). subst full'.
  exists ops. split; [exact GO|].
  assert (SC : some_candidate full x y z = true).
  { unfold some_candidate. cbv zeta. rewrite !(small_limit _ 100000) by (lia || assumption).
    assert (SO' : signed_order (point (Qred x) (Qred y) (Qred z)) h).
    { destruct SO as [s [u [J H]]]. exists s, u. split; [exact J|]. intros i. rewrite point_red. apply H. }
    destruct (candidate_of _ _ _ _ SO') as [k [IK EK]]. apply existsb_exists. exists k. split; [exact IK|]. apply existsb_exists. exists rb. split; [exact IR|].
    destruct rb as [r b]. apply hits_exact; [exact (gp_shapes _ _ _ _ _ _ G _ IR)|eapply candidates_length, IK|reflexivity|].
    cbn [fst snd]. apply sp_sym. intros i. destruct (SP i) as [n N]. exists n.
    assert (P1 : coords [Qred x; Qred y; Qred z] i = point x y z i) by (rewrite <- point_red; destruct i; reflexivity). rewrite P1, N. f_equal. unfold pos_at, sum3. rewrite !EK. reflexivity. }
  destruct (default_hit r0 b0 full x y z (gp_shape _ _ _ _ _ _ G) (gp_shapes _ _ _ _ _ _ G) SC) as [q' [k [rb' [D' [I' [S' C']]]]]].
  assert (q' = q) by congruence. subst q'. rewrite !(small_limit _ 100000) in C' by (lia || assumption).
  destruct WP as [[p0 [rr [EF OO]]] _]. destruct (gp_head _ _ _ _ _ _ G) as [fl EH]. rewrite EH in EF. inversion EF; subst p0 rr.
  destruct (OO (pt k)) as [O1 _]. destruct (O1 (pos_at rb' (pt k))) as [e [He P]]; [apply (in_map (fun p => pos_at p (pt k))); exact I'|].
  exists e. split; [exact He|].
  assert (X : same_point (act e (coords q)) (pos_at rb' (pt k))).
  { eapply sp_trans; [|apply sp_sym, P]. apply act_sp. eapply sp_trans; [exact S'|].
    intros i. destruct (shape3_rb r0 b0 (gp_shape _ _ _ _ _ _ G)) as [a1 [a2 [a3 [a4 [a5 [a6 [a7 [a8 [a9 [c1 [c2 [c3 [-> ->]]]]]]]]]]]]].
    assert (B : exists n : Z, Q2R (nth (nat_of_ix i) [c1; c2; c3] 0%Q) = (Q2R (nth (nat_of_ix i) (map frac_mod_1 [c1; c2; c3]) 0%Q) + IZR n)%R).
    { destruct i; cbn [nat_of_ix nth map]; (edestruct eqm_Q2R as [n N]; [apply frac_mod_eqm|exists (- n)%Z; rewrite N, opp_IZR; ring]). }
    destruct B as [n B]. exists n. unfold pos_at. cbn [fst snd]. rewrite B. ring. }
  eapply sp_close; [exact X|]. intros i. destruct (C' i) as [n N]. rewrite point_red in N. exists n. exact N.
Qed.
End Atom2.
