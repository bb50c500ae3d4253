(** Counter-examples: atoms on Wyckoff positions, names, cells. *)
From Coq Require Import Reals ZArith QArith Qabs Qreals List String Ascii Bool Lia Lra.
From Verif Require Import Spec.Lin3 Spec.Cell Spec.Symm Spec.Lattice Spec.SgSpec Model.Strings Model.Symmetry Model.Vibration Model.SgTables Model.WyckoffData Model.SpaceGroup
  Proofs.SymmBaseP Proofs.SgCheckP Proofs.SgAllP Proofs.SgWyckP Proofs.SgConjP Proofs.WyckSolP Proofs.WyckAtomP Proofs.WyckAtom2P Proofs.SgRef2P Proofs.SgMetricP.
Import ListNotations.
Open Scope string_scope.
Open Scope list_scope.
Open Scope Z_scope.

Lemma coords_point : forall x y z i, coords [x; y; z] i = point x y z i. Proof. intros x y z [| |]; reflexivity. Qed.
(** An atom of Immm with x, 1/2, 1/2 is put on x, 0, 0. *)
Definition moved_71 (g : SpaceGroup) : bool :=
  match apply_constraints_on_atom (sg_shift g) (sg_wyckoff g) (3 # 5) (1 # 2) (1 # 2) with
  | Some (_, _, _, q) => ops_check (fun ops => inequivalent ops [3 # 5; 1 # 2; 1 # 2]%Q q) g
  | None => false end.
Lemma moved_71_ok : forall g, moved_71 g = true -> exists mult letter flags q ops, apply_constraints_on_atom (sg_shift g) (sg_wyckoff g) (3 # 5) (1 # 2) (1 # 2) = Some (mult, letter, flags, q) /\
  get_symm_elems (sg_full g) = Some ops /\ ~ equivalent_within (/ 100000000) ops (point (3 # 5) (1 # 2) (1 # 2)) (coords q).
Proof.
  intros g H. unfold moved_71 in H. destruct (apply_constraints_on_atom _ _ _ _ _) as [[[[m l] f] q]|]; [|discriminate]. apply ops_check_ok in H as [ops [O H]].
  exists m, l, f, q, ops. split; [reflexivity|]. split; [exact O|]. apply inequivalent_ok in H. intros [e [He C]]. apply H. exists e. split; [exact He|]. intros i. rewrite coords_point. apply C.
Qed.
Lemma atom_jumps : exists g mult letter flags q ops, space_group 71 (Some "abc") = Some g /\
  apply_constraints_on_atom (sg_shift g) (sg_wyckoff g) (3 # 5) (1 # 2) (1 # 2) = Some (mult, letter, flags, q) /\
  get_symm_elems (sg_full g) = Some ops /\ ~ equivalent_within (/ 100000000) ops (point (3 # 5) (1 # 2) (1 # 2)) (coords q).
Proof.
  destruct (found 71 (Some "abc") moved_71) as [g [G H]]; [vm_compute; reflexivity|]. destruct (moved_71_ok g H) as [m [l [f [q [ops K]]]]]. exists g, m, l, f, q, ops. split; [exact G|exact K].
Qed.
(** An atom on a mirror plane of P3m1 gets the multiplicity of the general position. *)
Definition on_156 (g : SpaceGroup) : bool :=
  match apply_constraints_on_atom (sg_shift g) (sg_wyckoff g) 0 (1 # 2) (1 # 10) with
  | Some (m, _, _, _) => if m =? 6 then
      exb (fun w => if w_mult w =? 3 then if odd_position 156 (Some "h") (w_letter w) then false else
         match wyckoff_full (sg_shift g) (w_coords w) with
         | Some full => exb (fun rb => if shape3 rb then match mult_matrix_vector (fst rb) [1 # 2; - (1 # 2); 1 # 10]%Q with
                                       | Some u => match add_vec u (snd rb) with Some v => forallb (fun p => Qeq_bool (frac_mod_1 (fst p - snd p)) 0) (combine [0; 1 # 2; 1 # 10]%Q v) | None => false end
                                       | None => false end else false) full
         | None => false end else false) (sg_wyckoff g)
    else false
  | None => false end.
Lemma frac_0 : forall a b, Qeq_bool (frac_mod_1 (a - b)) 0 = true -> exists n : Z, Q2R a = (Q2R b + IZR n)%R.
Proof.
  intros a b H. apply Qeq_bool_eq in H. apply Qeq_eqR in H. destruct (eqm_Q2R _ _ (frac_mod_eqm (a - b))) as [m M]. rewrite H in M. unfold Qminus in M. rewrite Q2R_plus, Q2R_opp, RMicromega.Q2R_0 in M.
  exists (- m). rewrite opp_IZR. lra.
Qed.
Lemma on_156_ok : forall g, space_group 156 (Some "h") = Some g -> on_156 g = true ->
  exists letter flags q ops, apply_constraints_on_atom (sg_shift g) (sg_wyckoff g) 0 (1 # 2) (1 # 10) = Some (6, letter, flags, q) /\
  get_symm_elems (sg_full g) = Some ops /\ orbit_at_most ops (point 0 (1 # 2) (1 # 10)) 3.
Proof.
  intros g G H. unfold on_156 in H. destruct (apply_constraints_on_atom _ _ _ _ _) as [[[[m l] f] q]|]; [|discriminate]. destruct (Z.eqb_spec m 6) as [->|]; [|discriminate].
  rewrite exb_existsb in H. apply existsb_exists in H as [w [W H]]. destruct (Z.eqb_spec (w_mult w) 3) as [M|]; [|discriminate]. destruct (odd_position _ _ _) eqn:OD; [discriminate|].
  assert (I : 1 <= 156 <= 230) by lia. assert (O : offered (get_it_coordinate_system_codes_by_it_number 156) (Some "h")) by (cbn; exists "h"; split; [reflexivity|left; reflexivity]).
  destruct (positions 156 (Some "h") g I O G) as [ops [EO P]]. destruct (groups 156 (Some "h") g I O G) as [ops' [EO' [GG _]]]; [intros [X _]; discriminate|].
  assert (ops' = ops) by congruence. subst ops'. destruct (P w W OD) as [full [F WP]]. rewrite F in H. rewrite M in WP.
  exists l, f, q, ops. split; [reflexivity|]. split; [exact EO|]. eapply on_orbit; [exact GG|exact WP|].
  rewrite exb_existsb in H. apply existsb_exists in H as [[r b] [R H]]. destruct (shape3 (r, b)) eqn:S; [|discriminate]. cbn [fst snd] in H.
  destruct (apply_rb r b [1 # 2; - (1 # 2); 1 # 10]%Q S eq_refl) as [u [v [U [V [L E]]]]]. rewrite U, V in H.
  exists (r, b), (coords [1 # 2; - (1 # 2); 1 # 10]%Q). split; [exact R|]. clear - H E L. destruct v as [|v1 [|v2 [|v3 [|]]]]; try discriminate. cbn [combine forallb fst snd] in H. rewrite !andb_true_iff in H. destruct H as [H1 [H2 [H3 _]]].
  intros i. rewrite <- E. destruct i; unfold coords, point; cbn [nat_of_ix nth]; apply frac_0; assumption.
Qed.
Lemma wrong_multiplicity_156 : exists g letter flags q ops, space_group 156 (Some "h") = Some g /\
  apply_constraints_on_atom (sg_shift g) (sg_wyckoff g) 0 (1 # 2) (1 # 10) = Some (6, letter, flags, q) /\
  get_symm_elems (sg_full g) = Some ops /\ orbit_at_most ops (point 0 (1 # 2) (1 # 10)) 3.
Proof.
  destruct (found 156 (Some "h") on_156) as [g [G H]]; [vm_compute; reflexivity|]. destruct (on_156_ok g G H) as [l [f [q [ops K]]]]. exists g, l, f, q, ops. split; [exact G|exact K].
Qed.
(** The stored position is kept when the atom is moved. *)
Definition stale_2 (g : SpaceGroup) : bool :=
  match apply_constraints_on_stored (sg_shift g) (sg_wyckoff g) None 0 0 0 with
  | Some (_, w) => match apply_constraints_on_stored (sg_shift g) (sg_wyckoff g) (Some w) (1 # 10) (1 # 5) (3 # 10) with
                   | Some ((m, _, _, q), _) => if m =? 1 then ops_check (fun ops => inequivalent ops [1 # 10; 1 # 5; 3 # 10]%Q q) g else false
                   | None => false end
  | None => false end.
Lemma stale_2_ok : forall g, stale_2 g = true -> exists a w letter flags q w' ops, apply_constraints_on_stored (sg_shift g) (sg_wyckoff g) None 0 0 0 = Some (a, w) /\
  apply_constraints_on_stored (sg_shift g) (sg_wyckoff g) (Some w) (1 # 10) (1 # 5) (3 # 10) = Some ((1, letter, flags, q), w') /\
  get_symm_elems (sg_full g) = Some ops /\ ~ equivalent_within (/ 100000000) ops (point (1 # 10) (1 # 5) (3 # 10)) (coords q).
Proof.
  intros g H. unfold stale_2 in H. destruct (apply_constraints_on_stored _ _ None _ _ _) as [[a w]|]; [|discriminate].
  destruct (apply_constraints_on_stored _ _ (Some w) _ _ _) as [[[[[m l] f] q] w']|] eqn:E; [|discriminate]. destruct (Z.eqb_spec m 1) as [->|]; [|discriminate]. apply ops_check_ok in H as [ops [O H]].
  exists a, w, l, f, q, w', ops. split; [reflexivity|]. split; [exact E|]. split; [exact O|]. apply inequivalent_ok in H. intros [e [He C]]. apply H. exists e. split; [exact He|]. intros i. rewrite coords_point. apply C.
Qed.
Lemma stale_position : exists g a w letter flags q w' ops, space_group 2 None = Some g /\ apply_constraints_on_stored (sg_shift g) (sg_wyckoff g) None 0 0 0 = Some (a, w) /\
  apply_constraints_on_stored (sg_shift g) (sg_wyckoff g) (Some w) (1 # 10) (1 # 5) (3 # 10) = Some ((1, letter, flags, q), w') /\
  get_symm_elems (sg_full g) = Some ops /\ ~ equivalent_within (/ 100000000) ops (point (1 # 10) (1 # 5) (3 # 10)) (coords q).
Proof.
  destruct (found 2 None stale_2) as [g [G H]]; [vm_compute; reflexivity|]. destruct (stale_2_ok g H) as [a [w [l [f [q [w' [ops K]]]]]]]. exists g, a, w, l, f, q, w', ops. split; [exact G|exact K].
Qed.
Lemma stored_first : forall shift ws x y z, option_map fst (apply_constraints_on_stored shift ws None x y z) = apply_constraints_on_atom shift ws x y z.
Proof.
  intros shift ws x y z. unfold apply_constraints_on_stored, apply_constraints_on_atom, atom_position. destruct (get_id_for_fract shift ws x y z) as [i|]; [cbn [obind]|reflexivity].
  destruct (nth_error ws i) as [w|]; [cbn [obind]|reflexivity]. destruct (form_object_on_atom shift w x y z); reflexivity.
Qed.
(** Point group and Laue class of 183-186. *)
Lemma no_laue_183 : exists g, space_group 183 (Some "h") = Some g /\ sg_laue_class g = None /\ sg_point_group_hm g = None.
Proof.
  destruct (found 183 (Some "h") (fun g => if isnone (sg_laue_class g) then isnone (sg_point_group_hm g) else false)) as [g [G H]]; [vm_compute; reflexivity|].
  exists g. split; [exact G|]. destruct (sg_laue_class g); [discriminate|]. destruct (sg_point_group_hm g); [discriminate|]. auto.
Qed.
(** A twofold axis along c with the angles constrained for one along b. *)
Definition axis_c (g : SpaceGroup) : bool :=
  match sg_bravais_type g with Some t => if String.eqb t "mP" then ops_check (exb (fun e => m_eqb (e_r e) (mkM (-1) 0 0 0 (-1) 0 0 0 1))) g else false | None => false end.
Lemma cell_not_symmetric : exists g ops e p s r, space_group 3 (Some "c1") = Some g /\ sg_bravais_type g = Some "mP" /\ get_symm_elems (sg_full g) = Some ops /\ In e ops /\ proper_deg p /\
  ~ metric_invariant (radians (fst (fst (fst (apply_constraint_on_cell p s r "mP" "c1"))))) e.
Proof.
  destruct (found 3 (Some "c1") axis_c) as [g [G H]]; [vm_compute; reflexivity|]. unfold axis_c in H. destruct (sg_bravais_type g) as [t|] eqn:T; [|discriminate].
  destruct (String.eqb t "mP") eqn:ET; [|discriminate]. apply String.eqb_eq in ET. subst t. apply ops_check_ok in H as [ops [O H]]. rewrite exb_existsb in H. apply existsb_exists in H as [e [E R]]. apply m_eqb_eq in R.
  exists g, ops, e, (mkU 5 6 7 90 60 90)%R, (mkU 0 0 0 0 0 0)%R, (mkU true true true true true true). repeat (split; [assumption || reflexivity|]).
  split; [unfold proper_deg; cbn [u_a u_b u_c u_al u_be u_ga]; lra|]. intros M. specialize (M X1 X3). rewrite R in M.
  change (fst (fst (fst (apply_constraint_on_cell (mkU 5 6 7 90 60 90)%R (mkU 0 0 0 0 0 0)%R (mkU true true true true true true) "mP" "c1")))) with (mkU 5 6 7 90 60 90)%R in M.
  unfold radians, metric, axis_len, axis_cos, sum3 in M. cbn in M. replace (60 * PI / 180)%R with (PI / 3)%R in M by field. rewrite cos_PI3 in M. clear - M. lra.
Qed.
(** full_coord_xyz of 167 a: twelfths are printed with a denominator of at most 10. *)
Definition misprinted (g : SpaceGroup) : bool :=
  exb (fun w => if str_eqb (w_letter w) (chars "a") then
    match wyckoff_full (sg_shift g) (w_coords w), full_coord_xyz (sg_shift g) (w_coords w) with
    | Some full, Some l => exb (fun p => match symop_r_b (fst p) with Some rb' => far (nth 2 (snd (snd p)) 0 - nth 2 (snd rb') 0)%Q | None => false end) (combine l full)
    | _, _ => false end else false) (sg_wyckoff g).
Lemma misprinted_ok : forall g, misprinted g = true -> exists w full l s rb rb', In w (sg_wyckoff g) /\ w_letter w = chars "a" /\ wyckoff_full (sg_shift g) (w_coords w) = Some full /\ full_coord_xyz (sg_shift g) (w_coords w) = Some l /\ In (s, rb) (combine l full) /\ symop_r_b s = Some rb' /\ ~ same_point (pos_at rb (point 0 0 0)) (pos_at rb' (point 0 0 0)).
Proof.
  intros g H. unfold misprinted in H. rewrite exb_existsb in H. apply existsb_exists in H as [w [W H]]. destruct (str_eqb (w_letter w) (chars "a")) eqn:L; [|discriminate].
  apply String.eqb_eq in L. apply (f_equal list_ascii_of_string) in L. rewrite !list_ascii_of_string_of_list_ascii in L. destruct (wyckoff_full (sg_shift g) (w_coords w)) as [full|] eqn:F; [|discriminate]. destruct (full_coord_xyz (sg_shift g) (w_coords w)) as [l|] eqn:C; [|discriminate].
  rewrite exb_existsb in H. apply existsb_exists in H as [[s rb] [I H]]. cbn [fst snd] in H. destruct (symop_r_b s) as [rb'|] eqn:S; [|discriminate].
  exists w, full, l, s, rb, rb'. repeat (split; [assumption|]). intros P. destruct (P X3) as [n N]. apply (far_ok _ H n). unfold Qminus. rewrite Q2R_plus, Q2R_opp.
  unfold pos_at, sum3, point in N. rewrite RMicromega.Q2R_0, !Rmult_0_r, !Rplus_0_l in N. cbn [nat_of_ix] in N. destruct rb as [rr bb], rb' as [rr' bb']. cbn [snd] in *. unfold Rabs. destruct (Rcase_abs _); lra.
Qed.
Lemma misprinted_167 : exists g w full l s rb rb', space_group 167 (Some "h") = Some g /\ In w (sg_wyckoff g) /\ w_letter w = chars "a" /\ wyckoff_full (sg_shift g) (w_coords w) = Some full /\ full_coord_xyz (sg_shift g) (w_coords w) = Some l /\ In (s, rb) (combine l full) /\ symop_r_b s = Some rb' /\ ~ same_point (pos_at rb (point 0 0 0)) (pos_at rb' (point 0 0 0)).
Proof.
  destruct (found 167 (Some "h") misprinted) as [g [G H]]; [vm_compute; reflexivity|]. destruct (misprinted_ok g H) as [w [full [l [s [rb [rb' K]]]]]]. exists g, w, full, l, s, rb, rb'. split; [exact G|exact K].
Qed.
