(** Atoms on Wyckoff positions: the position assigned to a point, the constraint flags, the coordinates after apply_constraints. *)
From Coq Require Import Reals ZArith QArith Qreals List String Bool Lia Lra.
From Verif Require Import Spec.Lin3 Spec.Symm Spec.SgSpec Model.Strings Model.Symmetry Model.SgTables Model.WyckoffData Model.SpaceGroup Proofs.SymmBaseP Proofs.SgCheckP Proofs.SgAllP Proofs.SgWyckP Proofs.WyckSolP.
Import ListNotations.
Open Scope string_scope.
Open Scope list_scope.
Open Scope Z_scope.

Definition shape3 (rb : mat * vec) : bool := match rb with ([[_;_;_];[_;_;_];[_;_;_]],[_;_;_]) => true | _ => false end.
Definition ent (r : mat) (i j : nat) : Q := nth j (nth i r []) 0%Q.
Definition nz (q : Q) : bool := negb (Qeq_bool q 0).
Definition ixs : list nat := [0; 1; 2]%nat.
Definition triang (r : mat) : bool :=
  forallb (fun i => if nz (ent r i i) then forallb (fun j => if Nat.eqb i j then true else negb (nz (ent r i j))) ixs
                    else forallb (fun j => if nz (ent r i j) then nz (ent r j j) else true) ixs) ixs.
Definition qsame (a b : Q) : bool := if Z.eqb (Qnum a) (Qnum b) then Pos.eqb (Qden a) (Qden b) else false.
Fixpoint lsame {A} (eq : A -> A -> bool) (l m : list A) : bool :=
  match l, m with [], [] => true | a :: l, b :: m => if eq a b then lsame eq l m else false | _, _ => false end.
Lemma qsame_eq : forall a b, qsame a b = true -> a = b.
Proof. intros [n d] [m e]. unfold qsame. cbn. destruct (Z.eqb_spec n m); [|discriminate]. intros H. apply Pos.eqb_eq in H. congruence. Qed.
Lemma lsame_eq : forall A (eq : A -> A -> bool), (forall a b, eq a b = true -> a = b) -> forall l m, lsame eq l m = true -> l = m.
Proof.
  intros A eq E. induction l as [|a l IH]; intros [|b m] H; cbn in H; try discriminate; [reflexivity|]. destruct (eq a b) eqn:F; [|discriminate].
  f_equal; auto.
Qed.
Definition rb_same (a b : mat * vec) : bool := if lsame (lsame qsame) (fst a) (fst b) then lsame qsame (snd a) (snd b) else false.
Lemma rb_same_eq : forall a b, rb_same a b = true -> a = b.
Proof.
  intros [r b] [r' b']. unfold rb_same. cbn. destruct (lsame (lsame qsame) r r') eqn:E; [|discriminate]. intros H. f_equal.
  - revert E. apply lsame_eq, lsame_eq, qsame_eq.
  - revert H. apply lsame_eq, qsame_eq.
Qed.
Definition id_rb : mat * vec := ([[1; 0; 0]; [0; 1; 0]; [0; 0; 1]], [0; 0; 0])%Q.
Definition up (rb : mat * vec) : bool := match fst rb with [a; b; c] => unit_pivots a b c | _ => false end.
(** What holds of each position (unit pivots: unless doubled). *)
Definition shape_ok (shift : list (list Q)) (doubled : bool) (w : WPos) : bool :=
  match wyckoff_full shift (w_coords w), w_coords w with
  | Some (f0 :: fl), c0 :: _ =>
      match symop_r_b c0 with
      | Some (r0, b0) =>
          if rb_same f0 (r0, map frac_mod_1 b0) then if shape3 (r0, b0) then if triang r0 then if forallb shape3 (f0 :: fl) then if doubled then true else forallb up (f0 :: fl)
          else false else false else false else false
      | None => false end
  | _, _ => false end.
Definition general (shift : list (list Q)) (w : WPos) : bool :=
  match wyckoff_full shift (w_coords w) with Some full => exb (rb_same id_rb) full | None => false end.
Fixpoint nodup_letters (l : list WPos) : bool :=
  match l with [] => true | w :: r => if exb (fun v => str_eqb (w_letter w) (w_letter v)) r then false else nodup_letters r end.
Lemma nodup_letters_ok : forall l, nodup_letters l = true -> NoDup (map w_letter l).
Proof.
  induction l as [|w r IH]; intros H; cbn [map]; [constructor|]. cbn [nodup_letters] in H. destruct (exb _ r) eqn:E; [discriminate|]. constructor; [|now apply IH].
  intros I. apply in_map_iff in I as [v [V R]]. rewrite exb_existsb in E. assert (X : existsb (fun v => str_eqb (w_letter w) (w_letter v)) r = true).
  { apply existsb_exists. exists v. split; [exact R|]. rewrite V. unfold str_eqb. apply String.eqb_refl. } congruence.
Qed.
Definition shapes_ok (it : Z) (code : option string) (g : SpaceGroup) : bool :=
  if forallb (fun w => shape_ok (sg_shift g) (doubled_position it code (w_letter w)) w) (sg_wyckoff g) then if nodup_letters (sg_wyckoff g) then exb (general (sg_shift g)) (sg_wyckoff g) else false else false.
Lemma shapes_all : each settings (fun it code g => match g with None => true | Some g => shapes_ok it code g end) = true.
Proof. vm_compute. reflexivity. Qed.
Record good_position (shift : list (list Q)) (doubled : bool) (w : WPos) (r0 : mat) (b0 : vec) (full : list (mat * vec)) : Prop := {
  gp_full : wyckoff_full shift (w_coords w) = Some full;
  gp_first : exists c0 cs, w_coords w = c0 :: cs /\ symop_r_b c0 = Some (r0, b0);
  gp_head : exists fl, full = (r0, map frac_mod_1 b0) :: fl;
  gp_shape : shape3 (r0, b0) = true;
  gp_triang : triang r0 = true;
  gp_shapes : forall rb, In rb full -> shape3 rb = true;
  gp_up : doubled = false -> forall rb, In rb full -> up rb = true }.
Lemma shape_ok_good : forall shift d w, shape_ok shift d w = true -> exists r0 b0 full, good_position shift d w r0 b0 full.
Proof.
  intros shift d w H. unfold shape_ok in H. destruct (wyckoff_full shift (w_coords w)) as [[|f0 fl]|] eqn:F; try discriminate.
  destruct (w_coords w) as [|c0 cs] eqn:C; [discriminate|]. destruct (symop_r_b c0) as [[r0 b0]|] eqn:S; [|discriminate].
  destruct (rb_same f0 (r0, map frac_mod_1 b0)) eqn:E; [|discriminate]. apply rb_same_eq in E. subst f0.
  destruct (shape3 (r0, b0)) eqn:S3; [|discriminate]. destruct (triang r0) eqn:T; [|discriminate]. destruct (forallb shape3 _) eqn:FS; [|discriminate].
  exists r0, b0, ((r0, map frac_mod_1 b0) :: fl). constructor; try assumption; try (rewrite C; assumption).
  - exists c0, cs. auto.
  - exists fl. reflexivity.
  - intros rb I. rewrite forallb_forall in FS. now apply FS.
  - intros -> rb I. rewrite forallb_forall in H. now apply H.
Qed.
Lemma all_good : forall it code g, 1 <= it <= 230 -> offered (get_it_coordinate_system_codes_by_it_number it) code -> space_group it code = Some g ->
  (forall w, In w (sg_wyckoff g) -> exists r0 b0 full, good_position (sg_shift g) (doubled_position it code (w_letter w)) w r0 b0 full) /\
  (exists w full, In w (sg_wyckoff g) /\ wyckoff_full (sg_shift g) (w_coords w) = Some full /\ In id_rb full) /\
  NoDup (map w_letter (sg_wyckoff g)).
Proof.
  intros it code g I O B. generalize (each_ok _ shapes_all it code I O). cbv beta. rewrite B. unfold shapes_ok.
  destruct (forallb _ (sg_wyckoff g)) eqn:F; [|discriminate]. destruct (nodup_letters (sg_wyckoff g)) eqn:ND; [|discriminate]. intros X. split; [|split; [|now apply nodup_letters_ok]].
  - intros w W. rewrite forallb_forall in F. apply shape_ok_good, F, W.
  - rewrite exb_existsb in X. apply existsb_exists in X as [w [W G]]. unfold general in G. destruct (wyckoff_full (sg_shift g) (w_coords w)) as [full|] eqn:E; [|discriminate].
    rewrite exb_existsb in G. apply existsb_exists in G as [rb [R S]]. apply rb_same_eq in S. subst rb. exists w, full. auto.
Qed.

(** ** The test of one expression *)
Lemma eqm_Q2R : forall a b, eqm a b -> exists n : Z, Q2R a = (Q2R b + IZR n)%R.
Proof. intros a b [n N]. exists n. apply Qeq_eqR in N. rewrite Q2R_plus, Q2R_inject in N. exact N. Qed.
Lemma shape3_len : forall r b, shape3 (r, b) = true -> exists r1 r2 r3 b1 b2 b3, r = [r1; r2; r3] /\ b = [b1; b2; b3] /\ len3 r1 /\ len3 r2 /\ len3 r3.
Proof.
  intros r b H. unfold shape3 in H.
  destruct r as [|[|a1 [|a2 [|a3 [|]]]] [|[|a4 [|a5 [|a6 [|]]]] [|[|a7 [|a8 [|a9 [|]]]] [|]]]]; try discriminate.
  destruct b as [|x [|y [|z [|]]]]; try discriminate. repeat eexists.
Qed.
Definition tr (t : nat -> Q) : ix -> R := fun i => Q2R (t (nat_of_ix i)).
Lemma dot_R : forall r t, Q2R (dot r t) = dotR r (tr t).
Proof. intros r t. unfold dot, dotR, tr. cbn [nat_of_ix]. rewrite !Q2R_plus, !Q2R_mult. reflexivity. Qed.
Lemma pos_at_dot : forall r1 r2 r3 b t i, pos_at ([r1; r2; r3], b) t i = (dotR (match i with X1 => r1 | X2 => r2 | X3 => r3 end) t + Q2R (nth (nat_of_ix i) b 0%Q))%R.
Proof. intros r1 r2 r3 b t [| |]; reflexivity. Qed.
Lemma mask_sound : forall r b x y z, shape3 (r, b) = true -> is_good_for_mask r b x y z = true -> exists t, same_point (point x y z) (pos_at (r, b) t).
Proof.
  intros r b x y z S H. destruct (shape3_len r b S) as [r1 [r2 [r3 [b1 [b2 [b3 [-> [-> [L1 [L2 L3]]]]]]]]]]. unfold is_good_for_mask in H.
  destruct (solution_sound _ _ _ _ _ _ L1 L2 L3 H) as [t [T1 [T2 T3]]]. exists (tr t).
  assert (G : forall a q b, eqm a (frac_mod_1 (q - b)) -> exists n : Z, Q2R q = (Q2R a + Q2R b + IZR n)%R).
  { intros a q c E. destruct (eqm_Q2R _ _ (eqm_trans _ _ _ E (frac_mod_eqm _))) as [n N]. exists (- n)%Z. rewrite N, Q2R_minus, opp_IZR. lra. }
  intros i. rewrite pos_at_dot. destruct i; rewrite <- dot_R; cbn [point nat_of_ix nth]; apply G; assumption.
Qed.
Lemma mask_complete : forall r b x y z t, shape3 (r, b) = true -> up (r, b) = true -> same_point (point x y z) (pos_at (r, b) t) -> is_good_for_mask r b x y z = true.
Proof.
  intros r b x y z t S U H. destruct (shape3_len r b S) as [r1 [r2 [r3 [b1 [b2 [b3 [-> [-> [L1 [L2 L3]]]]]]]]]]. unfold is_good_for_mask. cbn [up fst] in U.
  assert (G : forall i q c, point x y z i = Q2R q -> nth (nat_of_ix i) [b1; b2; b3] 0%Q = c ->
     eqmR (dotR (match i with X1 => r1 | X2 => r2 | X3 => r3 end) t) (Q2R (frac_mod_1 (q - c)))).
  { intros i q c P Q. apply eqmR_frac. destruct (H i) as [n N]. rewrite pos_at_dot, P, Q in N. exists (- n)%Z. rewrite Q2R_minus, opp_IZR. lra. }
  apply (solution_complete _ _ _ _ _ _ t L1 L2 L3 U); [apply (G X1)|apply (G X2)|apply (G X3)]; reflexivity.
Qed.
Lemma id_at : forall p i, pos_at id_rb p i = p i.
Proof. intros p [| |]; unfold pos_at, id_rb, sum3; cbn [nat_of_ix nth fst snd]; rewrite RMicromega.Q2R_0, RMicromega.Q2R_1; ring. Qed.
Lemma mask_id : forall x y z, is_good_for_mask (fst id_rb) (snd id_rb) x y z = true.
Proof.
  intros x y z. apply (mask_complete _ _ x y z (point x y z)); [reflexivity|vm_compute; reflexivity|]. intros i. exists 0. rewrite Rplus_0_r. symmetry. exact (id_at (point x y z) i).
Qed.

(** ** The position assigned to a point *)
Lemma opt_list_some : forall A (l : list (option A)) r, opt_list l = Some r -> l = map Some r.
Proof.
  induction l as [|[a|] l IH]; intros r H; cbn in H; [inversion H; reflexivity| |discriminate]. destruct (opt_list l) as [r'|] eqn:E; [|discriminate].
  inversion H; subst. cbn. f_equal. now apply IH.
Qed.
Lemma opt_list_none : forall A (l : list (option A)), opt_list l = None -> In None l.
Proof.
  induction l as [|[a|] l IH]; intros H; cbn in H; [discriminate| |left; reflexivity]. destruct (opt_list l) as [r'|] eqn:E; [discriminate|]. right. now apply IH.
Qed.
Lemma least_mult_ok : forall l p, least_mult l = Some p -> In p l /\ forall q, In q l -> snd p <= snd q.
Proof.
  induction l as [|a l IH]; intros p H; cbn in H; [discriminate|]. destruct (least_mult l) as [q|] eqn:E.
  - destruct (IH q eq_refl) as [I M]. destruct (Z.leb_spec (snd a) (snd q)); inversion H; subst p.
    + split; [left; reflexivity|]. intros k [<-|K]; [lia|]. specialize (M k K). lia.
    + split; [right; exact I|]. intros k [<-|K]; [lia|]. exact (M k K).
  - inversion H; subst p. split; [left; reflexivity|]. intros k [<-|K]; [lia|]. destruct l as [|b l]; [destruct K|]. cbn in E. destruct (least_mult l); [destruct (snd b <=? snd p)|]; discriminate.
Qed.
Lemma least_mult_some : forall l, l <> [] -> least_mult l <> None.
Proof. intros [|a l] H; [congruence|]. cbn. destruct (least_mult l); [destruct (snd a <=? snd p)|]; discriminate. Qed.
Lemma combine_seq : forall A (l : list A) s i a, In (i, a) (combine (seq s (List.length l)) l) <-> exists k, (i = s + k)%nat /\ nth_error l k = Some a.
Proof.
  induction l as [|b l IH]; intros s i a; cbn [List.length seq combine].
  - split; [intros []|]. intros [[|k] [_ E]]; discriminate.
  - split.
    + intros [E|I]; [inversion E; subst; exists 0%nat; split; [lia|reflexivity]|]. apply IH in I as [k [-> K]]. exists (S k). split; [lia|exact K].
    + intros [[|k] [-> K]]; [left; cbn in K; inversion K; f_equal; lia|]. right. apply IH. exists k. split; [lia|exact K].
Qed.
Definition valid_for (shift : list (list Q)) (w : WPos) (x y z : Q) : Prop :=
  exists full, wyckoff_full shift (w_coords w) = Some full /\ is_valid_for_fract full x y z = true.
Lemma get_id_ok : forall shift ws x y z i, get_id_for_fract shift ws x y z = Some i ->
  exists w, nth_error ws i = Some w /\ valid_for shift w x y z /\ forall w', In w' ws -> valid_for shift w' x y z -> w_mult w <= w_mult w'.
Proof.
  intros shift ws x y z i H. unfold get_id_for_fract, obind at 1 in H. destruct (opt_list _) as [l|] eqn:E; [|discriminate]. apply opt_list_some in E.
  cbn [obind] in H. destruct (least_mult (List.concat l)) as [[j m]|] eqn:L; [|discriminate]. cbn in H. inversion H; subst j. clear H.
  apply least_mult_ok in L as [I M].
  assert (K : forall k m', In (k, m') (List.concat l) <-> exists w, nth_error ws k = Some w /\ m' = w_mult w /\ valid_for shift w x y z).
  { intros k m'. rewrite in_concat. split.
    - intros [q [Q P]]. apply (in_map Some) in Q. rewrite <- E in Q. apply in_map_iff in Q as [[j w] [Q J]]. cbn [fst snd] in Q. apply combine_seq in J as [n [-> N]].
      unfold obind in Q. destruct (wyckoff_full shift (w_coords w)) as [full|] eqn:F; [|discriminate]. destruct (is_valid_for_fract full x y z) eqn:V; inversion Q; subst q; [|destruct P].
      destruct P as [P|[]]. inversion P; subst. exists w. split; [exact N|]. split; [reflexivity|]. exists full. auto.
    - intros [w [N [-> [full [F V]]]]].
      assert (J : In (k, w) (combine (seq 0 (List.length ws)) ws)) by (apply combine_seq; exists k; auto).
      apply (in_map (fun iw => obind (wyckoff_full shift (w_coords (snd iw))) (fun full => Some (if is_valid_for_fract full x y z then [(fst iw, w_mult (snd iw))] else [])))) in J.
      cbn [fst snd] in J. rewrite F in J. cbn [obind] in J. rewrite V in J. rewrite E in J. apply in_map_iff in J as [q [Q1 Q2]]. inversion Q1; subst q. exists [(k, w_mult w)]. split; [exact Q2|left; reflexivity]. }
  apply K in I as [w [N [-> V]]]. exists w. split; [exact N|]. split; [exact V|]. intros w' W' V'. apply In_nth_error in W' as [k N']. 
  specialize (M (k, w_mult w')). cbn [snd] in M. apply M. apply K. exists w'. auto.
Qed.
Lemma get_id_total : forall shift ws x y z, (forall w, In w ws -> wyckoff_full shift (w_coords w) <> None) -> (exists w, In w ws /\ valid_for shift w x y z) ->
  get_id_for_fract shift ws x y z <> None.
Proof.
  intros shift ws x y z F [w [W [full [FW V]]]] H. unfold get_id_for_fract, obind at 1 in H. destruct (opt_list _) as [l|] eqn:E.
  - apply opt_list_some in E. cbn [obind] in H. destruct (least_mult (List.concat l)) as [p|] eqn:L; [discriminate|]. revert L. apply least_mult_some.
    apply In_nth_error in W as [k N].
    assert (J : In (k, w) (combine (seq 0 (List.length ws)) ws)) by (apply combine_seq; exists k; auto).
    apply (in_map (fun iw => obind (wyckoff_full shift (w_coords (snd iw))) (fun full => Some (if is_valid_for_fract full x y z then [(fst iw, w_mult (snd iw))] else [])))) in J.
    cbn [fst snd] in J. rewrite FW in J. cbn [obind] in J. rewrite V in J. rewrite E in J. apply in_map_iff in J as [q [Q1 Q2]]. inversion Q1; subst q.
    intros C. assert (X : In (k, w_mult w) (List.concat l)) by (apply in_concat; exists [(k, w_mult w)]; split; [exact Q2|left; reflexivity]). rewrite C in X. destruct X.
  - apply opt_list_none in E. apply in_map_iff in E as [[j v] [Q J]]. cbn [fst snd] in Q. apply combine_seq in J as [n [-> N]]. apply nth_error_In in N. apply F in N.
    unfold obind in Q. destruct (wyckoff_full shift (w_coords v)); [discriminate|]. contradiction.
Qed.
(** A coordinate with a denominator of at most 99999 is taken as it is. *)
Lemma limit_small : forall m q, Zpos (Qden (Qred q)) <= m -> limit_denominator m q = Qred q.
Proof. intros m q H. unfold limit_denominator. apply Z.leb_le in H. rewrite H. reflexivity. Qed.
Lemma point_red : forall x y z i, point (Qred x) (Qred y) (Qred z) i = point x y z i.
Proof. intros x y z [| |]; cbn; apply Qeq_eqR, Qred_correct. Qed.
Lemma sp_refl' : forall x y : ix -> R, (forall i, x i = y i) -> same_point x y.
Proof. intros x y H i. exists 0. rewrite H. ring. Qed.
Lemma valid_sound : forall shift d w r0 b0 full x y z, good_position shift d w r0 b0 full ->
  is_valid_for_fract full x y z = true -> lies_on full (point (limit_denominator 99999 x) (limit_denominator 99999 y) (limit_denominator 99999 z)).
Proof.
  intros shift d w r0 b0 full x y z G V. unfold is_valid_for_fract in V. apply existsb_exists in V as [[r b] [I M]]. cbn [fst snd] in M.
  destruct (mask_sound r b _ _ _ (gp_shapes _ _ _ _ _ _ G (r, b) I) M) as [t T]. exists (r, b), t. split; [exact I|exact T].
Qed.
Lemma valid_complete : forall shift w r0 b0 full x y z, good_position shift false w r0 b0 full ->
  lies_on full (point (limit_denominator 99999 x) (limit_denominator 99999 y) (limit_denominator 99999 z)) -> is_valid_for_fract full x y z = true.
Proof.
  intros shift w r0 b0 full x y z G [[r b] [t [I T]]]. unfold is_valid_for_fract. apply existsb_exists. exists (r, b). split; [exact I|]. cbn [fst snd].
  eapply mask_complete; [exact (gp_shapes _ _ _ _ _ _ G (r, b) I)|exact (gp_up _ _ _ _ _ _ G eq_refl (r, b) I)|exact T].
Qed.
(** A point of a position: its orbit are the points of the position. *)
Lemma orbit_move : forall ops p q l, symmetry_group ops -> (exists e, In e ops /\ same_point q (act e p)) -> orbit_of ops p l -> orbit_of ops q l.
Proof.
  intros ops p q l [_ [_ [C [V _]]]] [e [E Q]] [O1 O2]. split.
  - intros k K. destruct (O1 k K) as [f [F P]]. destruct (V e E) as [e' [E' Ie]]. destruct (C f e' F E') as [h [H HC]]. exists h. split; [exact H|].
    eapply sp_trans; [exact P|]. eapply sp_trans; [|apply sp_sym, HC]. apply act_sp. eapply sp_trans; [apply sp_sym, (Ie p)|]. apply act_sp, sp_sym, Q.
  - intros f F. destruct (C f e F E) as [h [H HC]]. destruct (O2 h H) as [k [K P]]. exists k. split; [exact K|].
    eapply sp_trans; [apply act_sp, Q|]. eapply sp_trans; [apply sp_sym, HC|]. exact P.
Qed.
Lemma on_orbit : forall ops mult full p, symmetry_group ops -> wyckoff_position ops mult full -> lies_on full p -> orbit_at_most ops p mult.
Proof.
  intros ops mult full p G [[p0 [r [E O]]] [L _]] [rb [t [I S]]]. exists (map (fun p => pos_at p t) full). split; [rewrite map_length; exact L|].
  rewrite E in *. specialize (O t). eapply orbit_move; [exact G| |exact O]. destruct O as [O1 _]. destruct (O1 (pos_at rb t)) as [e [He P]].
  - apply (in_map (fun p => pos_at p t)). exact I.
  - exists e. split; [exact He|]. eapply sp_trans; [exact S|exact P].
Qed.
