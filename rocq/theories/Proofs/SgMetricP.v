(** The constrained cell has the symmetry of the operations; the full_coord_xyz strings. *)
From Coq Require Import Reals ZArith QArith Qreals List String Ascii Bool Lia Lra.
From Verif Require Import Spec.Lin3 Spec.Cell Spec.Symm Spec.Lattice Spec.Text Spec.SgSpec Model.Strings Model.Symmetry Model.Vibration Model.SgTables Model.WyckoffData Model.SpaceGroup Proofs.StringsP Proofs.SymmBaseP Proofs.SgCheckP Proofs.SgAllP.
Import ListNotations.
Open Scope string_scope.
Open Scope list_scope.
Open Scope Z_scope.

(** Bases (times 2) of the metric tensors the constraints leave possible. *)
Definition E11 : M3 Z := mkM 2 0 0 0 0 0 0 0 0. Definition E22 : M3 Z := mkM 0 0 0 0 2 0 0 0 0. Definition E33 : M3 Z := mkM 0 0 0 0 0 0 0 0 2.
Definition E12 : M3 Z := mkM 0 2 0 2 0 0 0 0 0. Definition E13 : M3 Z := mkM 0 0 2 0 0 0 2 0 0. Definition E23 : M3 Z := mkM 0 0 0 0 0 2 0 2 0.
Definition EHex : M3 Z := mkM 2 (-1) 0 (-1) 2 0 0 0 0. Definition ETet : M3 Z := mkM 2 0 0 0 2 0 0 0 0.
Definition ECub : M3 Z := mkM 2 0 0 0 2 0 0 0 2. Definition EOff : M3 Z := mkM 0 2 2 2 0 2 2 2 0.
Definition family_basis (t c : string) : list (M3 Z) :=
  if String.eqb t "aP" then [E11; E22; E33; E12; E13; E23]
  else if startswith t "m" then [E11; E22; E33; E13]
  else if startswith t "o" then [E11; E22; E33]
  else if startswith t "t" then [ETet; E33]
  else if startswith t "hP" then (if String.eqb (lower c) "h" then [EHex; E33] else [ECub; EOff])
  else if String.eqb t "hR" then (if String.eqb (lower c) "h" then [EHex; E33] else [ECub; EOff])
  else if startswith t "c" then [ECub]
  else [E11; E22; E33; E12; E13; E23].
Definition in_span (l : list (M3 Z)) (G : ix -> ix -> R) : Prop :=
  exists c : list R, List.length c = List.length l /\ forall i j, G i j = fold_right Rplus 0%R (map (fun p => fst p * IZR (mget (snd p) i j))%R (combine c l)).
Lemma cos_90 : cos (90 * PI / 180) = 0%R. Proof. replace (90 * PI / 180)%R with (PI / 2)%R by field. apply cos_PI2. Qed.
Lemma cos_120 : cos (120 * PI / 180) = (- (1 / 2))%R.
Proof. replace (120 * PI / 180)%R with (PI - PI / 3)%R by field. rewrite cos_minus, cos_PI, sin_PI, cos_PI3. lra. Qed.
Lemma cell_in_span : forall t c p s r, in_span (family_basis t c) (metric (radians (fst (fst (fst (apply_constraint_on_cell p s r t c)))))).
Proof.
  intros t c [a b cc al be ga] [a' b' cc' al' be' ga'] [a'' b'' cc'' al'' be'' ga'']. unfold family_basis, apply_constraint_on_cell.
  repeat match goal with |- context [if ?b then _ else _] => destruct b end; cbn [fst]; unfold radians; cbn [u_a u_b u_c u_al u_be u_ga];
  (match goal with
   | |- in_span [E11; E22; E33; E12; E13; E23] _ => exists [a * a / 2; b * b / 2; cc * cc / 2; a * b * cos (ga * PI / 180) / 2; a * cc * cos (be * PI / 180) / 2; b * cc * cos (al * PI / 180) / 2]%R
   | |- in_span [E11; E22; E33; E13] _ => exists [a * a / 2; b * b / 2; cc * cc / 2; a * cc * cos (be * PI / 180) / 2]%R
   | |- in_span [E11; E22; E33] _ => exists [a * a / 2; b * b / 2; cc * cc / 2]%R
   | |- in_span [ETet; E33] _ => exists [a * a / 2; cc * cc / 2]%R
   | |- in_span [EHex; E33] _ => exists [a * a / 2; cc * cc / 2]%R
   | |- in_span [ECub; EOff] _ => exists [a * a / 2; a * a * cos (al * PI / 180) / 2]%R
   | |- in_span [ECub] _ => exists [a * a / 2]%R
   end); (split; [reflexivity|]); intros [| |] [| |]; unfold metric, axis_len, axis_cos; cbn [u_a u_b u_c u_al u_be u_ga]; rewrite ?cos_90, ?cos_120;
  cbn [combine map fold_right fst snd mget E11 E22 E33 E12 E13 E23 ETet EHex ECub EOff m_11 m_12 m_13 m_21 m_22 m_23 m_31 m_32 m_33]; unfold E11, E22, E33, E12, E13, E23, ETet, EHex, ECub, EOff; cbn [mget]; field.
Qed.
(** R^T B R = B *)
Definition keeps (B : M3 Z) (r : M3 Z) : bool :=
  forallb (fun i => forallb (fun j => fold_right Z.add 0 (map (fun k => fold_right Z.add 0 (map (fun l => mget r k i * mget B k l * mget r l j) [X1; X2; X3])) [X1; X2; X3]) =? mget B i j) [X1; X2; X3]) [X1; X2; X3].
Lemma in_ix : forall i, In i [X1; X2; X3]. Proof. intros [| |]; cbn; auto. Qed.
Lemma keeps_ok : forall B r, keeps B r = true -> forall i j, (sum3 (fun k => sum3 (fun l => IZR (mget r k i) * IZR (mget B k l) * IZR (mget r l j))) = IZR (mget B i j))%R.
Proof.
  intros B r H i j. unfold keeps in H. rewrite forallb_forall in H. specialize (H i (in_ix i)). rewrite forallb_forall in H. specialize (H j (in_ix j)). apply Z.eqb_eq in H.
  rewrite <- H. cbn [map fold_right]. unfold sum3. rewrite !plus_IZR, !mult_IZR. ring.
Qed.
Lemma span_invariant : forall l uc e, in_span l (metric uc) -> forallb (fun B => keeps B (e_r e)) l = true -> metric_invariant uc e.
Proof.
  intros l uc e [c [L G]] H i j. rewrite G. 
  transitivity (sum3 (fun k => sum3 (fun m => IZR (mget (e_r e) k i) * fold_right Rplus 0 (map (fun p => fst p * IZR (mget (snd p) k m)) (combine c l)) * IZR (mget (e_r e) m j))))%R.
  { unfold sum3. rewrite !G. reflexivity. }
  clear G. revert c L H. induction l as [|B l IH]; intros [|x c] L H; try discriminate; [unfold sum3; cbn; ring|].
  cbn [forallb] in H. apply andb_prop in H as [H1 H2]. cbn [combine map fold_right fst snd]. rewrite <- (IH c ltac:(now inversion L) H2).
  rewrite <- (keeps_ok B (e_r e) H1 i j). unfold sum3. ring.
Qed.
Definition code_str (code : option string) : string := match code with Some c => c | None => "" end.
(** Monoclinic settings with unique axis a or c. *)
Definition other_axis (t c : string) : bool := if startswith t "m" then negb (Ascii.eqb (Lattice.unique_axis c) "b"%char) else false.
Definition metric_ok (g : SpaceGroup) (o : option (list Op)) : bool :=
  match sg_bravais_type g, o with
  | Some t, Some ops => if other_axis t (code_str (sg_code g)) then true
                        else forallb (fun e => forallb (fun B => keeps B (e_r e)) (family_basis t (code_str (sg_code g)))) ops
  | _, _ => false end.
Lemma metric_all : eacho settings (fun it code g o => match g with None => true | Some g => if opt_eqb (sg_code g) code then metric_ok g o else false end) = true.
Proof. vm_compute. reflexivity. Qed.
Lemma cell_symmetry : forall it code g, 1 <= it <= 230 -> offered (get_it_coordinate_system_codes_by_it_number it) code -> space_group it code = Some g ->
  exists t ops, sg_bravais_type g = Some t /\ get_symm_elems (sg_full g) = Some ops /\
  ((startswith t "m" = true -> Lattice.unique_axis (code_str code) = "b"%char) ->
  forall p s r e, In e ops -> metric_invariant (radians (fst (fst (fst (apply_constraint_on_cell p s r t (code_str code)))))) e).
Proof.
  intros it code g I O B. generalize (eacho_ok _ metric_all it code g I O B). cbv beta iota. destruct (opt_eqb (sg_code g) code) eqn:EC; [|discriminate].
  apply opt_eqb_eq in EC. unfold metric_ok. rewrite EC. destruct (sg_bravais_type g) as [t|]; [|discriminate]. destruct (get_symm_elems (sg_full g)) as [ops|]; [|discriminate].
  intros H. exists t, ops. split; [reflexivity|]. split; [reflexivity|]. intros M p s r e He. destruct (other_axis t (code_str code)) eqn:OA.
  - unfold other_axis in OA. destruct (startswith t "m"); [|discriminate]. rewrite (M eq_refl) in OA. discriminate.
  - rewrite forallb_forall in H. eapply span_invariant; [apply cell_in_span|]. exact (H e He).
Qed.

(** ** full_coord_xyz *)
Definition small (q : Q) : bool := let r := Qred q in if Z.eqb (Qnum r) (Qnum q) then (if Pos.eqb (Qden r) (Qden q) then Pos.leb (Qden q) 10 else false) else false.
Lemma small_ok : forall q, small q = true -> small_fraction q.
Proof.
  intros [n d] H. unfold small in H. cbn [Qnum Qden] in H. destruct (Qred (n # d)) as [n' d'] eqn:E. cbn [Qnum Qden] in H. destruct (Z.eqb_spec n' n) as [->|]; [|discriminate].
  destruct (Pos.eqb_spec d' d) as [->|]; [|discriminate]. apply Pos.leb_le in H. split; [exact E|]. cbn [Qden]. lia.
Qed.
Definition small_op (rb : mat * vec) : bool :=
  match rb with
  | ([[a1; a2; a3]; [a4; a5; a6]; [a7; a8; a9]], [x; y; z]) => forallb small [a1; a2; a3; a4; a5; a6; a7; a8; a9; x; y; z]
  | _ => false end.
Lemma small_op_read : forall rb, small_op rb = true -> symop_r_b (transform_r_b_to_string (fst rb) (snd rb) xyz) = Some rb.
Proof.
  intros [m v] H. unfold small_op in H.
  destruct m as [|[|a1 [|a2 [|a3 [|]]]] [|[|a4 [|a5 [|a6 [|]]]] [|[|a7 [|a8 [|a9 [|]]]] [|]]]]; try discriminate. destruct v as [|x [|y [|z [|]]]]; try discriminate.
  rewrite forallb_forall in H. assert (S : forall q, In q [a1; a2; a3; a4; a5; a6; a7; a8; a9; x; y; z] -> small_fraction q) by (intros q I; apply small_ok; now apply H).
  unfold symop_r_b. cbn [fst snd]. apply operation_round_trip.
  - unfold xyz. repeat constructor; cbn; intros C; repeat destruct C as [C|C]; try discriminate; contradiction.
  - unfold xyz. repeat constructor.
  - discriminate.
  - reflexivity.
  - repeat (constructor; [split; [reflexivity|]; repeat (constructor; [apply S; cbn; tauto|]); constructor|]). constructor.
  - repeat (constructor; [apply S; cbn; tauto|]). constructor.
Qed.
Definition coords_ok (shift : list (list Q)) (w : WPos) : bool :=
  match wyckoff_full shift (w_coords w) with Some full => forallb small_op full | _ => false end.
Lemma coords_all : each settings (fun it code g => match g with None => true | Some g =>
   forallb (fun w => if misprinted_position it code (w_letter w) then true else coords_ok (sg_shift g) w) (sg_wyckoff g) end) = true.
Proof. vm_compute. reflexivity. Qed.
Lemma coordinate_strings : forall it code g w, 1 <= it <= 230 -> offered (get_it_coordinate_system_codes_by_it_number it) code -> space_group it code = Some g ->
  In w (sg_wyckoff g) -> misprinted_position it code (w_letter w) = false ->
  exists full l, wyckoff_full (sg_shift g) (w_coords w) = Some full /\ full_coord_xyz (sg_shift g) (w_coords w) = Some l /\
    Forall2 (fun s rb => exists rb', symop_r_b s = Some rb' /\ forall t i, pos_at rb' t i = pos_at rb t i) l full.
Proof.
  intros it code g w I O B W M. generalize (each_ok _ coords_all it code I O). cbv beta. rewrite B. rewrite forallb_forall. intros H. specialize (H w W). rewrite M in H.
  unfold coords_ok in H. unfold full_coord_xyz. destruct (wyckoff_full (sg_shift g) (w_coords w)) as [full|]; [|discriminate]. cbn [obind].
  eexists full, _. split; [reflexivity|]. split; [reflexivity|]. clear - H. induction full as [|rb full IH]; cbn [map]; constructor; cbn [forallb] in H; apply andb_prop in H as [H1 H2].
  - exists rb. split; [|reflexivity]. now apply small_op_read.
  - now apply IH.
Qed.
