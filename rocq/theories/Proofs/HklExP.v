From Coq Require Import Reals ZArith List Bool Lra Lia Permutation Sorting.Sorted.
From Coquelicot Require Import Complex.
From Verif Require Import Spec.Lin3 Spec.Cell Spec.Symm Spec.Scatter Spec.HklSpec Model.UnitCell Model.Symmetry Model.StructFactor Model.HklList
  Proofs.UnitCellP Proofs.SymmBaseP Proofs.SymmGroupP Proofs.SymmExP Proofs.ScatterP Proofs.StructFactorP Proofs.StructFactorP2 Proofs.HklListP Proofs.HklListP2.
Import ListNotations.
Open Scope list_scope.
Open Scope R_scope.

Definition body : list (V3 Z * Z) := [(mkV 0 0 0, 1); (mkV 1 1 1, 2)]%Z.
Definition mono : U6 R := mkU 3 4 5 (PI / 2) (PI / 3) (PI / 2).
Lemma body_group : symmetry_group (map translation_op body).
Proof.
  set (o := translation_op (mkV 0 0 0, 1)%Z). set (t := translation_op (mkV 1 1 1, 2)%Z).
  assert (Ao : forall x i, act o x i = x i) by (intros x i; unfold o; rewrite act_tr; unfold frac; destruct i; cbn; field).
  assert (At : forall x i, act t x i = x i + 1 / 2) by (intros x i; unfold t; rewrite act_tr; unfold frac; destruct i; cbn; reflexivity).
  unfold body. cbn [map]. fold o t. unfold symmetry_group. split.
  { intros e [<-|[<-|[]]]; reflexivity. }
  split. { exists o. split; [left; reflexivity|]. intros x i. exists 0%Z. rewrite Ao. ring. }
  split.
  { intros e f [<-|[<-|[]]] [<-|[<-|[]]].
    - exists o. split; [left; reflexivity|]. intros x i. exists 0%Z. rewrite !Ao. ring.
    - exists t. split; [right; left; reflexivity|]. intros x i. exists 0%Z. rewrite !Ao. ring.
    - exists t. split; [right; left; reflexivity|]. intros x i. exists 0%Z. rewrite !At, Ao. ring.
    - exists o. split; [left; reflexivity|]. intros x i. exists (-1)%Z. rewrite !At, Ao. lra. }
  split.
  { intros e [<-|[<-|[]]].
    - exists o. split; [left; reflexivity|]. intros x i. exists 0%Z. rewrite !Ao. ring.
    - exists t. split; [right; left; reflexivity|]. intros x i. exists 1%Z. rewrite !At. lra. }
  constructor; [|constructor; [constructor|constructor]]. constructor; [|constructor].
  intros E. destruct (E (fun _ => 0) X1) as [n En]. rewrite Ao, At in En.
  assert (IZR (2 * n) = -1) by (rewrite mult_IZR; lra). apply (eq_IZR (2 * n) (-1)) in H. lia.
Qed.
Lemma screw_rotations : rotation_group [op_id; op_screw] true.
Proof.
  assert (I : forall e, In e [op_id; op_screw] -> In e [op_id; op_screw]) by auto. split; [|split].
  - exists op_id. split; [left; reflexivity|]. left. intros [] []; reflexivity.
  - intros e f [<-|[<-|[]]] [<-|[<-|[]]].
    + exists op_id, (e_r op_id). split; [left; reflexivity|]. split; [intros [] []; reflexivity|]. left. reflexivity.
    + exists op_screw, (e_r op_screw). split; [right; left; reflexivity|]. split; [intros [] []; reflexivity|]. left. reflexivity.
    + exists op_screw, (e_r op_screw). split; [right; left; reflexivity|]. split; [intros [] []; reflexivity|]. left. reflexivity.
    + exists op_id, (e_r op_id). split; [left; reflexivity|]. split; [intros [] []; reflexivity|]. left. reflexivity.
  - intros e [<-|[<-|[]]].
    + exists op_id, (e_r op_id). split; [left; reflexivity|]. split; [intros [] []; reflexivity|]. left. intros [] []; reflexivity.
    + exists op_screw, (e_r op_id). split; [right; left; reflexivity|]. split; [intros [] []; reflexivity|]. left. intros [] []; reflexivity.
Qed.
Lemma body_centring : centring_group body [op_id; op_screw].
Proof.
  split; [apply body_group|]. intros e t [<-|[<-|[]]] [<-|[<-|[]]].
  - exists (mkV 0 0 0, 1)%Z. split; [left; reflexivity|]. intros i. exists 0%Z. unfold frac, sum3. destruct i; cbn; field.
  - exists (mkV 1 1 1, 2)%Z. split; [right; left; reflexivity|]. intros i. exists 0%Z. unfold frac, sum3. destruct i; cbn; field.
  - exists (mkV 0 0 0, 1)%Z. split; [left; reflexivity|]. intros i. exists 0%Z. unfold frac, sum3. destruct i; cbn; field.
  - exists (mkV 1 1 1, 2)%Z. split; [right; left; reflexivity|]. intros i. exists (match i with X2 => 0 | _ => -1 end)%Z. unfold frac, sum3. destruct i; cbn; lra.
Qed.
Lemma mono_s : calc_sthovl (hkl_real (mkV 1 1 0)%Z) mono <= 1 /\ 0 <= calc_sthovl (hkl_real (mkV 1 1 0)%Z) mono.
Proof.
  unfold calc_sthovl. assert (E : calc_inv_d (hkl_real (mkV 1 1 0)%Z) mono <= 2 /\ 0 <= calc_inv_d (hkl_real (mkV 1 1 0)%Z) mono).
  { split; [|rewrite inv_d_norm by apply mono_invariant; apply sqrt_pos]. unfold calc_inv_d, mono, hkl_real. cbn [u_a u_b u_c u_al u_be u_ga v_1 v_2 v_3].
    rewrite cos_PI2, cos_PI3. apply Rle_trans with (sqrt (2 * 2)); [|right; apply sqrt_square; lra]. apply sqrt_le_1_alt. unfold Rsqr. lra. }
  lra.
Qed.
Lemma listed_110 : present body (mkV 1 1 0)%Z /\ exists g m,
  In (g, m) (calc_index_hkl_multiplicity_in_range 0 1 mono [op_id; op_screw] body true) /\ equivalent [op_id; op_screw] true (mkV 1 1 0)%Z g.
Proof.
  assert (P : present body (mkV 1 1 0)%Z).
  { intros t [<-|[<-|[]]]; [exists 0%Z|exists 1%Z]; unfold hdot, sum3, frac; cbn; field. }
  split; [exact P|]. apply out_complete; try apply mono_invariant; [apply screw_rotations| |apply body_centring| |exact P].
  - intros e He. apply mono_invariant. cbn in *. tauto.
  - unfold s_of. destruct mono_s. lra.
Qed.

(* ---- a cell so long that the label 10^6 h + 10^3 k + l no longer separates reflections ---- *)
Definition long : U6 R := mkU 1 1 1000 (PI / 2) (PI / 2) (PI / 2).
Definition no_t : list (V3 Z * Z) := [(mkV 0 0 0, 1)]%Z.
Lemma long_ok : nondegenerate long.
Proof. unfold nondegenerate, long. cbn [u_a u_b u_c u_al u_be u_ga]. rewrite cos_PI2. pose proof PI_RGT_0. repeat split; lra. Qed.
Lemma id_rotations : rotation_group [op_id] true.
Proof.
  split; [|split].
  - exists op_id. split; [left; reflexivity|]. left. intros [] []; reflexivity.
  - intros e f [<-|[]] [<-|[]]. exists op_id, (e_r op_id). split; [left; reflexivity|]. split; [intros [] []; reflexivity|]. left. reflexivity.
  - intros e [<-|[]]. exists op_id, (e_r op_id). split; [left; reflexivity|]. split; [intros [] []; reflexivity|]. left. intros [] []; reflexivity.
Qed.
Lemma id_centring : centring_group no_t [op_id].
Proof.
  assert (Ao : forall x i, act (translation_op (mkV 0 0 0, 1)%Z) x i = x i) by (intros x i; rewrite act_tr; unfold frac; destruct i; cbn; field).
  split.
  - unfold no_t. cbn [map]. set (o := translation_op (mkV 0 0 0, 1)%Z) in *. split; [intros e [<-|[]]; reflexivity|].
    split; [exists o; split; [left; reflexivity|]; intros x i; exists 0%Z; rewrite Ao; ring|].
    split; [intros e f [<-|[]] [<-|[]]; exists o; split; [left; reflexivity|]; intros x i; exists 0%Z; rewrite !Ao; ring|].
    split; [intros e [<-|[]]; exists o; split; [left; reflexivity|]; intros x i; exists 0%Z; rewrite !Ao; ring|]. repeat constructor.
  - intros e t [<-|[]] [<-|[]]. exists (mkV 0 0 0, 1)%Z. split; [left; reflexivity|]. intros i. exists 0%Z. unfold frac, sum3. destruct i; cbn; field.
Qed.
Lemma id_metric : forall uc e, In e [op_id] -> metric_invariant uc e.
Proof. intros uc e [<-|[]] i j. unfold sum3. destruct i, j; cbn; ring. Qed.
Lemma long_s : calc_sthovl (hkl_real (mkV 0 1 (-1000))%Z) long <= 1 /\ 0 <= calc_sthovl (hkl_real (mkV 0 1 (-1000))%Z) long.
Proof.
  unfold calc_sthovl. assert (E : calc_inv_d (hkl_real (mkV 0 1 (-1000))%Z) long <= 2 /\ 0 <= calc_inv_d (hkl_real (mkV 0 1 (-1000))%Z) long).
  { split; [|rewrite inv_d_norm by apply long_ok; apply sqrt_pos]. unfold calc_inv_d, long, hkl_real. cbn [u_a u_b u_c u_al u_be u_ga v_1 v_2 v_3].
    rewrite cos_PI2. apply Rle_trans with (sqrt (2 * 2)); [|right; apply sqrt_square; lra]. apply sqrt_le_1_alt. unfold Rsqr. lra. }
  lra.
Qed.
Theorem long_twice : exists g g' m m', g <> g' /\ equivalent [op_id] true g g' /\
  In (g, m) (calc_index_hkl_multiplicity_in_range 0 1 long [op_id] no_t true) /\
  In (g', m') (calc_index_hkl_multiplicity_in_range 0 1 long [op_id] no_t true).
Proof.
  set (h := (mkV 0 1 (-1000))%Z). set (k := (mkV 0 (-1) 1000)%Z).
  assert (E : equivalent [op_id] true h k).
  { exists op_id. split; [left; reflexivity|]. right. split; [reflexivity|]. exists h. split; [intros []; unfold sum3; cbn; ring|intros []; reflexivity]. }
  assert (Pr : forall q, present no_t q) by (intros q t [<-|[]]; exists 0%Z; unfold hdot, sum3, frac; cbn; field).
  destruct long_s as [S1 S2]. fold h in S1, S2.
  assert (Sk : s_of long k = s_of long h) by (apply (eqv_s long [op_id] true long_ok (id_metric long) h k E)).
  assert (Sh : s_of long h <= 1 /\ 0 <= s_of long h) by (split; assumption).
  assert (A : forall q q', rep [op_id] true q = q' -> s_of long q = s_of long h -> s_of long q' = s_of long h ->
    In (q', length (filter (hkl_eqb q') (map (rep [op_id] true) (box long 1)))) (calc_index_hkl_multiplicity_in_range 0 1 long [op_id] no_t true)).
  { intros q q' R0 Sq Sq'. apply out_in; [apply id_centring|]. split; [rewrite Sq'; lra|]. split; [apply Pr|]. split; [|reflexivity].
    exists q. split; [|exact R0]. apply in_box; [apply long_ok|]. fold (s_of long q). lra. }
  eexists h, k, _, _. split; [discriminate|]. split; [exact E|]. split.
  - apply (A k h); [vm_compute; reflexivity|exact Sk|reflexivity].
  - apply (A h k); [vm_compute; reflexivity|reflexivity|exact Sk].
Qed.
