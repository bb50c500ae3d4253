(** Examples for calc_hkl_equiv, Cell.calc_hkl and calc_atoms_in_unit_cell. *)
From Coq Require Import Reals ZArith List Bool Arith Lra Lia String.
From Verif Require Import Spec.Lin3 Spec.Cell Spec.Symm Spec.Scatter Spec.HklSpec Spec.Orbit Spec.SgSpec Model.UnitCell Model.Symmetry Model.StructFactor Model.HklList Model.CellObj Model.SiteSymm Model.Orbits
  Proofs.UnitCellP Proofs.SymmBaseP Proofs.SymmExP Proofs.StructFactorP Proofs.HklListP Proofs.HklListP2 Proofs.HklExP Proofs.CellItemP Proofs.OrbitsP Proofs.OrbitSgP Proofs.OrbitHklP Proofs.OrbitAtomsP.
Import ListNotations.
Open Scope list_scope.
Open Scope R_scope.

Lemma screw_laue : laue_list [op_id; op_screw].
Proof. apply laue_check_ok. vm_compute. reflexivity. Qed.
Definition long_cell : U6 R := mkU 1 1 1000 90 90 90.
Lemma deg90 : 90 * PI / 180 = PI / 2. Proof. field. Qed.
Lemma long_uc : get_unit_cell_parameters long_cell = long.
Proof. unfold get_unit_cell_parameters, long_cell, long. cbn [u_a u_b u_c u_al u_be u_ga]. now rewrite deg90. Qed.
Lemma long_s100 : 0 < calc_sthovl (hkl_real (mkV 0 1 (-100))%Z) long < 1.
Proof.
  unfold calc_sthovl. assert (E : 0 < calc_inv_d (hkl_real (mkV 0 1 (-100))%Z) long < 2).
  { unfold calc_inv_d, long, hkl_real. cbn [u_a u_b u_c u_al u_be u_ga v_1 v_2 v_3]. rewrite cos_PI2. unfold Rsqr. split; [apply sqrt_lt_R0; lra|].
    apply Rlt_le_trans with (sqrt (2 * 2)); [|right; apply sqrt_square; lra]. apply sqrt_lt_1_alt. lra. }
  lra.
Qed.
Theorem long_cell_twice : nondegenerate (get_unit_cell_parameters long_cell) /\ rotation_group [op_id] true /\ centring_group no_t [op_id] /\
  exists g g' m m', g <> g' /\ equivalent [op_id] true g g' /\
  In (g, m) (cell_calc_hkl long_cell [op_id] no_t 0 1) /\ In (g', m') (cell_calc_hkl long_cell [op_id] no_t 0 1).
Proof.
  rewrite long_uc. split; [apply long_ok|]. split; [apply id_rotations|]. split; [apply id_centring|].
  set (h := (mkV 0 1 (-100))%Z). set (k := (mkV 0 (-1) 100)%Z).
  assert (E : equivalent [op_id] true h k).
  { exists op_id. split; [left; reflexivity|]. right. split; [reflexivity|]. exists h. split; [intros []; unfold sum3; cbn; ring|intros []; reflexivity]. }
  assert (Pr : forall q, present no_t q) by (intros q t [<-|[]]; exists 0%Z; unfold hdot, sum3, frac; cbn; field).
  assert (N : nondegenerate (get_unit_cell_parameters long_cell)) by (rewrite long_uc; apply long_ok).
  pose proof long_s100 as Sh. fold h in Sh.
  assert (Sk : s_of long k = s_of long h) by (apply (eqv_s long [op_id] true long_ok (id_metric long) h k E)).
  assert (A : forall q q', krep [op_id] q = q' -> s_of long q = s_of long h -> s_of long q' = s_of long h -> (0 <= v_1 q)%Z -> exists m, In (q', m) (cell_calc_hkl long_cell [op_id] no_t 0 1)).
  { intros q q' R0 Sq Sq' P0. destruct (step_in [op_id] no_t id_centring (kbox long_cell 1) []) as (_ & _ & C1 & _).
    destruct (C1 q) as [m Hm]; [apply kbox_in; [exact N|unfold s_c; rewrite long_uc; fold (s_of long q); rewrite Sq; unfold s_of; lra|exact P0]|apply Pr|].
    exists m. apply (kout_in long_cell [op_id] no_t 0 1). rewrite R0 in Hm. split; [exact Hm|]. unfold s_c. rewrite long_uc. fold (s_of long q'). rewrite Sq'. exact Sh. }
  destruct (A k h) as [m Hm]; [vm_compute; reflexivity|exact Sk|reflexivity|cbn; lia|]. destruct (A h k) as [m' Hm']; [vm_compute; reflexivity|reflexivity|exact Sk|cbn; lia|].
  exists h, k, m, m'. split; [discriminate|]. auto.
Qed.
Definition small_cell : U6 R := mkU 3 4 5 90 90 90.
Theorem hkl_met : nondegenerate (get_unit_cell_parameters small_cell) /\ rotation_group [op_id; op_screw] true /\
  (forall e, In e [op_id; op_screw] -> metric_invariant (get_unit_cell_parameters small_cell) e) /\ centring_group body [op_id; op_screw] /\
  2 * u_b small_cell * 1 < 50 /\ 2 * u_c small_cell * 1 < 50.
Proof.
  assert (E : get_unit_cell_parameters small_cell = mkU 3 4 5 (PI / 2) (PI / 2) (PI / 2)).
  { unfold get_unit_cell_parameters, small_cell. cbn [u_a u_b u_c u_al u_be u_ga]. now rewrite deg90. }
  rewrite E. split; [|split; [apply screw_rotations|split; [|split; [apply body_centring|cbn; lra]]]].
  - unfold nondegenerate. cbn [u_a u_b u_c u_al u_be u_ga]. rewrite cos_PI2. pose proof PI_RGT_0. repeat split; lra.
  - intros e [<-|[<-|[]]] i j; unfold sum3, metric; destruct i, j; cbn; rewrite ?cos_PI2; ring.
Qed.
Definition op_inv : Op := mkE (mkV 0 0 0)%Z 1 (mkM (-1) 0 0 0 (-1) 0 0 0 (-1))%Z.
Theorem atoms_met : NoDup (map snd [(mkV (1/10) (1/5) (3/10), "O"%string); (mkV 0 (1/2) 0, "Fe"%string)]) /\
  clear_images [op_id; op_inv] (mkV (1/10) (1/5) (3/10)) /\ clear_images [op_id; op_inv] (mkV 0 (1/2) 0).
Proof.
  split; [repeat constructor; cbn; intuition discriminate|].
  assert (Far : forall a, 1 / 5 <= a <= 4 / 5 -> forall n : Z, 1 / 100000 < Rabs (a - IZR n)).
  { intros a Ha n. destruct (Z.le_gt_cases n 0) as [L|L].
    - apply IZR_le in L. rewrite Rabs_pos_eq; lra.
    - assert (L' : (1 <= n)%Z) by lia. apply IZR_le in L'. rewrite Rabs_left1; lra. }
  split; intros e f [<-|[<-|[]]] [<-|[<-|[]]].
  - left. intros i. exists 0%Z. lra.
  - right. exists X1. intros n. unfold act, sum3, op_id, op_inv. cbn [vget mget e_r e_b e_d m_11 m_12 m_13 v_1 v_2 v_3].
    replace (1 * (1 / 10) + 0 * (1 / 5) + 0 * (3 / 10) + 0 / 1 - (-1 * (1 / 10) + 0 * (1 / 5) + 0 * (3 / 10) + 0 / 1) - IZR n) with (1 / 5 - IZR n) by field. apply Far. lra.
  - right. exists X1. intros n. unfold act, sum3, op_id, op_inv. cbn [vget mget e_r e_b e_d m_11 m_12 m_13 v_1 v_2 v_3].
    replace (-1 * (1 / 10) + 0 * (1 / 5) + 0 * (3 / 10) + 0 / 1 - (1 * (1 / 10) + 0 * (1 / 5) + 0 * (3 / 10) + 0 / 1) - IZR n) with (4 / 5 - IZR (n + 1)) by (rewrite plus_IZR; field). apply Far. lra.
  - left. intros i. exists 0%Z. lra.
  - left. intros i. exists 0%Z. lra.
  - left. intros i. exists (match i with X2 => 1 | _ => 0 end)%Z. unfold act, sum3, op_id, op_inv. destruct i; cbn [vget mget e_r e_b e_d m_11 m_12 m_13 m_21 m_22 m_23 m_31 m_32 m_33 v_1 v_2 v_3]; field.
  - left. intros i. exists (match i with X2 => -1 | _ => 0 end)%Z. unfold act, sum3, op_id, op_inv. destruct i; cbn [vget mget e_r e_b e_d m_11 m_12 m_13 m_21 m_22 m_23 m_31 m_32 m_33 v_1 v_2 v_3]; field.
  - left. intros i. exists 0%Z. lra.
Qed.
