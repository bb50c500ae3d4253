(** Concrete cases for the theorems on magnetic structure factors. *)
From Coq Require Import Reals ZArith List Bool Lra Lia.
From Coquelicot Require Import Coquelicot.
From Verif Require Import Spec.Lin3 Spec.Cell Spec.Symm Spec.Scatter Spec.StructSpec Spec.MagSpec Model.UnitCell Model.Symmetry Model.AtomFactors
  Model.StructFactor Model.MagStruct Proofs.SymmBaseP Proofs.SymmExP Proofs.StructFactorP2 Proofs.StructFactorP3 Proofs.StructFactorP4
  Proofs.MagStructP Proofs.MagStructP2 Proofs.MagStructP5 Proofs.MagStructP7.
Import ListNotations.
Open Scope list_scope.
Open Scope R_scope.
Definition mono : U6 R := mkU 3 4 5 (PI / 2) (PI / 3) (PI / 2).
Definition p21m_sym : symmetry := mkS [op_id; op_screw] true (mkV 0 0 0, 1)%Z [(mkV 0 0 0, 1)%Z].
Definition iron : para := mkP (mkV (1 / 5) (1 / 4) (3 / 10)) (9 / 10) (mkQ 1 2 3 4 5 6) sc_one (1 / 2) q_zero 2 1 (mkJ (1 / 2) 10 (1 / 4) 4 (1 / 4) 1 0) (mkJ 1 15 1 5 0 0 0).
Definition iron_ions : list ((ix -> R) * (ix -> ix -> R)) :=
  [(vget (mkV (1 / 5) (1 / 4) (3 / 10)), qget (mkQ 1 2 3 4 5 6)); (vget (mkV (4 / 5) (3 / 4) (7 / 10)), qget (mkQ 1 2 3 4 5 6))].
Definition ordered_iron : moment := mkMo (mkV (1 / 5) (1 / 4) (3 / 10)) 1 (mkV 1 2 3) (1 / 2) q_zero 2 1 (mkJ (1 / 2) 10 (1 / 4) 4 (1 / 4) 1 0) (mkJ 0 0 0 0 0 0 0).
(** P-1': the inversion with time reversal. *)
Definition els_pm1' : list (Op * Z) := [(op_id, 1%Z); (op_inv, (-1)%Z)].
Definition ordered_ions : list ((ix -> R) * (ix -> R)) :=
  [(vget (mkV (1 / 5) (1 / 4) (3 / 10)), fun i => cartesian_moment mono (mkV 1 2 3) i);
   (vget (mkV (4 / 5) (3 / 4) (7 / 10)), fun i => - cartesian_moment mono (mkV 1 2 3) i)].
Lemma frame_inv : forall A, in_frame (mget (calc_m_m mono)) op_inv A -> A = fun i j => - delta i j.
Proof.
  intros A F. destruct mono_invariant as [N _]. fold mono in N. rewrite (rho_unique mono N op_inv A F). symmetry. apply (rho_unique mono N op_inv). intros i j.
  unfold sum3, delta, op_inv. destruct i, j; cbn; ring.
Qed.
Lemma frame_one : forall A, in_frame (mget (calc_m_m mono)) op_id A -> A = delta.
Proof.
  intros A F. destruct mono_invariant as [N _]. fold mono in N. rewrite (rho_unique mono N op_id A F). symmetry. apply (rho_unique mono N op_id). intros i j.
  unfold sum3, delta, op_id. destruct i, j; cbn; ring.
Qed.
Lemma pm1_group : symmetry_group [op_id; op_inv].
Proof.
  split; [|split; [|split; [|split]]].
  - intros e [<-|[<-|[]]]; reflexivity.
  - exists op_id. split; [left; reflexivity|]. hunt_sp.
  - intros e f He Hf. destruct He as [<-|[<-|[]]], Hf as [<-|[<-|[]]];
    first [ exists op_id; split; [cbn; tauto|unfold is_composition; hunt_sp] | exists op_inv; split; [cbn; tauto|unfold is_composition; hunt_sp] ].
  - intros e He. exists e. split; [exact He|]. destruct He as [<-|[<-|[]]]; hunt_sp.
  - repeat constructor. intros H. destruct (H (fun _ => 1 / 3) X1) as [n E]. unfold act, sum3, op_id, op_inv in E. cbn in E.
    first [ assert (Q : IZR (3 * n) = IZR 2) by (rewrite mult_IZR; lra); apply eq_IZR in Q; lia
          | assert (Q : IZR (3 * n) = IZR (-2)) by (rewrite mult_IZR; lra); apply eq_IZR in Q; lia ].
Qed.
Definition x0 := vget (mkV (1 / 5) (1 / 4) (3 / 10)).
Definition x1 := vget (mkV (4 / 5) (3 / 4) (7 / 10)).
Lemma x01 : ~ same_point x0 x1.
Proof. intros S. destruct (S X2) as [n E]. cbn in E. assert (Q : IZR (2 * n) = IZR 1 \/ IZR (2 * n) = IZR (-1)) by (rewrite mult_IZR; lra). destruct Q as [Q|Q]; apply eq_IZR in Q; lia. Qed.
Lemma x0_id : same_point (act op_id x0) x0.
Proof. intros []; exists 0%Z; unfold act, sum3, op_id; cbn; field. Qed.
Lemma x0_inv : same_point (act op_inv x0) x1.
Proof. intros []; exists (-1)%Z; unfold act, sum3, op_inv; cbn; field. Qed.
Lemma iron_orbit : is_orbit [op_id; op_inv] x0 [x0; x1].
Proof.
  split; [|split].
  - intros p [<-|[<-|[]]]; [exists op_id|exists op_inv]; (split; [cbn; tauto|]); apply sp_sym; [exact x0_id|exact x0_inv].
  - constructor; [constructor; [exact x01|constructor]|constructor; constructor].
  - intros e [<-|[<-|[]]]; [exists x0|exists x1]; (split; [cbn; tauto|]); [exact x0_id|exact x0_inv].
Qed.
Lemma x0_exact : forall i, exact_coordinate (x0 i).
Proof. intros []; [exists 600000%Z|exists 750000%Z|exists 900000%Z]; cbn; repeat split; try lia; lra. Qed.
Lemma not_mixed : ~ same_point (act op_id x0) x1 /\ ~ same_point (act op_inv x0) x0.
Proof.
  split; intros S; apply x01; [eapply sp_trans; [|exact S]; apply sp_sym; exact x0_id|eapply sp_trans; [apply sp_sym; exact S|exact x0_inv]].
Qed.
Lemma iron_case : ions_of (full_of s_pm1) mono iron iron_ions.
Proof.
  change (full_of s_pm1) with [op_id; op_inv]. split; [exact iron_orbit|]. intros e rh p t He Hp Sp F i j.
  assert (C : forall i j, qget (site_chi iron) i j = qget (mkQ 1 2 3 4 5 6) i j) by (intros [] []; unfold site_chi, iron, sc_one, q_row_dot; cbn; ring).
  assert (C2 : forall i, sum3 (fun k => rh i k * qget (site_chi iron) k j) = sum3 (fun k => rh i k * qget (mkQ 1 2 3 4 5 6) k j)) by (intros; unfold sum3; rewrite !C; reflexivity).
  rewrite C2.
  change (vget (pa_xyz iron)) with x0 in Sp.
  destruct He as [<-|[<-|[]]], Hp as [Hp|[Hp|[]]]; injection Hp as <- <-.
  - rewrite (frame_one _ F). unfold sum3, delta. destruct i, j; cbn; ring.
  - exfalso. apply (proj1 not_mixed). exact Sp.
  - exfalso. apply (proj2 not_mixed). exact Sp.
  - rewrite (frame_inv _ F). unfold sum3, delta. destruct i, j; cbn; ring.
Qed.
Lemma ordered_case : moments_of els_pm1' mono ordered_iron ordered_ions.
Proof.
  split; [exact iron_orbit|]. intros e th rh p v He Hp Sp F i. change (vget (mo_xyz ordered_iron)) with x0 in Sp.
  change (mo_m ordered_iron) with (mkV 1 2 3).
  destruct He as [He|[He|[]]]; injection He as <- <-; destruct Hp as [Hp|[Hp|[]]]; injection Hp as <- <-.
  - rewrite (frame_one _ F). unfold det3, rot_real, op_id, delta. set (c := cartesian_moment mono (mkV 1 2 3)). destruct i; unfold sum3; cbn; ring.
  - exfalso. apply (proj1 not_mixed). exact Sp.
  - exfalso. apply (proj2 not_mixed). exact Sp.
  - rewrite (frame_inv _ F). unfold det3, rot_real, op_inv, delta. set (c := cartesian_moment mono (mkV 1 2 3)). destruct i; unfold sum3; cbn; ring.
Qed.
Lemma diagonal_matched : forall uc, axes_matched uc (map fst els_pm1').
Proof. intros uc e [] [] [<-|[<-|[]]] H; try reflexivity; cbn in H; congruence. Qed.
