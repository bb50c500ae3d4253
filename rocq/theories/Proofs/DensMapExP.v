(** Cases and counterexamples for the maps of a density (C102). *)
From Coq Require Import Reals ZArith List Lra Lia Bool Sorted Permutation.
From Verif Require Import Spec.Lin3 Spec.Symm Spec.DensityMap Model.MatrixOps Model.Symmetry Model.Matrices Model.DensityMaps
  Proofs.SymmBaseP Proofs.SymmGridP Proofs.SymmGroupP Proofs.SymmExP Proofs.DensMapP Proofs.DensMapP2 Proofs.DensMapP3 Proofs.DensMapP4 Proofs.DensMapP5.
Import ListNotations.
Open Scope list_scope.
Open Scope R_scope.

Definition no_shift : V3 Z * Z := (mkV 0 0 0, 1)%Z.
Ltac hunt_fr := intros x [];
  match goal with |- exists n : Z, _ => first
    [ exists 0%Z; unfold act, frac, sum3; cbn; lra | exists 1%Z; unfold act, frac, sum3; cbn; lra | exists (-1)%Z; unfold act, frac, sum3; cbn; lra ] end.
Lemma p21m_generated : generated p21m [op_id; op_screw] [no_shift] true.
Proof.
  split.
  - intros g [<-|[<-|[<-|[<-|[]]]]].
    + exists op_id, no_shift, 1. split; [cbn; tauto|]. split; [cbn; tauto|]. split; [tauto|]. hunt_fr.
    + exists op_screw, no_shift, 1. split; [cbn; tauto|]. split; [cbn; tauto|]. split; [tauto|]. hunt_fr.
    + exists op_id, no_shift, (-1). split; [cbn; tauto|]. split; [cbn; tauto|]. split; [tauto|]. hunt_fr.
    + exists op_screw, no_shift, (-1). split; [cbn; tauto|]. split; [cbn; tauto|]. split; [tauto|]. hunt_fr.
  - intros e s sign [<-|[<-|[]]] [<-|[]] [->|[_ ->]].
    + exists op_id. split; [cbn; tauto|]. hunt_fr.
    + exists op_inv. split; [cbn; tauto|]. hunt_fr.
    + exists op_screw. split; [cbn; tauto|]. hunt_fr.
    + exists op_glide. split; [cbn; tauto|]. hunt_fr.
Qed.
Definition n242 : V3 Z := (mkV 2 4 2)%Z.
Lemma n242_pos : forall i, (0 < vget n242 i)%Z.
Proof. intros []; reflexivity. Qed.
Lemma n242_compat : forall e, In e p21m -> grid_compatible n242 e.
Proof.
  intros e [<-|[<-|[<-|[<-|[]]]]]; (split; [reflexivity|]; split;
    [intros []; cbn; first [exists 2%Z; reflexivity|exists 4%Z; reflexivity|exists 1%Z; reflexivity]|intros [] [] H; cbn in *; congruence]).
Qed.
Lemma no_shift_compat : forall n, shift_compatible n no_shift.
Proof. intros n. split; [reflexivity|]. intros i. apply Z.divide_1_l. Qed.
Lemma screw_compat : forall e, In e [op_id; op_screw] -> grid_compatible n242 e.
Proof. intros e [<-|[<-|[]]]; apply n242_compat; cbn; tauto. Qed.

(** ** axes with different numbers of steps *)
Definition op_four : Op := (mkE (mkV 0 0 0) 1 (mkM 0 (-1) 0 1 0 0 0 0 1))%Z.
Definition op_two_z : Op := (mkE (mkV 0 0 0) 1 (mkM (-1) 0 0 0 (-1) 0 0 0 1))%Z.
Definition op_four3 : Op := (mkE (mkV 0 0 0) 1 (mkM 0 1 0 (-1) 0 0 0 0 1))%Z.
Definition n421 : V3 Z := (mkV 4 2 1)%Z.
Lemma four_refuted : exists n ops rows out q d, (forall i, (0 < vget n i)%Z) /\ (forall e, In e ops -> (0 < e_d e)%Z) /\
  (forall p a, In (p, a) rows -> in_grid n p) /\ transform_to_p1 n ops [no_shift] false rows = Some out /\ In (q, d) out /\
  forall (p : V3 Z) (a : R), In (p, a) rows -> ~ related n ops [no_shift] false p q.
Proof.
  exists n421, [op_id; op_four; op_two_z; op_four3], [((mkV 1 0 0)%Z, 7)], [((mkV 0 0 0)%Z, 7); ((mkV 0 1 0)%Z, 7); ((mkV 1 0 0)%Z, 7); ((mkV 3 0 0)%Z, 7)], (mkV 0 0 0)%Z, 7.
  split; [intros []; reflexivity|]. split; [intros e [<-|[<-|[<-|[<-|[]]]]]; reflexivity|].
  split; [intros p a [E|[]]; inversion E; intros []; cbn; lia|].
  split; [reflexivity|]. split; [left; reflexivity|].
  intros p a [E|[]] (e & s & sign & Ie & [<-|[]] & [->|[H _]] & S); [|discriminate H]. inversion E; subst p a.
  assert (NI : forall k : Z, (1 = 4 * k)%Z \/ (-1 = 4 * k)%Z -> False) by (intros; lia).
  destruct Ie as [<-|[<-|[<-|[<-|[]]]]].
  - destruct (S X1) as [k K]. unfold act, frac, sum3, grid_fract in K. cbn in K. apply (NI k). left. apply eq_IZR. rewrite mult_IZR. lra.
  - destruct (S X2) as [k K]. unfold act, frac, sum3, grid_fract in K. cbn in K. apply (NI k). left. apply eq_IZR. rewrite mult_IZR. lra.
  - destruct (S X1) as [k K]. unfold act, frac, sum3, grid_fract in K. cbn in K. apply (NI k). right. apply eq_IZR. rewrite mult_IZR. lra.
  - destruct (S X2) as [k K]. unfold act, frac, sum3, grid_fract in K. cbn in K. apply (NI k). right. apply eq_IZR. rewrite mult_IZR. lra.
Qed.

(** ** fractional translations *)
Definition op_i : Op := (mkE (mkV 1 1 1) 2 (mkM 1 0 0 0 1 0 0 0 1))%Z.
Lemma body_group : symmetry_group [op_id; op_i].
Proof.
  split; [|split; [|split; [|split]]].
  - intros e [<-|[<-|[]]]; reflexivity.
  - exists op_id. split; [left; reflexivity|]. hunt_sp.
  - intros e f He Hf. destruct He as [<-|[<-|[]]], Hf as [<-|[<-|[]]];
    first [exists op_id; split; [cbn; tauto|unfold is_composition; hunt_sp] | exists op_i; split; [cbn; tauto|unfold is_composition; hunt_sp]].
  - intros e He. exists e. split; [exact He|]. destruct He as [<-|[<-|[]]]; hunt_sp.
  - constructor; [constructor; [|constructor]|constructor; constructor].
    intros S. destruct (S (fun i => 0) X1) as [n E]. unfold act, sum3 in E. cbn in E.
    assert (G : 1 = IZR (- 2 * n)) by (rewrite mult_IZR; lra). apply eq_IZR in G. lia.
Qed.
Definition n222 : V3 Z := (mkV 2 2 2)%Z.
Lemma body_compat : forall e, In e [op_id; op_i] -> grid_compatible n222 e.
Proof.
  intros e [<-|[<-|[]]]; (split; [reflexivity|]; split; [intros []; cbn; first [exists 2%Z; reflexivity|exists 1%Z; reflexivity]|intros [] [] H; cbn in *; congruence]).
Qed.
Definition cells_i : list (V3 Z * nat) := [(mkV 0 0 0, 2%nat); (mkV 0 0 1, 2%nat); (mkV 0 1 0, 2%nat); (mkV 0 1 1, 2%nat)]%Z.
Lemma points_refuted : exists n l cells dens q x, (forall i, (0 < vget n i)%Z) /\ symmetry_group l /\ (forall e, In e l -> grid_compatible n e) /\
  calc_asymmetric_unit_cell_indexes n l = Some cells /\ length dens = length cells /\ (forall d, In d dens -> d = 1) /\
  In (q, x, 0) (transform_density_point_to_p1 (combine (map fst cells) dens) l n) /\ in_grid n q.
Proof.
  exists n222, [op_id; op_i], cells_i, [1; 1; 1; 1], (mkV 1 1 1)%Z, (mkV (1/2) (1/2) (1/2)).
  split; [intros []; reflexivity|]. split; [exact body_group|]. split; [exact body_compat|]. split; [vm_compute; reflexivity|]. split; [reflexivity|].
  split; [intros d [<-|[<-|[<-|[<-|[]]]]]; reflexivity|]. split; [|intros []; cbn; lia].
  rewrite p1_list by (intros []; reflexivity). apply in_map_iff. exists (mkV 1 1 1)%Z. split; [|apply grid_in; intros []; cbn; lia].
  f_equal. 
Qed.
Lemma screw_cells : exists cells, calc_asymmetric_unit_cell_indexes n242 p21m = Some cells /\ length cells = 8%nat.
Proof. exact p21m_asym. Qed.

(** ** the statements of C102 *)
Lemma p1_all : forall (A : Type) n elems shift centro (rows : list (V3 Z * A)), (forall i, (0 < vget n i)%Z) ->
  (forall e, In e elems -> grid_compatible n e) -> (forall s, In s shift -> shift_compatible n s) ->
  exists out, transform_to_p1 n elems shift centro rows = Some out /\ StronglySorted lex_lt (map fst out) /\
  forall q d, In (q, d) out <-> in_grid n q /\ exists i p, nth_error rows i = Some (p, d) /\ related n elems shift centro p q /\
    forall j y, (j < i)%nat -> nth_error rows j = Some y -> ~ related n elems shift centro (fst y) q.
Proof.
  intros A n elems shift centro rows Hn He Hs. destruct (p1_accepted n elems shift centro rows He Hs) as [out E]. exists out. split; [exact E|].
  exact (p1_members n elems shift centro rows Hn He Hs out E).
Qed.
Lemma p1_met : (forall i, (0 < vget n242 i)%Z) /\ symmetry_group p21m /\ (forall e, In e p21m -> grid_compatible n242 e) /\
  (exists cells, calc_asymmetric_unit_cell_indexes n242 p21m = Some cells /\ List.length cells = 8%nat) /\
  (forall e, In e [op_id; op_screw] -> grid_compatible n242 e) /\ (forall s, In s [no_shift] -> shift_compatible n242 s) /\ generated p21m [op_id; op_screw] [no_shift] true.
Proof.
  split; [exact n242_pos|]. split; [exact p21m_group|]. split; [exact n242_compat|]. split; [exact screw_cells|]. split; [exact screw_compat|].
  split; [intros s [<-|[]]; apply no_shift_compat|exact p21m_generated].
Qed.
