(** Property theorem C88 (function_1_gamma_nu.py). *)
From Coq Require Import Reals List Lra Lia.
From Verif Require Import Spec.Bilinear Model.Profile Model.Regrid Proofs.RegridP.
Import ListNotations.
Open Scope R_scope.

(** C88.  The value at each point is the bilinear interpolation of the table. *)
Theorem C88_interpolation : forall x0 hx y0 hy nx ny g l, 0 < hx -> 0 < hy -> (2 <= nx)%nat -> (2 <= ny)%nat ->
  exists vs, app_grid (table g nx ny) (uniform x0 hx nx) (uniform y0 hy ny) l = Some vs /\ Forall2 (interpolated x0 hx y0 hy nx ny g) l vs.
Proof. exact app_grid_spec. Qed.
Print Assumptions C88_interpolation.
(** The specification determines the value. *)
Theorem C88_interpolation_unique : forall x0 hx y0 hy nx ny g p v w, 0 < hx -> 0 < hy ->
  interpolated x0 hx y0 hy nx ny g p v -> interpolated x0 hx y0 hy nx ny g p w -> v = w.
Proof. exact interpolated_unique. Qed.
Print Assumptions C88_interpolation_unique.
(** At the nodes (but those of the last row and column) the value is the one of the table. *)
Theorem C88_nodes_partial : forall x0 hx y0 hy nx ny g i j, 0 < hx -> 0 < hy -> (i + 1 < nx)%nat -> (j + 1 < ny)%nat ->
  app_grid (table g nx ny) (uniform x0 hx nx) (uniform y0 hy ny) [(x0 + INR i * hx, y0 + INR j * hy)] = Some [Some (g i j)].
Proof. exact at_nodes. Qed.
Print Assumptions C88_nodes_partial.
Theorem C88_nodes_refuted : forall x0 hx y0 hy nx ny g i j, 0 < hx -> 0 < hy -> (2 <= nx)%nat -> (2 <= ny)%nat -> (i + 1 = nx)%nat \/ (j + 1 = ny)%nat ->
  app_grid (table g nx ny) (uniform x0 hx nx) (uniform y0 hy ny) [(x0 + INR i * hx, y0 + INR j * hy)] = Some [None].
Proof. exact last_node. Qed.
Print Assumptions C88_nodes_refuted.
(** Functions a + b x + c y + d x y are reproduced. *)
Theorem C88_bilinear_exact : forall x0 hx y0 hy nx ny a b c d l, 0 < hx -> 0 < hy -> (2 <= nx)%nat -> (2 <= ny)%nat ->
  let h := fun x y => a + b * x + c * y + d * x * y in
  Forall (fun p => x0 <= fst p < x0 + (INR nx - 1) * hx /\ y0 <= snd p < y0 + (INR ny - 1) * hy) l ->
  app_grid (table (fun i j => h (x0 + INR i * hx) (y0 + INR j * hy)) nx ny) (uniform x0 hx nx) (uniform y0 hy ny) l = Some (map (fun p => Some (h (fst p) (snd p))) l).
Proof. exact bilinear_exact. Qed.
Print Assumptions C88_bilinear_exact.
(** No value is below or above those of the table. *)
Theorem C88_bounds : forall x0 hx y0 hy nx ny g lo hi l vs v, 0 < hx -> 0 < hy -> (2 <= nx)%nat -> (2 <= ny)%nat ->
  (forall i j, (i < nx)%nat -> (j < ny)%nat -> lo <= g i j <= hi) ->
  app_grid (table g nx ny) (uniform x0 hx nx) (uniform y0 hy ny) l = Some vs -> In (Some v) vs -> lo <= v <= hi.
Proof. exact within_bounds. Qed.
Print Assumptions C88_bounds.
(** The regridded sum of the two measurements is the sum of the regridded ones. *)
Theorem C88_additive : forall x0 hx y0 hy nx ny g h l vs ws, 0 < hx -> 0 < hy -> (2 <= nx)%nat -> (2 <= ny)%nat ->
  app_grid (table g nx ny) (uniform x0 hx nx) (uniform y0 hy ny) l = Some vs -> app_grid (table h nx ny) (uniform x0 hx nx) (uniform y0 hy ny) l = Some ws ->
  app_grid (table (fun i j => g i j + h i j) nx ny) (uniform x0 hx nx) (uniform y0 hy ny) l = Some (map (fun p => opt_add (fst p) (snd p)) (combine vs ws)).
Proof. exact additive. Qed.
Print Assumptions C88_additive.
(** The recalculated matrices: a row for every phi (nu), a column for every 2theta (gamma), each cell the value of the measured matrix at
    the same direction of the scattered beam. *)
Theorem C88_to_ttheta_phi : forall g0 hg n0 hn ng nn g l_ttheta l_phi, 0 < hg -> 0 < hn -> (2 <= ng)%nat -> (2 <= nn)%nat ->
  exists M, recal_int_to_tthphi_grid (uniform g0 hg ng) (uniform n0 hn nn) (table g ng nn) l_ttheta l_phi = Some M /\
    regridded calc_gamma_nu_by_ttheta_phi g0 hg n0 hn ng nn g l_ttheta l_phi M.
Proof. exact to_tthphi_spec'. Qed.
Print Assumptions C88_to_ttheta_phi.
Theorem C88_to_gamma_nu : forall t0 ht p0 hp nt np g l_gamma l_nu, 0 < ht -> 0 < hp -> (2 <= nt)%nat -> (2 <= np)%nat ->
  exists M, recal_int_to_gammanu_grid (uniform t0 ht nt) (uniform p0 hp np) (table g nt np) l_gamma l_nu = Some M /\
    regridded calc_ttheta_phi_by_gamma_nu t0 ht p0 hp nt np g l_gamma l_nu M.
Proof. exact to_gammanu_spec'. Qed.
Print Assumptions C88_to_gamma_nu.
(** [calc_gamma_nu_by_ttheta_phi], [calc_ttheta_phi_by_gamma_nu] are the transfers of C46. *)
Theorem C88_transfers : forall a b, gammanu_to_tthphi a b = calc_ttheta_phi_by_gamma_nu a b /\ tthphi_to_gammanu a b = calc_gamma_nu_by_ttheta_phi a b.
Proof. exact same_transfers. Qed.
Print Assumptions C88_transfers.
(** A measured grid with unequal steps: the value at its second node is not that of the table. *)
Theorem C88_unequal_steps_refuted : app_grid [[Some 0; Some 1; Some 0]; [Some 0; Some 1; Some 0]] [0; 1; 4] [0; 1] [(1, 0)] = Some [Some (1/2)].
Proof. exact not_uniform. Qed.
Print Assumptions C88_unequal_steps_refuted.
Example C88_case : uniform 0 (1/2) 3 = [0; 1/2; 1] /\ table (fun i j => INR i + 2 * INR j) 2 2 = [[Some 0; Some 1]; [Some 2; Some 3]] /\
  interpolated 0 (1/2) 0 1 3 2 (fun i j => INR i + 2 * INR j) (3/4, 1/2) (Some (5/2)).
Proof.
  split; [unfold uniform; simpl; apply f_equal2; [lra|apply f_equal2; [lra|apply f_equal2; [lra|reflexivity]]]|].
  split; [unfold table; simpl; replace (0 + 2 * 0) with 0 by lra; replace (1 + 2 * 0) with 1 by lra; replace (0 + 2 * 1) with 2 by lra; replace (1 + 2 * 1) with 3 by lra; reflexivity|].
  pose proof (Inside 0 (1/2) 0 1 3 2 (fun i j => INR i + 2 * INR j) 1 0 (1/2) (1/2) ltac:(lia) ltac:(lia) ltac:(lra) ltac:(lra)) as P.
  simpl in P. match type of P with interpolated _ _ _ _ _ _ _ (?x, ?y) (Some ?w) => replace x with (3/4) in P by lra; replace y with (1/2) in P by lra; replace w with (5/2) in P by lra end.
  exact P.
Qed.
