(** Property theorem C87 (function_1_roots.py). *)
From Coq Require Import Reals List Lra Lia.
From Verif Require Import Spec.RootSpec Model.Roots Proofs.RootsP.
Import ListNotations.
Open Scope R_scope.

(** C87.  Every value returned is a zero up to 5e-13. *)
Theorem C87_roots_are_zeros : forall f a b eps fuel l, a < b -> 0 <= eps -> cont f a b -> calc_roots f a b eps fuel = Some l ->
  forall r, In r l -> a <= r <= b /\ zero_within f a b (/ 10 ^ 12 / 2) r.
Proof. exact calc_roots_sound. Qed.
Print Assumptions C87_roots_are_zeros.
Theorem C87_bisect : forall f x1 x2 switch eps r, 0 < eps -> x1 <= x2 -> cont f x1 x2 -> bisect f x1 x2 switch eps = Some r ->
  x1 <= r <= x2 /\ zero_within f x1 x2 (eps / 2) r.
Proof. exact bisect_zero. Qed.
Print Assumptions C87_bisect.
(** Where f is strictly monotone between neighbouring points of the search grid and f b is not 0, the search ends and finds every zero. *)
Theorem C87_all_found_partial : forall f a b eps, a < b -> 0 <= eps -> cont f a b -> f b <> 0 ->
  let dx := if Req_EM_T eps 0 then (b - a) / 100 else eps in
  (forall k, monotone f (Rmin (a + INR k * dx) b) (Rmin (a + INR (S k) * dx) b)) ->
  exists n, forall fuel, (n <= fuel)%nat ->
    exists l, calc_roots f a b eps fuel = Some l /\ forall z, a <= z <= b -> f z = 0 -> exists r, In r l /\ Rabs (r - z) <= / 10 ^ 12 / 2.
Proof. exact calc_roots_complete. Qed.
Print Assumptions C87_all_found_partial.
(** If f b = 0 the search never ends. *)
Theorem C87_end_refuted : forall f a b eps, a < b -> 0 <= eps -> f b = 0 -> forall fuel, calc_roots f a b eps fuel = None.
Proof. exact calc_roots_never_ends. Qed.
Print Assumptions C87_end_refuted.
(** A zero at a point of the grid is returned twice. *)
Theorem C87_once_refuted : exists l, calc_roots (fun x => x - 1) 0 (3/2) 1 10 = Some l /\ l = [1; 1].
Proof. exact calc_roots_twice. Qed.
Print Assumptions C87_once_refuted.
(** A continuous function that changes its sign between neighbouring points of the grid, and no zero is returned. *)
Theorem C87_all_found_refuted : let f := fun x => -8 * (x * x) + 10 * x - 1 in
  f 0 < 0 < f 1 /\ calc_roots f 0 1 1 10 = Some [].
Proof. exact calc_roots_missed. Qed.
Print Assumptions C87_all_found_refuted.
Example C87_case : let f := fun x => x * x * x - 2 in 0 < 2 /\ cont f 0 2 /\ f 2 <> 0 /\
  forall k, monotone f (Rmin (0 + INR k * (2 / 100)) 2) (Rmin (0 + INR (S k) * (2 / 100)) 2).
Proof.
  intros f. split; [lra|]. split; [intros x _; unfold f; reg|]. split; [unfold f; lra|]. intros k. left. intros x y X L Y. unfold f.
  assert (0 <= x). { eapply Rle_trans; [|exact X]. apply Rmin_glb; [|lra]. pose proof (pos_INR k). lra. }
  assert (x * x < y * y) by (apply Rmult_le_0_lt_compat; lra). assert (x * x * x < y * y * y) by (apply Rmult_le_0_lt_compat; try lra; apply Rmult_le_pos; lra). lra.
Qed.
