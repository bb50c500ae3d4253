(** Property theorems C54: excluded points and chi-square. *)
From Coq Require Import Reals Lra Lia List Bool Arith.
From Coquelicot Require Import Hierarchy Derive.
From Verif Require Import Spec.ChiSquare Model.ChiSq Proofs.ChiSqP.
Import ListNotations.
Open Scope list_scope.
Open Scope R_scope.

(** Single crystal: the excluded reflections influence neither chi-square nor the number of points, *)
Theorem C54_diffrn_excluded : forall l m, Forall2 same_refl l m -> chi_sq_diffrn l = chi_sq_diffrn m.
Proof. exact diffrn_invariant. Qed.
Print Assumptions C54_diffrn_excluded.
(** which is the sum over the kept reflections. *)
Theorem C54_diffrn_value : forall l, (forall r, In r (keptr l) -> r_sig r <> 0) ->
  chi_sq_diffrn l = (Fin (sum_of (map (fun r => ((r_exp r - r_mod r) / r_sig r) ^ 2) (keptr l))), length (keptr l)).
Proof. exact diffrn_value. Qed.
Print Assumptions C54_diffrn_value.
Example C54_case_diffrn : Forall2 same_refl [mkRefl 2 1 1 false []; mkRefl 5 1 1 true []] [mkRefl 2 1 1 false []; mkRefl 9 3 1 true []].
Proof. constructor; [split; auto|]. constructor; [split; [reflexivity|discriminate]|constructor]. Qed.

(** When nothing is excluded the gradient is the derivative of chi-square, *)
Theorem C54_diffrn_gradient : forall (ms : list (R -> R)) (ds es ss : list R) x,
  length ms = length ds -> length ms = length es -> length ms = length ss ->
  (forall s, In s ss -> s <> 0) ->
  (forall i, (i < length ms)%nat -> is_derive (nth i ms (fun _ => 0)) x (nth i ds 0)) ->
  let mk t := map (fun i => mkRefl (nth i es 0) (nth i ss 0) (nth i ms (fun _ => 0) t) false [nth i ds 0]) (seq 0 (length ms)) in
  exists v, der_chi_sq_diffrn (mk x) 0 = Some v /\
    (forall t, fst (chi_sq_diffrn (mk t)) = Fin (sum_of (map (fun r => ((r_exp r - r_mod r) / r_sig r) ^ 2) (mk t)))) /\
    is_derive (fun t => sum_of (map (fun r => ((r_exp r - r_mod r) / r_sig r) ^ 2) (mk t))) x v.
Proof. exact chi_derivative. Qed.
Print Assumptions C54_diffrn_gradient.
(** the second-derivative matrix is the Gauss-Newton one, for every pair of parameters; *)
Theorem C54_diffrn_hessian : forall l j k, (forall r, In r l -> r_excl r = false) ->
  dder_chi_sq_diffrn l j k =
  Some (sum_of (map (fun r => 2 / (r_sig r) ^ 2 * (nth j (r_der r) 0 * nth k (r_der r) 0)) l)).
Proof. exact dder_all. Qed.
Print Assumptions C54_diffrn_hessian.
(** but as soon as a reflection is excluded (and at least two are kept) the evaluation of the derivatives raises. *)
Theorem C54_diffrn_derivatives_with_exclusion_refuted : forall l j, (2 <= length (keptr l))%nat -> (length (keptr l) < length l)%nat ->
  der_chi_sq_diffrn l j = None /\ dder_chi_sq_diffrn l j j = None.
Proof. exact der_fails. Qed.
Print Assumptions C54_diffrn_derivatives_with_exclusion_refuted.
Example C54_case_gradient : let l := [mkRefl 2 1 1 false [1]; mkRefl 3 1 1 false [2]; mkRefl 5 1 1 true [3]] in
  (2 <= length (keptr l))%nat /\ (length (keptr l) < length l)%nat.
Proof. simpl. lia. Qed.

(** 1D powder (constant wavelength and time of flight), chi-square of the sum only: excluded points do not matter provided
    they have intensities and error bars. *)
Theorem C54_pd_sum_excluded : forall l m, same_profile l m -> (forall p, In p (l ++ m) -> excl p = true -> good p) ->
  chi_sq_pd true false l = chi_sq_pd true false m.
Proof. exact pd_sum_invariant. Qed.
Print Assumptions C54_pd_sum_excluded.
Theorem C54_pd_sum_value : forall l, (forall p, In p l -> good p) ->
  chi_sq_pd true false l = (Fin (sum_of (map sum_sq (kept l))), length (kept l)).
Proof. exact pd_value. Qed.
Print Assumptions C54_pd_sum_value.
(** Without error bar at an excluded point chi-square turns into 1e30. *)
Theorem C54_pd_zero_sigma_refuted : exists l m, same_profile l m /\
  (forall p, In p (l ++ m) -> excl p = false -> good p) /\
  fst (chi_sq_pd true false l) = Fin 0 /\ fst (chi_sq_pd true false m) = Fin (10 ^ 30).
Proof. exact pd_zero_sigma_bad. Qed.
Print Assumptions C54_pd_zero_sigma_refuted.
(** With the difference term excluded points contribute: exact value, and a counterexample to the property. *)
Theorem C54_pd_difference_value : forall l, (forall p, In p l -> good p) ->
  chi_sq_pd true true l = (Fin (sum_of (map sum_sq (kept l)) + sum_of (map diff_sq l)), (length (kept l) + length l)%nat).
Proof. exact pd_value_diff. Qed.
Print Assumptions C54_pd_difference_value.
Theorem C54_pd_difference_refuted : exists l m, same_profile l m /\ (forall p, In p (l ++ m) -> good p) /\
  (exists p, In p l /\ excl p = false) /\
  fst (chi_sq_pd true true l) <> fst (chi_sq_pd true true m) /\
  (length (kept l) < snd (chi_sq_pd false true l))%nat.
Proof. exact pd_difference_bad. Qed.
Print Assumptions C54_pd_difference_refuted.
Example C54_case_pd : same_profile [pt 1 2 1 false; pt 0 0 1 true] [pt 1 2 1 false; pt 7 5 2 true] /\ good (pt 7 5 2 true).
Proof. split; [constructor; [|constructor; [|constructor]]; repeat split; simpl; auto; discriminate|apply pt_good; lra]. Qed.

(** 2D powder: the sum term is right, also for missing (NaN) points; the difference term ignores the mask. *)
Theorem C54_pd2d_sum_excluded : forall l m, same_profile l m -> chi_sq_pd2d true false l = chi_sq_pd2d true false m.
Proof. exact pd2d_sum_invariant. Qed.
Print Assumptions C54_pd2d_sum_excluded.
Theorem C54_pd2d_sum_value : forall l, (forall p, In p l -> excl p = false -> present p = true -> good p) ->
  chi_sq_pd2d true false l = (Fin (sum_of (map sum_sq (filter present (kept l)))), length (filter present (kept l))).
Proof. exact pd2d_value. Qed.
Print Assumptions C54_pd2d_sum_value.
Theorem C54_pd2d_difference_refuted : exists l m, same_profile l m /\ (forall p, In p (l ++ m) -> good p) /\
  fst (chi_sq_pd2d true true l) <> fst (chi_sq_pd2d true true m).
Proof. exact pd2d_difference_bad. Qed.
Print Assumptions C54_pd2d_difference_refuted.
