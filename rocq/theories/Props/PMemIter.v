(** C105: the iteration of the density reconstruction. *)
From Coq Require Import Reals ZArith String Bool List.
From Coquelicot Require Import Coquelicot.
From Verif Require Import Spec.Lin3 Spec.Density Spec.Intens Spec.MemSpec Spec.DescentSpec Model.Mem Model.FlipRatio Model.MemFourier Model.MemIter
  Proofs.MemIterP2 Proofs.MemIterP3 Proofs.MemIterP4 Proofs.MemIterP5 Proofs.MemIterP6.
Import ListNotations.
Open Scope list_scope.
Open Scope R_scope.

(** The derivatives used for the step are those of the deviation between data and model with respect to the density at each point. *)
Theorem C105_gradient_chi : forall p d j, regular p d -> (j < List.length (snd d))%nat ->
  is_derive (fun t => ev_c (evaluate p (with_chi d j t))) (nth j (snd d) 0) (nth j (ev_dchi (evaluate p d)) 0).
Proof. exact gradient_chi. Qed.
Print Assumptions C105_gradient_chi.
Theorem C105_gradient_plus : forall p d j, regular p d -> (j < List.length (fst (fst d)))%nat -> List.length (fst (fst d)) = List.length (snd (fst d)) ->
  is_derive (fun t => ev_c (evaluate p (with_plus d j t))) (nth j (fst (fst d)) 0) (nth j (fst (ev_dcol (evaluate p d))) 0).
Proof. exact gradient_plus. Qed.
Print Assumptions C105_gradient_plus.
Theorem C105_gradient_minus : forall p d j, regular p d -> (j < List.length (snd (fst d)))%nat -> List.length (fst (fst d)) = List.length (snd (fst d)) ->
  is_derive (fun t => ev_c (evaluate p (with_minus d j t))) (nth j (snd (fst d)) 0) (nth j (snd (ev_dcol (evaluate p d))) 0).
Proof. exact gradient_minus. Qed.
Print Assumptions C105_gradient_minus.
(** The result is one of the densities tried, the first of which is the prior, and none of those fits the data better. *)
Theorem C105_best_of_tried : forall p iteration_max prior lambda b tried, mem_run p iteration_max prior lambda = Some (b, tried) ->
  (exists rest, tried = prior :: rest) /\ (exists d, In d tried /\ b = evaluate p d) /\ (forall d, In d tried -> ev_c b <= ev_c (evaluate p d)).
Proof. exact best_of_tried. Qed.
Print Assumptions C105_best_of_tried.
(** The number of densities tried is at most the maximal number of iterations (one for zero); it is less only when the result fits as well
    as desired, or when lambda, multiplied by 1.03 for every better density and by 0.5 for every worse one, is below its minimum. *)
Theorem C105_stops : forall p iteration_max prior lambda b tried, mem_run p iteration_max prior lambda = Some (b, tried) ->
  (List.length tried <= Nat.max 1 iteration_max)%nat /\
  ((List.length tried < iteration_max)%nat -> ev_c b <= pa_desired p \/
     exists better worse, (better + worse)%nat = List.length tried /\ lambda * (103 / 100) ^ better * (5 / 10) ^ worse < pa_lambda_min p).
Proof. exact stops. Qed.
Print Assumptions C105_stops.
(** Densities that are not negative with integral one stay so. *)
Theorem C105_stays_normalised : forall p iteration_max prior lambda b tried, sensible p -> proper p prior -> mem_run p iteration_max prior lambda = Some (b, tried) ->
  (forall d, In d tried -> proper p d) /\ proper p (ev_d b).
Proof. exact stays_proper. Qed.
Print Assumptions C105_stays_normalised.
(** One reflection with flipping ratio 3 and the density of one point: two densities are tried. *)
Example C105_met : regular ex_par ex_prior /\ sensible ex_par /\ proper ex_par ex_prior /\ exists b, mem_run ex_par 2 ex_prior 1 = Some (b, [ex_prior; ex_prior]).
Proof. exact ex_met. Qed.
Print Assumptions C105_stays_normalised.
(** The asymmetry (R - 1) / (R + 1) has the uncertainty 2 sigma / (R + 1)^2; the one used is right only for R = 1, too small below and too large above. *)
Theorem C105_asymmetry_sigma_refuted : forall r s, 0 <= r -> 0 < s ->
  fst (exp_value_sigma true r s) = (r - 1) / (r + 1) /\
  (snd (exp_value_sigma true r s) = 2 * s / Rsqr (r + 1) <-> r = 1) /\
  (r < 1 -> snd (exp_value_sigma true r s) < 2 * s / Rsqr (r + 1)) /\ (1 < r -> 2 * s / Rsqr (r + 1) < snd (exp_value_sigma true r s)).
Proof. exact asymmetry_sigma. Qed.
Print Assumptions C105_asymmetry_sigma_refuted.
(** The step goes down the gradient: up to the common factor that restores the integral, every density shrinks where the derivative of the
    deviation with respect to it is positive and grows where it is negative. *)
Theorem C105_descent_col : forall p d d' lam, sensible p -> proper p d -> regular p d -> 0 <= pa_delta p -> 0 < pa_desired p -> 0 < lam -> pa_on_col p = true -> mem_next p lam (evaluate p d) = Some d' ->
  (exists k, 0 < k /\ forall j D, (j < List.length (fst (fst d)))%nat -> is_derive (fun t => ev_c (evaluate p (with_plus d j t))) (nth j (fst (fst d)) 0) D -> follows k (nth j (fst (fst d)) 0) (nth j (fst (fst d')) 0) D) /\
  (exists k, 0 < k /\ forall j D, (j < List.length (snd (fst d)))%nat -> is_derive (fun t => ev_c (evaluate p (with_minus d j t))) (nth j (snd (fst d)) 0) D -> follows k (nth j (snd (fst d)) 0) (nth j (snd (fst d')) 0) D).
Proof. exact descent_col. Qed.
Print Assumptions C105_descent_col.
Theorem C105_descent_chi : forall p d d' lam, sensible p -> proper p d -> regular p d -> 0 <= pa_delta p -> 0 < pa_desired p -> 0 < lam -> pa_on_chi p = true -> mem_next p lam (evaluate p d) = Some d' ->
  exists k : string -> R, forall j q D, nth_error (pa_points p) j = Some q -> is_derive (fun t => ev_c (evaluate p (with_chi d j t))) (nth j (snd d) 0) D ->
    0 < k (mp_label q) /\ follows (k (mp_label q)) (nth j (snd d) 0) (nth j (snd d') 0) D.
Proof. exact descent_chi. Qed.
Print Assumptions C105_descent_chi.
Example C105_descent_met : sensible ex_par /\ proper ex_par ex_prior /\ regular ex_par ex_prior /\ 0 <= pa_delta ex_par /\ 0 < pa_desired ex_par /\ pa_on_col ex_par = true /\
  mem_next ex_par (103 / 100 * 1) (evaluate ex_par ex_prior) = Some ex_prior.
Proof. exact descent_met. Qed.
