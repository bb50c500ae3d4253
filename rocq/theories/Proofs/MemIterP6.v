(** An example for the step of the density reconstruction (C105). *)
From Coq Require Import Reals Lra Lia String Bool List ZArith.
From Coquelicot Require Import Coquelicot.
From Verif Require Import Spec.Lin3 Spec.Scatter Spec.Density Model.Mem Model.FlipRatio Model.MemFourier Model.MemIter Spec.Intens Spec.MemSpec Spec.DescentSpec Proofs.MemIterP2 Proofs.MemIterP4.
Import ListNotations.
Open Scope list_scope.
Open Scope R_scope.

Lemma descent_met : sensible ex_par /\ proper ex_par ex_prior /\ regular ex_par ex_prior /\ 0 <= pa_delta ex_par /\ 0 < pa_desired ex_par /\ pa_on_col ex_par = true /\
  mem_next ex_par (103 / 100 * 1) (evaluate ex_par ex_prior) = Some ex_prior.
Proof.
  destruct ex_met as (A & B & C & _). split; [exact B|]. split; [exact C|]. split; [exact A|]. split; [cbn; lra|]. split; [cbn; lra|]. split; [reflexivity|].
  unfold mem_next. change (pa_on_col ex_par) with true. change (pa_on_chi ex_par) with false. cbv iota. cbn [evaluate ev_d ev_dcol fst snd ex_prior List.length seq map]. rewrite !ex_row. reflexivity.
Qed.
