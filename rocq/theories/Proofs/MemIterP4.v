(** An example for C105: one point, one reflection. *)
From Coq Require Import Reals Lra Lia String Bool List ZArith.
From Coquelicot Require Import Complex.
From Verif Require Import Spec.Lin3 Spec.Scatter Spec.Density Model.Mem Model.FlipRatio Model.MemFourier Model.MemIter Spec.Intens Spec.MemSpec Proofs.FlipRatioP Proofs.MemP Proofs.MemIterP Proofs.MemIterP2 Proofs.MemIterP3.
Import ListNotations.
Open Scope list_scope.
Open Scope R_scope.

Definition ex_refl : mrefl := mkMR 1 1 (2, 0) (mkV 0 0 1) None [mkV (RtoC 0) (RtoC 0) (RtoC 1)] [] 3 1.
Definition ex_par : mpar := mkPar [ex_refl] false 1 (-1) true false 1 1 1 0 [1] [] (1 / 10).
Definition ex_prior : dens := (([1], [1]), []).
Lemma ex_fm : f_m_perp_of 1 (-1) ex_refl ex_prior = mkV (0, 0) (0, 0) (0, 0).
Proof.
  unfold f_m_perp_of, f_m_perp_col, f_m_perp_chi, ex_refl, ex_prior. cbn [fst snd mr_col mr_chi combine map csum fold_right vget v_1 v_2 v_3]. unfold Cplus, Cmult, RtoC. cbn [fst snd].
  f_equal; f_equal; ring.
Qed.
Lemma ex_iint : forall q, ip (calc_iint q (mkArg 1 1 (2, 0) (mkV (0, 0) (0, 0) (0, 0)) (mkV 0 0 1) None)) = 4 /\ im (calc_iint q (mkArg 1 1 (2, 0) (mkV (0, 0) (0, 0) (0, 0)) (mkV 0 0 1) None)) = 4.
Proof.
  intros q. rewrite ip_form, im_form. unfold form, fp, fm, fx, ch, fz, Rsqr. cbn [a_fm a_fn a_fe a_bp a_axis a_ext fst snd v_1 v_2 v_3]. unfold y_of. cbv beta iota. split; lra.
Qed.
Lemma ex_model : fst (refl_model false ex_refl (f_m_perp_of 1 (-1) ex_refl ex_prior)) = 1.
Proof.
  rewrite ex_fm, model_fst. cbv iota. unfold arg_of, ex_refl. cbn [mr_bp mr_fe mr_fn mr_axis mr_ext]. destruct (ex_iint ffm) as [-> ->]. unfold calc_flip_ratio_by_iint. cbn [fst]. lra.
Qed.
Lemma ex_cost : ev_c (evaluate ex_par ex_prior) = 4.
Proof.
  unfold evaluate. cbn [ev_c]. change (pa_refl ex_par) with [ex_refl]. cbn [map List.length INR]. unfold asum. cbn [fold_right]. unfold diff_value. change (pa_asym ex_par) with false. change (pa_plus ex_par) with 1. change (pa_minus ex_par) with (-1). rewrite ex_model.
  change (mr_exp ex_refl) with 3. change (mr_sigma ex_refl) with 1. unfold Rsqr. lra.
Qed.
Lemma ex_row : forall der : R, next_col ex_par (103 / 100 * 1) [1] [der] = Some [1].
Proof.
  intros der. unfold next_col, moved_col, col_sum, renorm_col_row, asum. cbn [combine map fst snd pa_mult ex_par fold_right pa_delta pa_desired pa_volume pa_number]. unfold moved.
  set (e := exp _). pose proof (exp_pos (- (103 / 100 * 1 * 1 / (1 * 1) / 1) * der)) as P. fold e in P. clearbody e. unfold clip.
  destruct (Rlt_dec 0 ((1 + 0) * e - 0)) as [L|L]; [|exfalso; lra]. destruct (Req_EM_T _ 0) as [Z|Z]; [exfalso; lra|]. f_equal. f_equal. field. lra.
Qed.
Lemma ex_met : regular ex_par ex_prior /\ sensible ex_par /\ proper ex_par ex_prior /\ exists b, mem_run ex_par 2 ex_prior 1 = Some (b, [ex_prior; ex_prior]).
Proof.
  split; [|split; [|split]].
  - intros r [<-|[]]. split; [exact Logic.I|]. split; [unfold unit_axis, ex_refl; cbn [mr_axis v_1 v_2 v_3]; unfold Rsqr; lra|].
    change (pa_plus ex_par) with 1. change (pa_minus ex_par) with (-1). change (pa_asym ex_par) with false. rewrite ex_fm. cbv zeta iota. unfold ex_refl. cbn [mr_bp mr_fe mr_fn mr_axis mr_ext].
    destruct (ex_iint (mkF false false false false)) as [_ E]. unfold im in E. unfold iint_minus_of. destruct (calc_iint _ _) as [[[a b] c] d]. rewrite E. lra.
  - unfold sensible. change (pa_volume ex_par) with 1. change (pa_number ex_par) with 1. change (pa_mult ex_par) with [1]. change (pa_points ex_par) with (@nil mpoint).
    repeat split; try lra; [intros m [<-|[]]; lra|destruct H|destruct H].
  - unfold proper. split; [|discriminate]. intros _. unfold proper_row, ex_prior, integral. change (pa_volume ex_par) with 1. change (pa_number ex_par) with 1. change (pa_mult ex_par) with [1].
    cbn [fst snd combine map fold_right List.length]. repeat split; try (intros x [<-|[]]; lra); lra.
  - unfold mem_run. cbn [Nat.pred mem_loop mem_accept].
    replace (pa_lambda_min ex_par) with (1 / 10) by reflexivity. replace (pa_desired ex_par) with 1 by reflexivity.
    destruct (Rlt_dec (103 / 100 * 1) (1 / 10)); [exfalso; lra|]. rewrite ex_cost. destruct (Rle_dec 4 1); [exfalso; lra|]. cbn [orb].
    replace (mem_next ex_par (103 / 100 * 1) (evaluate ex_par ex_prior)) with (Some ex_prior).
    + destruct (Rlt_dec 4 (ev_c (evaluate ex_par ex_prior))); eexists; reflexivity.
    + unfold mem_next. cbn [pa_on_col pa_on_chi ex_par]. unfold evaluate, ex_prior. cbn [ev_d ev_dcol fst snd List.length seq map]. rewrite !ex_row. reflexivity.
Qed.
