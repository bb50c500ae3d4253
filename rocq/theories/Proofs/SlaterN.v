(** <j2> of a 1s orbital is not 0. *)
From Coq Require Import Reals List Arith Lia Lra.
From Coquelicot Require Import Coquelicot.
From Verif Require Import Spec.SlaterSpec Spec.BesselSpec Model.Slater Proofs.SlaterP Proofs.SlaterL.
Import ListNotations.
Open Scope R_scope.

Lemma rising : forall (f df : R -> R), (forall x : R, is_derive f x (df x)) -> f 0 = 0 -> (forall x, 0 <= x -> 0 <= df x) -> forall x, 0 <= x -> 0 <= f x.
Proof.
  intros f df D Z N x X. destruct (MVT_gen f 0 x df) as (c & C & E).
  - intros y _. apply D.
  - intros y _. apply derivable_continuous_pt. exists (df y). apply is_derive_Reals, D.
  - rewrite Z, !Rminus_0_r in E. rewrite E. rewrite Rmin_left, Rmax_right in C by exact X. apply Rmult_le_pos; [apply N; lra|exact X].
Qed.
Lemma cos_low : forall x, 0 <= x -> 0 <= cos x - 1 + x ^ 2 / 2.
Proof.
  apply (rising (fun x => cos x - 1 + x ^ 2 / 2) (fun x => x - sin x)); [intros x; auto_derive; [exact Logic.I|]; field|rewrite cos_0; field|].
  intros x X. destruct (Req_EM_T x 0) as [->|E]; [rewrite sin_0; lra|]. pose proof (sin_lt_x x). lra.
Qed.
Lemma sin_low : forall x, 0 <= x -> 0 <= sin x - x + x ^ 3 / 6.
Proof.
  apply (rising (fun x => sin x - x + x ^ 3 / 6) (fun x => cos x - 1 + x ^ 2 / 2)); [intros x; auto_derive; [exact Logic.I|]; field|rewrite sin_0; field|apply cos_low].
Qed.
Lemma g_low : forall x, 0 <= x -> 0 <= sin x - x * cos x - x ^ 3 / 3 + x ^ 5 / 30.
Proof.
  apply (rising (fun x => sin x - x * cos x - x ^ 3 / 3 + x ^ 5 / 30) (fun x => x * (sin x - x + x ^ 3 / 6))); [intros x; auto_derive; [exact Logic.I|]; field|rewrite sin_0; field|].
  intros x X. apply Rmult_le_pos; [exact X|apply sin_low, X].
Qed.
Lemma j2_low : forall x, 0 <= x -> 0 <= 3 * sin x - 3 * x * cos x - x ^ 2 * sin x - x ^ 5 / 15 + x ^ 7 / 210.
Proof.
  apply (rising (fun x => 3 * sin x - 3 * x * cos x - x ^ 2 * sin x - x ^ 5 / 15 + x ^ 7 / 210) (fun x => x * (sin x - x * cos x - x ^ 3 / 3 + x ^ 5 / 30))); [intros x; auto_derive; [exact Logic.I|]; field|rewrite sin_0; field|].
  intros x X. apply Rmult_le_pos; [exact X|apply g_low, X].
Qed.
Lemma bessel_low : forall x, 0 <= x -> x ^ 2 / 15 - x ^ 4 / 210 <= spherical_bessel 2 x.
Proof.
  intros x X. unfold spherical_bessel. destruct (Req_EM_T x 0) as [->|E]; [lra|]. pose proof (j2_low x X) as H. change (sph 2 x) with ((2 * INR 1 + 1) / x * (sin x / x ^ 2 - cos x / x) - sin x / x). cbn [INR].
  assert (P : 0 < x ^ 3) by (apply pow_lt; lra). apply (Rmult_le_reg_l (x ^ 3)); [exact P|].
  replace (x ^ 3 * ((2 * 1 + 1) / x * (sin x / x ^ 2 - cos x / x) - sin x / x)) with (3 * sin x - 3 * x * cos x - x ^ 2 * sin x) by (field; exact E).
  replace (x ^ 3 * (x ^ 2 / 15 - x ^ 4 / 210)) with (x ^ 5 / 15 - x ^ 7 / 210) by field. lra.
Qed.
(** the moments of an exponential *)
Lemma moment : forall z, 0 < z -> forall k, good (fun r => r ^ S k * exp (- z * r)) (INR (fact (k + 1)) / z ^ (k + 2)).
Proof.
  intros z Hz k. rewrite <- (proj1 (sc_zero z Hz k)). apply (good_ext (fun r => r ^ k * exp (- z * r) * sq 0 r)); [|apply good_kernel, Hz].
  intros r. unfold sq. destruct (Req_EM_T 0 0); [|contradiction]. cbn [pow]. ring.
Qed.
Lemma not_zero : forall z c, 0 < z -> 0 < c -> ~ integral (fun r => r ^ 2 * (c * exp (- z * r)) * spherical_bessel 2 (z / 2 * r)) 0.
Proof.
  intros z c Hz Hc [X L].
  assert (G : good (fun r => c * ((z / 2) ^ 2 / 15 * (r ^ 4 * exp (- z * r)) + - ((z / 2) ^ 4 / 210) * (r ^ 6 * exp (- z * r)))) (c * ((z / 2) ^ 2 / 15 * (INR (fact 4) / z ^ 5) + - ((z / 2) ^ 4 / 210) * (INR (fact 6) / z ^ 7)))).
  { apply good_scal, good_plus; apply good_scal; [exact (moment z Hz 3)|exact (moment z Hz 5)]. }
  destruct (good_integral _ _ G) as [X' L']. 
  assert (LE : Rbar_le (c * ((z / 2) ^ 2 / 15 * (INR (fact 4) / z ^ 5) + - ((z / 2) ^ 4 / 210) * (INR (fact 6) / z ^ 7))) 0).
  { eapply is_lim_le_loc; [|exact L'|exact L]. exists 0. intros b Hb. apply RInt_le; [lra|apply X'|apply X|]. intros r Hr.
    assert (B : 0 <= z / 2 * r) by (apply Rmult_le_pos; lra). pose proof (bessel_low _ B) as J.
    replace (c * ((z / 2) ^ 2 / 15 * (r ^ 4 * exp (- z * r)) + - ((z / 2) ^ 4 / 210) * (r ^ 6 * exp (- z * r)))) with (r ^ 2 * (c * exp (- z * r)) * ((z / 2 * r) ^ 2 / 15 - (z / 2 * r) ^ 4 / 210)) by field.
    apply Rmult_le_compat_l; [|exact J]. apply Rmult_le_pos; [apply pow2_ge_0|]. apply Rmult_le_pos; [lra|apply Rlt_le, exp_pos]. }
  replace (INR (fact 4)) with 24 in LE by (cbn; lra). replace (INR (fact 6)) with 720 in LE by (rewrite INR_IZR_INZ; reflexivity). cbn [Rbar_le] in LE.
  replace (c * ((z / 2) ^ 2 / 15 * (24 / z ^ 5) + - ((z / 2) ^ 4 / 210) * (720 / z ^ 7))) with (c * / z ^ 3 * (13 / 70)) in LE by (field; lra).
  assert (0 < c * / z ^ 3) by (apply Rmult_lt_0_compat; [exact Hc|apply Rinv_0_lt_compat, pow_lt, Hz]). lra.
Qed.
Lemma missing_order : exists (orb : list (R * nat * R)) s l, List.Forall proper orb /\ 0 < s /\ (l <= 3)%nat /\ exists r, calc_jl s orb 1 3 = Some r /\
  ~ integral (fun r => r ^ 2 * Rsqr (radial (stretched (1 / (529177 / 1000000)) orb) r) * spherical_bessel l (4 * PI * s * r)) (nth l r 0).
Proof.
  set (z := 1 / (529177 / 1000000) * 1). assert (Hz : 0 < z) by (unfold z; lra). pose proof PI_RGT_0 as HP.
  exists [(1, 1%nat, 1)], (z / (4 * PI)), 2%nat. split; [repeat constructor; lra|]. split; [apply Rdiv_lt_0_compat; lra|]. split; [lia|].
  destruct (high_order [(1, 1%nat, 1)] 1 (z / (4 * PI)) 3 2) as (r & R1 & R2); [repeat constructor; lra|lia|apply high_met|]. exists r. split; [exact R1|]. rewrite R2. intros I.
  set (c := Rpower (2 * z) (INR 1 + / 2) / sqrt (INR (fact (2 * 1)))).
  assert (C : 0 < c) by (apply Rdiv_lt_0_compat; [apply exp_pos|apply sqrt_lt_R0, INR_fact_lt_0]).
  apply (not_zero (2 * z) (c * c)); [lra|apply Rmult_lt_0_compat; exact C|]. revert I. 
  assert (E : forall r, r ^ 2 * Rsqr (radial (stretched (1 / (529177 / 1000000)) [(1, 1%nat, 1)]) r) * spherical_bessel 2 (4 * PI * (z / (4 * PI)) * r) = r ^ 2 * (c * c * exp (- (2 * z) * r)) * spherical_bessel 2 (2 * z / 2 * r)).
  { intros x. replace (4 * PI * (z / (4 * PI)) * x) with (2 * z / 2 * x) by (field; lra). f_equal. f_equal. cbn [stretched map radial]. fold z. fold c. unfold Rsqr. replace (- (2 * z) * x) with (- z * x + - z * x) by ring. rewrite exp_plus. cbn [Nat.sub pow]. ring. }
  intros [X L]. split.
  - intros b. apply (ex_RInt_ext (fun r => r ^ 2 * Rsqr (radial (stretched (1 / (529177 / 1000000)) [(1, 1%nat, 1)]) r) * spherical_bessel 2 (4 * PI * (z / (4 * PI)) * r))); [intros; apply E|apply X].
  - eapply is_lim_ext; [|exact L]. intros b. cbv beta. apply RInt_ext. intros; apply E.
Qed.
