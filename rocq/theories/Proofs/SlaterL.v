(** Proofs about Slater orbitals: the integrals with spherical Bessel functions of any order. *)
From Coq Require Import Reals List Arith Lia Lra.
From Coquelicot Require Import Coquelicot.
From Verif Require Import Spec.SlaterSpec Spec.BesselSpec Model.Slater Proofs.SlaterP.
Import ListNotations.
Open Scope R_scope.

Section values.
Context (z Q : R) (Hz : 0 < z).
Let d := dd z Q.
Lemma dpos : 0 < d. Proof. apply dd_pos, Hz. Qed.
Fixpoint UU (l m : nat) : R * R :=
  match m with
  | O => (INR (fact l) / d ^ S l, 0)
  | S j => ((2 * z * INR (l + 1 + j) * fst (UU l j) - INR (2 * l + 1 + j) * INR j * snd (UU l j)) / d, fst (UU l j))
  end.
Definition U (l m : nat) : R := fst (UU l m).
Definition P (l m : nat) : R := snd (UU l m).
Lemma U_0 : forall l, U l 0 = INR (fact l) / d ^ S l. Proof. reflexivity. Qed.
Lemma P_0 : forall l, P l 0 = 0. Proof. reflexivity. Qed.
Lemma U_S : forall l j, U l (S j) = (2 * z * INR (l + 1 + j) * U l j - INR (2 * l + 1 + j) * INR j * P l j) / d. Proof. reflexivity. Qed.
Lemma P_S : forall l j, P l (S j) = U l j. Proof. reflexivity. Qed.
Definition V (l m : nat) : R := (2 * Q) ^ l * U l m.
Definition VP (l m : nat) : R := (2 * Q) ^ l * P l m.
Lemma V_S : forall l j, V l (S j) = (2 * z * (INR l + 1 + INR j) * V l j - (2 * INR l + 1 + INR j) * INR j * VP l j) / d.
Proof. intros. pose proof dpos. unfold V, VP. rewrite U_S, !plus_INR, mult_INR. cbn [INR]. field. lra. Qed.
Lemma VP_S : forall l j, VP l (S j) = V l j. Proof. reflexivity. Qed.
Lemma VP_0 : forall l, VP l 0 = 0. Proof. intros. unfold VP. rewrite P_0. ring. Qed.
Lemma V_base : forall l, V (S l) 0 = 2 * Q * (INR l + 1) / d * V l 0.
Proof. intros l. pose proof dpos. unfold V. rewrite !U_0, fact_simpl, mult_INR, S_INR. cbn [pow]. field. split; [apply pow_nonzero; lra|lra]. Qed.
Lemma d_is : d = Q * Q + z * z. Proof. unfold d, dd. ring. Qed.
(** Q J(l+1, n) = (n + l) J(l, n - 1) - z J(l, n), with the previous ones *)
Lemma up : forall l m, Q * V (S l) m = (2 * INR l + 2 + INR m) * V l m - z * V l (S m) /\ (m <> 0%nat -> Q * VP (S l) m = (2 * INR l + 1 + INR m) * VP l m - z * V l m).
Proof.
  intros l. pose proof dpos as D. induction m as [|m [A B]].
  - split; [|intros H; contradiction]. rewrite V_base, V_S. cbn [INR]. apply (Rmult_eq_reg_r d); [|lra]. field_simplify; [|lra|lra]. rewrite d_is. ring.
  - split; [|intros _; rewrite !VP_S, A, S_INR; ring].
    rewrite (V_S (S l) m). replace (Q * ((2 * z * (INR (S l) + 1 + INR m) * V (S l) m - (2 * INR (S l) + 1 + INR m) * INR m * VP (S l) m) / d)) with
      ((2 * z * (INR (S l) + 1 + INR m) * (Q * V (S l) m) - (2 * INR (S l) + 1 + INR m) * (INR m * (Q * VP (S l) m))) / d) by (field; lra).
    assert (B' : INR m * (Q * VP (S l) m) = INR m * ((2 * INR l + 1 + INR m) * VP l m - z * V l m)).
    { destruct m as [|m]; [cbn [INR]; ring|]. rewrite B by discriminate. reflexivity. }
    rewrite A, B', (V_S l (S m)), VP_S. pose proof (V_S l m) as E. rewrite !S_INR.
    replace (INR m * ((2 * INR l + 1 + INR m) * VP l m - z * V l m)) with (2 * z * (INR l + 1 + INR m) * V l m - d * V l (S m) - INR m * z * V l m) by (rewrite E; field; lra).
    field. lra.
Qed.
Lemma down : Q <> 0 -> forall l m, Q * V l (S m) = z * V (S l) m - INR m * VP (S l) m.
Proof.
  intros HQ l m. pose proof dpos as D. destruct (up l m) as [A B]. pose proof (V_S l m) as E.
  assert (B' : INR m * (Q * VP (S l) m) = INR m * ((2 * INR l + 1 + INR m) * VP l m - z * V l m)).
  { destruct m as [|m]; [cbn [INR]; ring|]. rewrite B by discriminate. reflexivity. }
  apply (Rmult_eq_reg_l Q); [|exact HQ].
  replace (Q * (z * V (S l) m - INR m * VP (S l) m)) with (z * (Q * V (S l) m) - INR m * (Q * VP (S l) m)) by ring. rewrite A, B'.
  replace (INR m * ((2 * INR l + 1 + INR m) * VP l m - z * V l m)) with (2 * z * (INR l + 1 + INR m) * V l m - d * V l (S m) - INR m * z * V l m) by (rewrite E; field; lra).
  rewrite d_is. ring.
Qed.
Lemma three : Q <> 0 -> forall l m, V (S (S l)) m = (2 * INR (S l) + 1) / Q * V (S l) m - V l (S (S m)).
Proof.
  intros HQ l m. destruct (up (S l) m) as [A _]. pose proof (down HQ l (S m)) as B. rewrite VP_S in B. apply (Rmult_eq_reg_l Q); [|exact HQ].
  rewrite A. replace (Q * ((2 * INR (S l) + 1) / Q * V (S l) m - V l (S (S m)))) with ((2 * INR (S l) + 1) * V (S l) m - Q * V l (S (S m))) by (field; exact HQ). rewrite B, (S_INR m). ring.
Qed.
Lemma V_0 : forall m, V 0 m = fst (sc z Q m) /\ INR m * VP 0 m = match m with O => 0 | S j => INR m * fst (sc z Q j) end.
Proof.
  pose proof dpos as D. assert (H : forall m, V 0 m = fst (sc z Q m) /\ V 0 (S m) = fst (sc z Q (S m))).
  { induction m as [|m [A B]].
    - split; [unfold V; rewrite U_0; cbn [fact INR pow sc fst]; fold d; field; lra|]. rewrite V_S, VP_0. unfold V. rewrite U_0. cbn [fact INR pow sc fst snd]. fold d. field. lra.
    - split; [exact B|]. rewrite V_S, VP_S, A, B, (sc_step z Q Hz). fold d. rewrite !S_INR. cbn [INR]. field. lra. }
  intros m. split; [apply H|]. destruct m as [|m]; [rewrite VP_0; ring|]. rewrite VP_S. f_equal. apply H.
Qed.
Lemma sc_cos : forall m, snd (sc z Q (S m)) = z * fst (sc z Q (S m)) - INR (S m) * fst (sc z Q m).
Proof. intros m. pose proof dpos as D. cbn [sc fst snd]. fold d. apply (Rmult_eq_reg_r d); [|lra]. field_simplify; [|lra|lra]. rewrite d_is. ring. Qed.
Lemma V_1 : Q <> 0 -> forall m, V 1 m = / Q * fst (sc z Q m) - / Q * snd (sc z Q (S m)).
Proof.
  intros HQ m. destruct (up 0 m) as [A _]. rewrite (proj1 (V_0 m)), (proj1 (V_0 (S m))) in A. apply (Rmult_eq_reg_l Q); [|exact HQ]. rewrite A, sc_cos, S_INR. cbn [INR].
  field. exact HQ.
Qed.

(** the integrals of r^n exp(-z r) j_l(Q r), n > l *)
Definition wgood (g : R -> R) (v : R) : Prop := exists h, good h v /\ forall r, r <> 0 -> h r = g r.
Lemma good_cos : forall k, good (fun r => r ^ k * exp (- z * r) * cq Q r) (snd (sc z Q k)).
Proof.
  intros k. exists (fun r => snd (FK z Q k r)). split; [intros r; apply (FK_derive z Q Hz k r)|]. split; [|split; [apply (FK_lim z Q Hz k)|apply (FK_0 z Q Hz k)]].
  intros r. apply (ex_derive_continuous (fun r => r ^ k * exp (- z * r) * cq Q r)). auto_derive. apply ex_c.
Qed.
Lemma wgood_bessel : Q <> 0 -> forall l m, wgood (fun r => r ^ (l + 1 + m) * exp (- z * r) * sph l (Q * r)) (V l m) /\ wgood (fun r => r ^ (S l + 1 + m) * exp (- z * r) * sph (S l) (Q * r)) (V (S l) m).
Proof.
  intros HQ. induction l as [|l IH]; intros m.
  - assert (SQ : forall r, sq Q r = sin (Q * r) / Q) by (intros r; unfold sq; destruct (Req_EM_T Q 0); [contradiction|reflexivity]). split.
    + exists (fun r => r ^ m * exp (- z * r) * sq Q r). split; [rewrite (proj1 (V_0 m)); apply good_kernel, Hz|]. intros r Hr. rewrite SQ. cbn [sph Nat.add pow]. field. split; assumption.
    + exists (fun r => / Q * (r ^ m * exp (- z * r) * sq Q r) + - / Q * (r ^ S m * exp (- z * r) * cq Q r)). split.
      * rewrite V_1 by exact HQ. replace (/ Q * fst (sc z Q m) - / Q * snd (sc z Q (S m))) with (/ Q * fst (sc z Q m) + - / Q * snd (sc z Q (S m))) by ring.
        apply good_plus; apply good_scal; [apply good_kernel, Hz|apply good_cos].
      * intros r Hr. rewrite SQ. unfold cq. cbn [sph Nat.add pow]. field. split; assumption.
  - split; [apply IH|]. destruct (proj2 (IH m)) as (h1 & G1 & E1). destruct (proj1 (IH (S (S m)))) as (h2 & G2 & E2).
    exists (fun r => (2 * INR (S l) + 1) / Q * h1 r + - 1 * h2 r). split.
    + rewrite three by exact HQ. replace ((2 * INR (S l) + 1) / Q * V (S l) m - V l (S (S m))) with ((2 * INR (S l) + 1) / Q * V (S l) m + - 1 * V l (S (S m))) by ring. apply good_plus; apply good_scal; assumption.
    + intros r Hr. rewrite E1, E2 by exact Hr. change (sph (S (S l)) (Q * r)) with ((2 * INR (S l) + 1) / (Q * r) * sph (S l) (Q * r) - sph l (Q * r)).
      replace (S (S l) + 1 + m)%nat with (S (l + 1 + S m)) by lia. replace (S l + 1 + m)%nat with (l + 1 + S m)%nat by lia. replace (l + 1 + S (S m))%nat with (S (l + 1 + S m)) by lia.
      cbn [pow]. generalize (sph (S l) (Q * r)) (sph l (Q * r)) (INR (S l)) (r ^ (l + 1 + S m)). intros. field. split; assumption.
Qed.
End values.

(** the loops of calc_transs *)
Lemma P_V : forall z Q l m, P z Q l (S m) = U z Q l m. Proof. reflexivity. Qed.
Lemma inner_l : forall z Q, 0 < z -> forall l w count nx a, (l + 1 <= nx)%nat -> (forall k, (l + 1 <= k <= nx)%nat -> a k = w * U z Q l (k - (l + 1))) ->
  forall k, (l + 1 <= k <= nx + count)%nat -> inner l (2 * z) (Q ^ 2 + z ^ 2) nx count a k = w * U z Q l (k - (l + 1)).
Proof.
  intros z Q Hz l w. induction count as [|c IH]; intros nx a N H k K; [apply H; lia|]. cbn [inner]. apply IH; [lia| |lia]. clear k K. intros k K.
  destruct (Nat.eq_dec k (nx + 1)) as [->|E].
  - rewrite set_same. pose proof (dd_pos z Q Hz) as D. fold (dd z Q). rewrite (H nx) by lia.
    destruct (Nat.eq_dec nx (l + 1)) as [->|F].
    + replace (l + 1 + 1 - (l + 1))%nat with 1%nat by lia. rewrite Nat.sub_diag. rewrite U_S, P_0, Nat.add_0_r, plus_INR. cbn [INR]. field. lra.
    + rewrite (H (nx - 1)%nat) by lia. remember (nx - (l + 2))%nat as j eqn:J. replace (nx + 1 - (l + 1))%nat with (S (S j)) by lia. replace (nx - (l + 1))%nat with (S j) by lia.
      replace (nx - 1 - (l + 1))%nat with j by lia. rewrite (U_S z Q l (S j)), P_V. replace nx with (l + 1 + S j)%nat by lia. rewrite !plus_INR, mult_INR, S_INR. cbn [INR]. field. lra.
  - rewrite set_other by lia. apply H. lia.
Qed.
Lemma turns_mid : forall z Q, 0 < z -> forall nn ts turns l a, (1 <= l)%nat -> ((l < nn)%nat -> a l = ts ^ (l - 1) * U z Q (l - 1) 0) ->
  exists r, turns_from nn (2 * z) ts (Q ^ 2 + z ^ 2) l turns (a, Some nn) = Some r /\ List.length r = turns /\ forall i, (i < turns)%nat -> (l + i < nn)%nat -> nth i r 0 = ts ^ (l + i) * U z Q (l + i) (nn - (l + i) - 1).
Proof.
  intros z Q Hz nn ts. induction turns as [|t IH]; intros l a L A; [exists []; split; [reflexivity|split; [reflexivity|intros i I; lia]]|]. cbn [turns_from outer].
  destruct (Nat.eqb_spec (l + 1) 1) as [E|E]; [lia|]. set (a1 := set_at _ _ _).
  assert (I3 : match (nn - (l + 1))%nat with 0%nat => Some nn | S _ => Some nn end = Some nn) by (destruct (nn - (l + 1))%nat; reflexivity). rewrite I3. cbn [fst snd].
  assert (B : (l < nn)%nat -> forall k, (l + 1 <= k <= l + 1 + (nn - (l + 1)))%nat -> inner l (2 * z) (Q ^ 2 + z ^ 2) (l + 1) (nn - (l + 1)) a1 k = ts ^ l * U z Q l (k - (l + 1))).
  { intros N. apply inner_l; [exact Hz|lia|]. intros k K. replace k with (l + 1)%nat by lia. unfold a1. rewrite set_other by lia. rewrite set_same. replace (l + 1 - 1)%nat with l by lia. rewrite (A N).
    destruct l as [|l]; [lia|]. replace (S l - 1)%nat with l by lia. rewrite Nat.sub_diag, !U_0, fact_simpl, mult_INR. pose proof (dd_pos z Q Hz) as D. fold (dd z Q). cbn [pow]. field. split; [apply pow_nonzero; lra|lra]. }
  destruct (IH (S l) (inner l (2 * z) (Q ^ 2 + z ^ 2) (l + 1) (nn - (l + 1)) a1)) as (r & R1 & R2 & R3); [lia| |].
  - intros N. rewrite B by lia. replace (S l - 1)%nat with l by lia. replace (S l - (l + 1))%nat with 0%nat by lia. reflexivity.
  - rewrite R1. eexists. split; [reflexivity|]. split; [cbn; rewrite R2; reflexivity|]. intros [|i] I N.
    + cbn [nth]. rewrite B by lia. rewrite Nat.add_0_r. f_equal. f_equal. lia.
    + cbn [nth]. rewrite R3 by lia. replace (S l + i)%nat with (l + S i)%nat by lia. reflexivity.
Qed.
Lemma transs_mid : forall l_max nn z s, (2 <= nn)%nat -> 0 < z -> exists r, calc_transs l_max nn z s = Some r /\ List.length r = (l_max + 1)%nat /\
  forall i, (i <= l_max)%nat -> (i < nn)%nat -> nth i r 0 = (4 * PI) ^ i * U z (4 * PI * s) i (nn - i - 1).
Proof.
  intros l_max nn z s N Hz. unfold calc_transs. rewrite (Nat.add_1_r l_max). cbn [turns_from outer Nat.add Nat.eqb]. destruct (nn - 1)%nat as [|c] eqn:C; [lia|]. cbn [snd fst].
  set (a := inner 0 _ _ _ _ _). pose proof (dd_pos z (4 * PI * s) Hz) as D.
  assert (A : forall k, (1 <= k <= nn)%nat -> a k = U z (4 * PI * s) 0 (k - 1)).
  { intros k K. unfold a. rewrite (inner_l z (4 * PI * s) Hz 0 1); [apply Rmult_1_l|lia| |lia]. intros j J. replace j with 1%nat by lia. rewrite set_same, Nat.sub_diag, U_0. fold (dd z (4 * PI * s)). cbn [fact INR pow]. field. lra. }
  destruct (turns_mid z (4 * PI * s) Hz nn (4 * PI) l_max 1 a) as (r & R1 & R2 & R3); [lia| |].
  - intros _. rewrite A by lia. cbn [Nat.sub pow]. ring.
  - rewrite R1. eexists. split; [reflexivity|]. split; [cbn; rewrite R2; reflexivity|]. intros [|i] I J.
    + cbn [nth]. rewrite A by lia. cbn [pow]. rewrite Nat.sub_0_r. ring.
    + cbn [nth]. rewrite R3 by lia. reflexivity.
Qed.

(** all pairs of terms *)
Definition pair_number (p : slater * slater) : nat := snd (fst (fst p)) + snd (fst (snd p)).
Definition pair_zeta (kappa : R) (p : slater * slater) : R := zeta_ang bohr kappa (fst p) + zeta_ang bohr kappa (snd p).
Lemma pair_ok : forall kappa (orb : list slater) p, List.Forall proper orb -> 0 < kappa -> In p (list_prod orb orb) -> (2 <= pair_number p)%nat /\ 0 < pair_zeta kappa p.
Proof.
  intros kappa orb p F K I. destruct (in_prod_proper orb p F I) as [P1 P2]. split.
  - unfold pair_number. destruct p as [[[c n] z] [[c' n'] z']]. destruct P1 as [N1 _], P2 as [N2 _]. cbn [fst snd]. lia.
  - apply Rplus_lt_0_compat; apply zeta_pos; assumption.
Qed.
Lemma jl_mid : forall (orb : list slater) kappa s l_max l, List.Forall proper orb -> 0 < kappa -> (l <= l_max)%nat -> (forall p, In p (list_prod orb orb) -> (l < pair_number p)%nat) ->
  exists r, calc_jl s orb kappa l_max = Some r /\ nth l r 0 = sum (map (fun p => pair_coeff kappa p * V (pair_zeta kappa p) (4 * PI * s) l (pair_number p - l - 1)) (list_prod orb orb)).
Proof.
  intros orb kappa s l_max l F K L H. unfold calc_jl, calc_jl_per_2sthovll.
  destruct (add_up_ok (slater * slater) (list_prod orb orb) (pair_coeff kappa) (pair_transs l_max kappa s) (fun p i => (4 * PI) ^ i * U (pair_zeta kappa p) (4 * PI * s) i (pair_number p - i - 1)) (l_max + 1) (fun i => i = l)) as (r & R1 & R2 & R3).
  - intros p I. destruct (pair_ok kappa orb p F K I) as [N Z]. unfold pair_transs. fold bohr. destruct (transs_mid l_max (pair_number p) (pair_zeta kappa p) s N Z) as (q & Q1 & Q2 & Q3).
    exists q. split; [exact Q1|]. split; [exact Q2|]. intros i ->. apply Q3; [exact L|apply H, I].
  - rewrite R1. eexists. split; [reflexivity|]. specialize (R3 l). rewrite (nth_indep _ 0 (fst (0, 0%nat) * (2 * s) ^ snd (0, 0%nat))) by (rewrite map_length, combine_length, seq_length, R2, Nat.min_id; lia).
    rewrite (map_nth (fun p => fst p * (2 * s) ^ snd p)), combine_nth by (rewrite seq_length; exact R2). cbn [fst snd]. rewrite R3 by (try reflexivity; lia). rewrite seq_nth by lia. cbn [Nat.add].
    rewrite Rmult_comm, sum_mult, map_map. f_equal. apply map_ext. intros p. unfold V. replace (2 * (4 * PI * s)) with (4 * PI * (2 * s)) by ring. rewrite (Rpow_mult_distr (4 * PI)). ring.
Qed.

(** from the antiderivatives to the integral *)
Lemma wgood_integral : forall g v, wgood g v -> integral g v.
Proof.
  intros g v (h & G & E). destruct (good_integral h v G) as [X L].
  assert (EE : forall b x, Rmin 0 b < x < Rmax 0 b -> h x = g x).
  { intros b x Hx. apply E. intros ->. unfold Rmin, Rmax in Hx. destruct (Rle_dec 0 b); lra. }
  split.
  - intros b. apply (ex_RInt_ext h); [intros x Hx; apply (EE b); exact Hx|apply X].
  - apply (is_lim_ext (fun b => RInt h 0 b)); [|exact L]. intros b. apply RInt_ext. intros x Hx. apply (EE b). exact Hx.
Qed.
Lemma wgood_scal : forall c g v, wgood g v -> wgood (fun r => c * g r) (c * v).
Proof. intros c g v (h & G & E). exists (fun r => c * h r). split; [apply good_scal, G|]. intros r Hr. rewrite E by exact Hr. reflexivity. Qed.
Lemma wgood_sum : forall (A : Type) (L : list A) (g : A -> R -> R) (v : A -> R), (forall p, In p L -> wgood (g p) (v p)) -> wgood (fun r => sum (map (fun p => g p r) L)) (sum (map v L)).
Proof.
  induction L as [|p L IH]; intros g v H; [exists (fun _ => 0); split; [apply good_zero|reflexivity]|]. destruct (H p) as (h & G & E); [left; reflexivity|]. destruct (IH g v) as (h' & G' & E'); [intros q I; apply H; right; exact I|].
  exists (fun r => h r + h' r). split; [cbn [map sum fold_right]; apply good_plus; assumption|]. intros r Hr. rewrite E, E' by exact Hr. reflexivity.
Qed.
Lemma wgood_ext : forall g h v, (forall r, r <> 0 -> g r = h r) -> wgood g v -> wgood h v.
Proof. intros g h v E (f & G & F). exists f. split; [exact G|]. intros r Hr. rewrite F, E by exact Hr. reflexivity. Qed.
Lemma V_zero : forall z l m, (1 <= l)%nat -> V z 0 l m = 0.
Proof. intros z l m L. unfold V. rewrite Rmult_0_r, pow_i by lia. ring. Qed.
Lemma orders : forall (orb : list slater) kappa s l_max l, List.Forall proper orb -> 0 < kappa -> (l <= l_max)%nat ->
  (forall c n z c' n' z', In (c, n, z) orb -> In (c', n', z') orb -> (l < n + n')%nat) ->
  exists r, calc_jl s orb kappa l_max = Some r /\
    integral (fun r => r ^ 2 * Rsqr (radial (stretched (kappa / (529177 / 1000000)) orb) r) * spherical_bessel l (4 * PI * s * r)) (nth l r 0).
Proof.
  intros orb kappa s l_max l F K L H0. 
  assert (H : forall p, In p (list_prod orb orb) -> (l < pair_number p)%nat).
  { intros [[[c n] z] [[c' n'] z']] I. apply in_prod_iff in I. unfold pair_number. cbn [fst snd]. apply (H0 c n z c' n' z'); apply I. }
  destruct (jl_mid orb kappa s l_max l F K L H) as (r & R1 & R2). exists r. split; [exact R1|]. rewrite R2.
  assert (NZ : 4 * PI <> 0) by (pose proof PI_RGT_0; lra).
  destruct (Req_EM_T s 0) as [S0|S0].
  - subst s. destruct l as [|l].
    + destruct (j0_integral orb kappa 0 l_max F K) as (j0 & rest & J1 & _ & J2). rewrite R1 in J1. injection J1 as ->. cbn [nth] in R2. rewrite <- R2.
      apply wgood_integral. pose proof (weight_good orb kappa 0 F K) as W. destruct (jl_head orb kappa 0 l_max F K) as (rest' & E' & _). rewrite R1 in E'. injection E' as E1 _. rewrite <- E1 in W. eexists. split; [exact W|].
      intros r Hr. unfold weight. rewrite Rmult_0_r, Rmult_0_l. unfold sinc, spherical_bessel. destruct (Req_EM_T 0 0); [reflexivity|contradiction].
    + apply wgood_integral. apply (wgood_ext (fun _ => sum (map (fun p => (fun _ => 0) 0) (list_prod orb orb)))).
      * intros r0 Hr. rewrite Rmult_0_r, Rmult_0_l. unfold spherical_bessel. destruct (Req_EM_T 0 0); [|contradiction]. rewrite Rmult_0_r. clear. induction (list_prod orb orb) as [|p M IH]; [reflexivity|]. cbn [map]. rewrite sum_cons, IH. ring.
      * apply (wgood_sum _ (list_prod orb orb) (fun _ _ => 0)). intros p I. rewrite Rmult_0_r, V_zero by lia. rewrite Rmult_0_r. exists (fun _ => 0). split; [apply good_zero|reflexivity].
  - assert (HQ : 4 * PI * s <> 0) by (apply Rmult_integral_contrapositive_currified; assumption).
    apply wgood_integral. apply (wgood_ext (fun r => sum (map (fun p => (fun r => pair_coeff kappa p * (r ^ (l + 1 + (pair_number p - l - 1)) * exp (- pair_zeta kappa p * r) * sph l (4 * PI * s * r))) r) (list_prod orb orb)))).
    + intros r0 Hr. unfold spherical_bessel. destruct (Req_EM_T (4 * PI * s * r0) 0) as [E|_]; [exfalso; apply Rmult_integral in E; destruct E; contradiction|].
      rewrite radial_sum by lra. unfold Rsqr. rewrite sum_prod. match goal with |- _ = ?a * sum ?m * ?x => replace (a * sum m * x) with (a * x * sum m) by ring end. rewrite sum_mult, map_map. f_equal. apply map_ext_in.
      intros p I. specialize (H p I). destruct (in_prod_proper orb p F I) as [P1 P2]. unfold pair_zeta, pair_number in *. destruct p as [[[c1 n1] z1] [[c2 n2] z2]]. destruct P1 as [N1 _], P2 as [N2 _]. cbn [fst snd] in *. unfold term, pair_coeff. cbn [fst snd]. fold bohr.
      replace (l + 1 + (n1 + n2 - l - 1))%nat with (n1 + n2)%nat by lia. destruct n1 as [|a]; [lia|]. destruct n2 as [|b]; [lia|]. replace (S a - 1)%nat with a by lia. replace (S b - 1)%nat with b by lia.
      rewrite pow_add, Ropp_plus_distr, Rmult_plus_distr_r, exp_plus. cbn [pow].
      generalize (coeff_norm bohr kappa (c1, S a, z1)) (coeff_norm bohr kappa (c2, S b, z2)) (exp (- zeta_ang bohr kappa (c1, S a, z1) * r0)) (exp (- zeta_ang bohr kappa (c2, S b, z2) * r0)) (sph l (4 * PI * s * r0)).
      intros. rewrite ?Rmult_assoc. ring.
    + apply wgood_sum. intros p I. apply wgood_scal. destruct (pair_ok kappa orb p F K I) as [_ Z]. apply (wgood_bessel _ _ Z HQ l).
Qed.
Lemma orders_met : List.Forall proper [(1 / 4, 3%nat, 41 / 10); (3 / 10, 3%nat, 6)] /\ 0 < 1 /\ (2 <= 3)%nat /\
  (forall c n z c' n' z', In (c, n, z) [(1 / 4, 3%nat, 41 / 10); (3 / 10, 3%nat, 6)] -> In (c', n', z') [(1 / 4, 3%nat, 41 / 10); (3 / 10, 3%nat, 6)] -> (2 < n + n')%nat).
Proof.
  split; [apply proper_met|]. split; [lra|]. split; [lia|]. intros c n z c' n' z' I J. destruct I as [I|[I|[]]]; destruct J as [J|[J|[]]]; injection I; injection J; intros; subst; lia.
Qed.
