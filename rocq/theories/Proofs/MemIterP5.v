(** The step of the density reconstruction goes down the gradient (C105). *)
From Coq Require Import Reals Lra Lia String Bool List ZArith.
From Coquelicot Require Import Coquelicot.
From Verif Require Import Spec.Lin3 Spec.Scatter Spec.Density Model.Mem Model.FlipRatio Model.MemFourier Model.MemIter Spec.Intens Spec.MemSpec Spec.DescentSpec Proofs.FlipRatioP Proofs.MemP Proofs.MemIterP Proofs.MemIterP2 Proofs.MemIterP3.
Import ListNotations.
Open Scope list_scope.
Open Scope R_scope.

Lemma moved_follows : forall delta c d D k, 0 <= delta -> 0 < c -> 0 <= d -> 0 < k -> follows k d (k * moved delta c d D) D.
Proof.
  intros delta c d D k Hd Hc H0 Hk. unfold moved, follows. split.
  - intros Hp. split; intros HD.
    + apply Rmult_lt_compat_l; [exact Hk|]. assert (X : exp (- c * D) < 1) by (rewrite <- exp_0; apply exp_increasing; nra). unfold clip. destruct (Rlt_dec 0 _); nra.
    + apply Rmult_lt_compat_l; [exact Hk|]. assert (X : 1 < exp (- c * D)) by (rewrite <- exp_0; apply exp_increasing; nra). unfold clip. destruct (Rlt_dec 0 _); nra.
  - intros ->. f_equal. rewrite Rmult_0_r, exp_0, Rmult_1_r. replace (d + delta - delta) with d by ring. unfold clip. destruct (Rlt_dec 0 d); lra.
Qed.
Lemma nth_moved : forall (A : Type) (f : R * R * A -> R) row der (m : list A) (z : A) j, length row = length m -> length der = length m -> (j < length m)%nat ->
  nth j (map f (combine (combine row der) m)) 0 = f (nth j row 0, nth j der 0, nth j m z).
Proof.
  intros A f row der m z j L1 L2 J. rewrite (nth_indep _ 0 (f ((0, 0), z))) by (rewrite map_length, !combine_length; lia). rewrite map_nth, combine_nth by (rewrite combine_length; lia). rewrite combine_nth by lia. reflexivity.
Qed.
Lemma nth_in_nonneg : forall l j, (forall x, In x l -> 0 <= x) -> 0 <= nth j l 0.
Proof. intros l j H. destruct (Nat.lt_ge_cases j (length l)) as [L|L]; [apply H, nth_In, L|rewrite nth_overflow by exact L; lra]. Qed.
Lemma col_sum_nonneg : forall p hh, (forall m, In m (pa_mult p) -> 0 < m) -> (forall x, In x hh -> 0 <= x) -> 0 <= col_sum p hh.
Proof.
  intros p hh M P. unfold col_sum. apply asum_nonneg. apply List.Forall_forall. intros y Hy. apply in_map_iff in Hy as ([a b] & <- & I). cbn [fst snd].
  apply Rmult_le_pos; [exact (P a (in_combine_l _ _ _ _ I))|apply Rlt_le, M; exact (in_combine_r _ _ _ _ I)].
Qed.
Lemma col_follows : forall p lam row der out, sensible p -> length row = length (pa_mult p) -> length der = length (pa_mult p) -> (forall x, In x row -> 0 <= x) -> 0 <= pa_delta p -> 0 < pa_desired p -> 0 < lam ->
  next_col p lam row der = Some out -> exists k, 0 < k /\ forall j, (j < length row)%nat -> follows k (nth j row 0) (nth j out 0) (nth j der 0).
Proof.
  intros p lam row der out (V & N & M & _) L1 L2 P D0 Q0 L0 H. unfold next_col in H. set (hh := moved_col p lam row der) in *.
  assert (PH : forall x, In x hh -> 0 <= x) by (intros x Hx; unfold hh, moved_col in Hx; apply in_map_iff in Hx as (y & <- & _); apply clip_nonneg).
  destruct (Req_EM_T (col_sum p hh) 0) as [E|E]; [discriminate H|]. injection H as <-. pose proof (col_sum_nonneg p hh M PH) as S. assert (S1 : 0 < col_sum p hh) by lra.
  exists (pa_number p / pa_volume p / col_sum p hh). split; [apply Rdiv_lt_0_compat; [apply Rdiv_lt_0_compat; assumption|exact S1]|]. intros j J.
  assert (RR : renorm_col_row hh (pa_mult p) (pa_volume p) (pa_number p) = map (fun d => pa_number p / pa_volume p * d / col_sum p hh) hh) by reflexivity. rewrite RR.
  rewrite (nth_indep (map (fun d => pa_number p / pa_volume p * d / col_sum p hh) hh) 0 (pa_number p / pa_volume p * 0 / col_sum p hh)) by (rewrite map_length; unfold hh, moved_col; rewrite map_length, !combine_length; lia).
  rewrite (map_nth (fun d => pa_number p / pa_volume p * d / col_sum p hh)). 
  assert (HJ : nth j hh 0 = moved (pa_delta p) (lam * pa_number p / (pa_desired p * pa_volume p) / nth j (pa_mult p) 1) (nth j row 0) (nth j der 0)).
  { unfold hh, moved_col. rewrite (nth_moved R _ row der (pa_mult p) 1) by lia. reflexivity. }
  rewrite HJ. clear HJ.
  match goal with |- follows ?k _ (?a * ?m / ?s) _ => replace (a * m / s) with (k * m) by (field; split; lra) end.
  apply moved_follows; [exact D0| |apply nth_in_nonneg, P|apply Rdiv_lt_0_compat; [apply Rdiv_lt_0_compat; assumption|exact S1]].
  apply Rdiv_lt_0_compat; [apply Rdiv_lt_0_compat; [apply Rmult_lt_0_compat; assumption|apply Rmult_lt_0_compat; assumption]|]. apply M. apply nth_In. lia.
Qed.
Lemma chi_follows : forall p lam row der out, sensible p -> length row = length (pa_points p) -> length der = length (pa_points p) -> (forall x, In x row -> 0 <= x) -> 0 <= pa_delta p -> 0 < pa_desired p -> 0 < lam ->
  next_chi p lam row der = Some out -> exists k : string -> R, forall j q, nth_error (pa_points p) j = Some q -> 0 < k (mp_label q) /\ follows (k (mp_label q)) (nth j row 0) (nth j out 0) (nth j der 0).
Proof.
  intros p lam row der out (V & N & _ & M) L1 L2 P D0 Q0 L0 H. unfold next_chi in H. cbv zeta in H. set (hh := moved_chi p lam row der) in *.
  assert (LH : length hh = length (pa_points p)) by (unfold hh, moved_chi; rewrite map_length, !combine_length; lia).
  assert (PH : forall x, In x hh -> 0 <= x) by (intros x Hx; unfold hh, moved_chi in Hx; apply in_map_iff in Hx as (y & <- & _); apply clip_nonneg).
  set (l := set_density hh (pa_points p)) in *. assert (LL : length l = length (pa_points p)) by (unfold l, set_density; rewrite map_length, combine_length; lia).
  destruct (existsb _ l) eqn:E; [discriminate H|]. injection H as <-.
  exists (fun a => pa_number p / pa_volume p / chi_sum l a). intros j q J. assert (JL : (j < length (pa_points p))%nat) by (apply nth_error_Some; rewrite J; discriminate).
  assert (Eq : nth j l q = mkMP (nth j hh 0) (mp_mult q) (mp_label q) (mp_amult q)).
  { assert (GEN : forall (g : R * mpoint -> mpoint) (z : mpoint), nth j (map g (combine hh (pa_points p))) z = g (nth j hh 0, nth j (pa_points p) q)).
    { intros g z. rewrite (nth_indep _ z (g (0, q))) by (rewrite map_length, combine_length; lia). rewrite map_nth, combine_nth by exact LH. reflexivity. }
    unfold l, set_density. rewrite GEN. rewrite (nth_error_nth _ _ q J). reflexivity. }
  assert (I : In (nth j l q) l) by (apply nth_In; lia).
  assert (PP : forall x, In x l -> 0 <= mp_density x /\ 0 <= mp_mult x /\ 0 < mp_amult x).
  { intros x Hx. unfold l, set_density in Hx. apply in_map_iff in Hx as ([y q'] & <- & Hy). cbn. destruct (M q' (in_combine_r _ _ _ _ Hy)). split; [exact (PH y (in_combine_l _ _ _ _ Hy))|]. lra. }
  assert (S0 : 0 <= chi_sum l (mp_label q)).
  { unfold chi_sum. apply asum_nonneg. apply List.Forall_forall. intros y Hy. apply in_map_iff in Hy as [q' [<- Hq]]. apply filter_In in Hq as [Hq _]. destruct (PP q' Hq) as [h1 [h2 h3]]. unfold prod_den_mult, Rdiv.
    apply Rmult_le_pos; [apply Rmult_le_pos; assumption|]. apply Rlt_le, Rinv_0_lt_compat; assumption. }
  assert (S1 : 0 < chi_sum l (mp_label q)).
  { assert (chi_sum l (mp_label q) <> 0); [|lra]. intros Z. apply Bool.not_true_iff_false in E. apply E. apply existsb_exists. exists (nth j l q). split; [exact I|]. rewrite Eq. cbn [mp_label]. destruct (Req_EM_T _ 0); [reflexivity|contradiction]. }
  assert (K : 0 < pa_number p / pa_volume p / chi_sum l (mp_label q)) by (apply Rdiv_lt_0_compat; [apply Rdiv_lt_0_compat; assumption|exact S1]). split; [exact K|].
  assert (GEN : forall (g : mpoint -> R) (z : R), nth j (map g l) z = g (nth j l q)).
  { intros g z. rewrite (nth_indep _ z (g q)) by (rewrite map_length; lia). apply map_nth. }
  rewrite chi_eq. rewrite GEN. clear GEN.
  rewrite Eq. cbn [mp_density mp_label]. unfold m_at. fold (chi_sum l (mp_label q)). rewrite Rmult_comm. 
  assert (HJ : nth j hh 0 = moved (pa_delta p) (lam * pa_number p / (pa_desired p * pa_volume p) * mp_amult q / mp_mult q) (nth j row 0) (nth j der 0)).
  { unfold hh, moved_chi. rewrite (nth_moved mpoint _ row der (pa_points p) q) by lia. rewrite (nth_error_nth _ _ q J). reflexivity. }
  rewrite HJ. clear HJ.
  destruct (M q (nth_error_In _ _ J)) as [M1 M2]. apply moved_follows; [exact D0| |apply nth_in_nonneg, P|exact K].
  apply Rdiv_lt_0_compat; [apply Rmult_lt_0_compat; [|exact M2]|exact M1]. apply Rdiv_lt_0_compat; apply Rmult_lt_0_compat; assumption.
Qed.
Lemma dcol_length1 : forall p d, length (fst (ev_dcol (evaluate p d))) = length (fst (fst d)).
Proof. intros p [[a b] c]. unfold evaluate. generalize (der_c_den p ((a, b), c)). intros f. cbn [ev_dcol fst snd]. rewrite !map_length, seq_length. reflexivity. Qed.
Lemma dcol_length2 : forall p d, length (snd (ev_dcol (evaluate p d))) = length (fst (fst d)).
Proof. intros p [[a b] c]. unfold evaluate. generalize (der_c_den p ((a, b), c)). intros f. cbn [ev_dcol fst snd]. rewrite !map_length, seq_length. reflexivity. Qed.
Lemma dchi_length : forall p d, length (ev_dchi (evaluate p d)) = length (snd d).
Proof. intros p [[a b] c]. unfold evaluate. generalize (der_c_den p ((a, b), c)). intros f. cbn [ev_dchi fst snd]. rewrite !map_length, seq_length. reflexivity. Qed.
Lemma descent_col : forall p d d' lam, sensible p -> proper p d -> regular p d -> 0 <= pa_delta p -> 0 < pa_desired p -> 0 < lam -> pa_on_col p = true -> mem_next p lam (evaluate p d) = Some d' ->
  (exists k, 0 < k /\ forall j D, (j < length (fst (fst d)))%nat -> is_derive (fun t => ev_c (evaluate p (with_plus d j t))) (nth j (fst (fst d)) 0) D -> follows k (nth j (fst (fst d)) 0) (nth j (fst (fst d')) 0) D) /\
  (exists k, 0 < k /\ forall j D, (j < length (snd (fst d)))%nat -> is_derive (fun t => ev_c (evaluate p (with_minus d j t))) (nth j (snd (fst d)) 0) D -> follows k (nth j (snd (fst d)) 0) (nth j (snd (fst d')) 0) D).
Proof.
  intros p d d' lam S PR RG D0 Q0 L0 OC H. pose proof (proj1 PR OC) as [[La [Pa _]] [Lb [Pb _]]]. 
  pose proof (fun j J => gradient_plus p d j RG J (eq_trans La (eq_sym Lb))) as GP. pose proof (fun j J => gradient_minus p d j RG J (eq_trans La (eq_sym Lb))) as GM.
  unfold mem_next in H. rewrite OC in H. change (ev_d (evaluate p d)) with d in H.
  destruct (next_col p lam (fst (fst d)) (fst (ev_dcol (evaluate p d)))) as [a'|] eqn:Ea; [|discriminate H]. destruct (next_col p lam (snd (fst d)) (snd (ev_dcol (evaluate p d)))) as [b'|] eqn:Eb; [|discriminate H].
  assert (X : fst (fst d') = a' /\ snd (fst d') = b'). { destruct (if pa_on_chi p then _ else _); [|discriminate H]. injection H as <-. split; reflexivity. }
  destruct X as [-> ->].
  assert (Ga : length (fst (ev_dcol (evaluate p d))) = length (pa_mult p)) by (etransitivity; [apply dcol_length1|exact La]).
  assert (Gb : length (snd (ev_dcol (evaluate p d))) = length (pa_mult p)) by (etransitivity; [apply dcol_length2|exact La]).
  destruct (col_follows p lam _ _ a' S La Ga Pa D0 Q0 L0 Ea) as (k & K & F). destruct (col_follows p lam _ _ b' S Lb Gb Pb D0 Q0 L0 Eb) as (k' & K' & F').
  split; [exists k|exists k']; (split; [assumption|]); intros j D J I.
  - rewrite (eq_trans (eq_sym (is_derive_unique _ _ _ I)) (is_derive_unique _ _ _ (GP j J))). apply F, J.
  - rewrite (eq_trans (eq_sym (is_derive_unique _ _ _ I)) (is_derive_unique _ _ _ (GM j J))). apply F', J.
Qed.
Lemma descent_chi : forall p d d' lam, sensible p -> proper p d -> regular p d -> 0 <= pa_delta p -> 0 < pa_desired p -> 0 < lam -> pa_on_chi p = true -> mem_next p lam (evaluate p d) = Some d' ->
  exists k : string -> R, forall j q D, nth_error (pa_points p) j = Some q -> is_derive (fun t => ev_c (evaluate p (with_chi d j t))) (nth j (snd d) 0) D ->
    0 < k (mp_label q) /\ follows (k (mp_label q)) (nth j (snd d) 0) (nth j (snd d') 0) D.
Proof.
  intros p d d' lam S PR RG D0 Q0 L0 OX H. pose proof (proj2 PR OX) as [Lc [Pc _]]. unfold mem_next in H. rewrite OX in H. change (ev_d (evaluate p d)) with d in H.
  destruct (if pa_on_col p then _ else _) as [ab|]; [|discriminate H]. destruct (next_chi p lam (snd d) (ev_dchi (evaluate p d))) as [c'|] eqn:Ec; [|discriminate H]. injection H as <-. cbn [snd].
  assert (Gc : length (ev_dchi (evaluate p d)) = length (pa_points p)) by (etransitivity; [apply dchi_length|exact Lc]).
  destruct (chi_follows p lam _ _ c' S Lc Gc Pc D0 Q0 L0 Ec) as (k & F).
  exists k. intros j q D J I. assert (JL : (j < length (snd d))%nat) by (rewrite Lc; apply nth_error_Some; rewrite J; discriminate).
  rewrite (eq_trans (eq_sym (is_derive_unique _ _ _ I)) (is_derive_unique _ _ _ (gradient_chi p d j RG JL))). apply F, J.
Qed.
