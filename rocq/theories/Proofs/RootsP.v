(** Proofs about root finding. *)
From Coq Require Import Reals Ranalysis5 List ZArith Lra Lia Psatz.
From Verif Require Import Spec.RootSpec Model.Roots.
Import ListNotations.
Open Scope R_scope.

Definition next (b dx x : R) : R := if Rlt_dec b (x + dx) then b else x + dx.
(* the loop with the values it carries replaced by what they always are *)
Fixpoint rs (f : R -> R) (b dx : R) (fuel : nat) (x : R) : option (option (R * R)) :=
  match fuel with
  | O => None
  | S fuel => if Rlt_dec 0 (f x * f (next b dx x)) then (if Rle_dec b x then Some None else rs f b dx fuel (next b dx x)) else Some (Some (x, next b dx x))
  end.
Lemma loop_rs : forall f b dx fuel x, rootsearch_loop f b dx fuel x (f x) (next b dx x) (f (next b dx x)) = rs f b dx fuel x.
Proof.
  intros f b dx. induction fuel as [|n IH]; intros x; simpl; [reflexivity|]. destruct (Rlt_dec 0 _); [|reflexivity]. destruct (Rle_dec b x); [reflexivity|].
  rewrite <- IH. set (y := next b dx x). unfold next. destruct (Rlt_dec b (y + dx)); reflexivity.
Qed.
Lemma rootsearch_rs : forall f a b dx fuel, rootsearch f a b dx fuel = rs f b dx fuel a.
Proof. intros. unfold rootsearch. cbv zeta. rewrite <- loop_rs. unfold next. destruct (Rlt_dec b (a + dx)); reflexivity. Qed.
Lemma next_range : forall b dx x, 0 < dx -> x <= b -> x <= next b dx x <= b.
Proof. intros. unfold next. destruct (Rlt_dec b (x + dx)); lra. Qed.
Lemma next_lt : forall b dx x, 0 < dx -> x < b -> x < next b dx x.
Proof. intros. unfold next. destruct (Rlt_dec b (x + dx)); lra. Qed.
(* cells *)
Fixpoint node (a b dx : R) (k : nat) : R := match k with O => a | S k => next b dx (node a b dx k) end.
Lemma node_form : forall a b dx k, 0 < dx -> a <= b -> node a b dx k = Rmin (a + INR k * dx) b.
Proof.
  intros a b dx k D A. induction k as [|k IH]; [simpl; rewrite Rmin_left by lra; ring|]. simpl node. rewrite IH, S_INR. pose proof (pos_INR k).
  unfold next, Rmin. destruct (Rle_dec (a + INR k * dx) b), (Rle_dec (a + (INR k + 1) * dx) b); destruct (Rlt_dec b _); nra.
Qed.
Lemma node_range : forall a b dx k, 0 < dx -> a <= b -> a <= node a b dx k <= b.
Proof. intros a b dx k D A. induction k as [|k IH]; simpl; [lra|]. pose proof (next_range b dx _ D (proj2 IH)). lra. Qed.
Lemma node_end : forall a b dx, 0 < dx -> a <= b -> exists N, forall k, (N <= k)%nat -> node a b dx k = b.
Proof.
  intros a b dx D A. destruct (archimed ((b - a) / dx)) as [U _]. exists (Z.to_nat (up ((b - a) / dx))). intros k K.
  rewrite node_form by assumption. apply Rmin_right. assert (IZR (up ((b - a) / dx)) <= INR k).
  { rewrite INR_IZR_INZ. apply IZR_le. lia. }
  assert (b - a <= INR k * dx); [|lra]. replace (b - a) with ((b - a) / dx * dx) by (field; lra). apply Rmult_le_compat_r; lra.
Qed.
Lemma node_shift : forall a b dx j k, node (node a b dx j) b dx k = node a b dx (j + k).
Proof. intros a b dx j. induction k as [|k IH]; simpl; [rewrite Nat.add_0_r; reflexivity|]. rewrite IH, <- plus_n_Sm. reflexivity. Qed.
(* what the search returns *)
Lemma rs_some : forall f b dx fuel x p, rs f b dx fuel x = Some (Some p) ->
  exists k, fst p = node x b dx k /\ snd p = node x b dx (S k) /\ f (fst p) * f (snd p) <= 0 /\ forall j, (j < k)%nat -> 0 < f (node x b dx j) * f (node x b dx (S j)).
Proof.
  intros f b dx. induction fuel as [|n IH]; intros x p; simpl; [discriminate|]. destruct (Rlt_dec 0 _) as [L|L].
  - destruct (Rle_dec b x); [discriminate|]. intros E. apply IH in E. destruct E as (k & A & B & C & D). exists (S k).
    change (next b dx x) with (node x b dx 1) in *. rewrite node_shift in A, B. split; [exact A|split; [exact B|split; [exact C|]]].
    intros [|j] J; [exact L|]. specialize (D j ltac:(lia)). rewrite !node_shift in D. exact D.
  - intros E. injection E as <-. exists O. simpl. repeat split; [lra|]. intros j J. lia.
Qed.
Lemma rs_none : forall f b dx fuel x, 0 < dx -> x <= b -> rs f b dx fuel x = Some None -> forall j, 0 < f (node x b dx j) * f (node x b dx (S j)).
Proof.
  intros f b dx. induction fuel as [|n IH]; intros x D X; simpl; [discriminate|]. destruct (Rlt_dec 0 _) as [L|L]; [|discriminate].
  destruct (Rle_dec b x).
  - intros _ j. assert (x = b) by lra. subst x. assert (NB : forall i, node b b dx i = b). { intros i. pose proof (node_range b b dx i D (Rle_refl b)). lra. }
    change (next b dx b) with (node b b dx 1) in L. rewrite NB in L.
    assert (Q : f (node b b dx j) * f (node b b dx (S j)) = f b * f b) by (rewrite (NB (S j)), (NB j); reflexivity). rewrite <- Q in L. exact L.
  - intros E [|j]; [exact L|]. specialize (IH (next b dx x) D (proj2 (next_range b dx x D X)) E j). change (next b dx x) with (node x b dx 1) in IH. rewrite !node_shift in IH. exact IH.
Qed.
Lemma rs_fuel : forall f b dx N x, node x b dx N = b -> forall fuel, (N + 1 < fuel)%nat -> rs f b dx fuel x <> None.
Proof.
  intros f b dx. induction N as [|N IH]; intros x E fuel L; (destruct fuel as [|fuel]; [lia|]); simpl; (destruct (Rlt_dec 0 _); [|discriminate]).
  - simpl in E. destruct (Rle_dec b x); [discriminate|]. lra.
  - destruct (Rle_dec b x); [discriminate|]. apply IH; [|lia]. change (next b dx x) with (node x b dx 1). rewrite node_shift. exact E.
Qed.
(* ---- bisection ---- *)
Lemma ceil_ge : forall x, x <= IZR (ceil x).
Proof. intros x. unfold ceil. rewrite minus_IZR. destruct (archimed (- x)). lra. Qed.
Lemma pow_ceil : forall w, 0 < w -> w <= 2 ^ Z.to_nat (ceil (ln w / ln 2)).
Proof.
  intros w W. assert (L2 : 0 < ln 2) by (rewrite <- ln_1; apply ln_increasing; lra).
  rewrite <- Rpower_pow by lra. rewrite <- (exp_ln w) at 1 by exact W. unfold Rpower.
  assert (ln w <= INR (Z.to_nat (ceil (ln w / ln 2))) * ln 2) as [L|L]; [|left; apply exp_increasing; exact L|right; rewrite <- L; reflexivity].
  assert (Q : ln w = ln w / ln 2 * ln 2) by (field; lra). set (q := ln w / ln 2) in *. rewrite Q. apply Rmult_le_compat_r; [lra|].
  eapply Rle_trans; [apply ceil_ge|]. rewrite INR_IZR_INZ. apply IZR_le. lia.
Qed.
Lemma ivt : forall f a b, a <= b -> cont f a b -> f a * f b <= 0 -> exists z, a <= z <= b /\ f z = 0.
Proof.
  intros f a b L C S. destruct (Req_dec a b) as [->|N]; [exists b; split; [lra|nra]|].
  destruct (Req_dec (f a) 0); [exists a; split; [lra|assumption]|]. destruct (Req_dec (f b) 0); [exists b; split; [lra|assumption]|].
  destruct (Rlt_dec (f a) 0) as [A|A].
  - destruct (IVT_interv f a b C) as [z [Z1 Z2]]; [lra|lra|nra|]. exists z. auto.
  - destruct (IVT_interv (fun x => - f x) a b) as [z [Z1 Z2]]; [intros x X; apply (continuity_pt_opp f), C, X|lra|lra|nra|]. exists z. split; [exact Z1|lra].
Qed.
Lemma bisect_loop_sound : forall f sw n x1 x2 r, x1 <= x2 -> cont f x1 x2 -> f x1 * f x2 < 0 -> bisect_loop f sw n x1 (f x1) x2 (f x2) = Some r ->
  exists z, x1 <= z <= x2 /\ f z = 0 /\ x1 <= r <= x2 /\ Rabs (r - z) <= (x2 - x1) / 2 ^ n / 2.
Proof.
  intros f sw. induction n as [|n IH]; intros x1 x2 r L C S; simpl.
  - intros E. injection E as <-. destruct (ivt f x1 x2 L C (Rlt_le _ _ S)) as [z [Z1 Z2]]. exists z. split; [exact Z1|split; [exact Z2|split; [lra|]]].
    apply Rabs_le. lra.
  - set (x3 := 5/10 * (x1 + x2)). assert (X3 : x1 <= x3 <= x2) by (unfold x3; lra).
    destruct (if sw then _ else _); [discriminate|]. destruct (Req_EM_T (f x3) 0) as [Z|Z].
    + intros E. injection E as <-. exists x3. split; [exact X3|split; [exact Z|split; [exact X3|]]]. rewrite Rminus_diag_eq, Rabs_R0 by reflexivity.
      apply Rmult_le_pos; [|lra]. apply Rmult_le_pos; [lra|]. left. apply Rinv_0_lt_compat. pose proof (pow_lt 2 n ltac:(lra)). nra.
    + assert (P : 0 < 2 ^ n) by (apply pow_lt; lra).
      destruct (Rlt_dec (f x2 * f x3) 0) as [B|B]; intros E; apply IH in E.
      * destruct E as (z & A1 & A2 & A3 & A4). exists z. split; [lra|split; [exact A2|split; [lra|]]].
        replace ((x2 - x1) / (2 * 2 ^ n) / 2) with ((x2 - x3) / 2 ^ n / 2) by (unfold x3; field; lra). exact A4.
      * lra.
      * intros x X. apply C. lra.
      * nra.
      * destruct E as (z & A1 & A2 & A3 & A4). exists z. split; [lra|split; [exact A2|split; [lra|]]].
        replace ((x2 - x1) / (2 * 2 ^ n) / 2) with ((x3 - x1) / 2 ^ n / 2) by (unfold x3; field; lra). exact A4.
      * lra.
      * intros x X. apply C. lra.
      * apply Rnot_lt_le in B. assert (N2 : f x2 <> 0) by (intros N; rewrite N in S; lra).
        destruct (Rlt_dec (f x2) 0) as [G|G].
        -- assert (f x3 < 0). { destruct (Rlt_dec (f x3) 0); [assumption|]. exfalso. assert (0 < f x3) by lra. nra. } nra.
        -- assert (0 < f x2) by lra. assert (0 < f x3). { destruct (Rlt_dec 0 (f x3)); [assumption|]. exfalso. assert (f x3 < 0) by lra. nra. } nra.
Qed.
Theorem bisect_sound : forall f x1 x2 sw eps r, 0 < eps -> x1 <= x2 -> cont f x1 x2 -> bisect f x1 x2 sw eps = Some r ->
  exists z, x1 <= z <= x2 /\ f z = 0 /\ x1 <= r <= x2 /\ Rabs (r - z) <= eps / 2.
Proof.
  intros f x1 x2 sw eps r HE L C. unfold bisect. cbv zeta.
  assert (Z0 : forall x, Rabs (x - x) <= eps / 2) by (intros; rewrite Rminus_diag_eq, Rabs_R0 by reflexivity; lra).
  destruct (Req_EM_T (f x1) 0) as [A|A]; [intros E; injection E as <-; exists x1; repeat split; auto; lra|].
  destruct (Req_EM_T (f x2) 0) as [B|B]; [intros E; injection E as <-; exists x2; repeat split; auto; lra|].
  destruct (Rlt_dec 0 (f x1 * f x2)) as [P|P]; [discriminate|]. intros E.
  assert (x1 < x2). { destruct L as [L|L]; [exact L|]. exfalso. subst x2. apply P. apply (Rsqr_pos_lt (f x1)). exact A. }
  assert (S : f x1 * f x2 < 0) by (apply Rnot_lt_le in P; destruct P as [P|P]; [exact P|]; destruct (Rmult_integral _ _ P); contradiction).
  apply bisect_loop_sound in E; [|exact L|exact C|exact S]. destruct E as (z & A1 & A2 & A3 & A4). exists z. split; [exact A1|split; [exact A2|split; [exact A3|]]].
  rewrite (Rabs_right (x2 - x1)) in A4 by lra.
  assert (W : 0 < (x2 - x1) / eps) by (apply Rdiv_lt_0_compat; lra). pose proof (pow_ceil _ W) as Q. revert Q A4. generalize (2 ^ Z.to_nat (ceil (ln ((x2 - x1) / eps) / ln 2))).
  intros p Q A4. assert (K : (x2 - x1) / p <= eps); [|lra].
  apply (Rmult_le_reg_r p); [lra|]. unfold Rdiv. rewrite Rmult_assoc, Rinv_l by lra. rewrite Rmult_1_r.
  replace (x2 - x1) with (eps * ((x2 - x1) / eps)) by (field; lra). apply Rmult_le_compat_l; lra.
Qed.

(* ---- calc_roots ---- *)
Lemma eps_pos : 0 < epsilon_default.
Proof. unfold epsilon_default. apply Rinv_0_lt_compat, pow_lt. lra. Qed.
Lemma calc_roots_loop_sound : forall f b dx a fuel x acc l, 0 < dx -> a <= x <= b -> cont f a b ->
  (forall r, In r acc -> a <= r <= b /\ exists z, a <= z <= b /\ f z = 0 /\ Rabs (r - z) <= epsilon_default / 2) ->
  calc_roots_loop f b dx fuel x acc = Some l ->
  forall r, In r l -> a <= r <= b /\ exists z, a <= z <= b /\ f z = 0 /\ Rabs (r - z) <= epsilon_default / 2.
Proof.
  intros f b dx a. induction fuel as [|n IH]; intros x acc l D X C A; cbn [calc_roots_loop]; [discriminate|].
  rewrite rootsearch_rs. destruct (rs f b dx (S n) x) as [[[x1 x2]|]|] eqn:E; [| |discriminate].
  - apply rs_some in E. destruct E as (k & E1 & E2 & E3 & _). cbn [fst snd] in *.
    pose proof (node_range x b dx k D (proj2 X)) as N1. pose proof (node_range x b dx (S k) D (proj2 X)) as N2. rewrite <- E1 in N1. rewrite <- E2 in N2.
    assert (L : x1 <= x2). { subst x1 x2. simpl. apply next_range; lra. }
    destruct (bisect f x1 x2 true epsilon_default) as [r0|] eqn:B; apply IH; try assumption; try lra.
    intros r I. apply in_app_or in I. destruct I as [I|[<-|[]]]; [apply A, I|].
    apply bisect_sound in B; [|exact eps_pos|exact L|intros y Y; apply C; lra]. destruct B as (z & Z1 & Z2 & Z3 & Z4). split; [lra|]. exists z. repeat split; try assumption; lra.
  - intros Q. injection Q as <-. exact A.
Qed.
Lemma dx_pos : forall a b eps, a < b -> 0 <= eps -> 0 < (if Req_EM_T eps 0 then Rabs (b - a) * 1 / 100 else eps).
Proof. intros a b eps L E. destruct (Req_EM_T eps 0); [|lra]. rewrite Rabs_right by lra. lra. Qed.
Theorem calc_roots_sound : forall f a b eps fuel l, a < b -> 0 <= eps -> cont f a b -> calc_roots f a b eps fuel = Some l ->
  forall r, In r l -> a <= r <= b /\ exists z, a <= z <= b /\ f z = 0 /\ Rabs (r - z) <= epsilon_default / 2.
Proof.
  intros f a b eps fuel l L HE C E. unfold calc_roots in E. cbv zeta in E.
  refine (calc_roots_loop_sound f b _ a _ _ _ _ (dx_pos a b eps L HE) (conj (Rle_refl a) (Rlt_le _ _ L)) C _ E). intros r [].
Qed.
(* never ends when f b = 0 *)
Lemma rs_never : forall f b dx fuel x, 0 < dx -> x <= b -> f b = 0 -> rs f b dx fuel x <> Some None.
Proof.
  intros f b dx. induction fuel as [|n IH]; intros x D X Z; simpl; [discriminate|]. destruct (Rlt_dec 0 _) as [L|L]; [|discriminate].
  destruct (Rle_dec b x).
  - assert (x = b) by lra. subst x. rewrite Z in L. lra.
  - apply IH; [exact D|apply next_range; assumption|exact Z].
Qed.
Lemma calc_roots_loop_never : forall f b dx fuel x acc, 0 < dx -> x <= b -> f b = 0 -> calc_roots_loop f b dx fuel x acc = None.
Proof.
  intros f b dx. induction fuel as [|n IH]; intros x acc D X Z; [reflexivity|]. cbn [calc_roots_loop]. rewrite rootsearch_rs.
  destruct (rs f b dx (S n) x) as [[[x1 x2]|]|] eqn:E; [| |reflexivity].
  - apply rs_some in E. destruct E as (k & E1 & E2 & _). cbn [fst snd] in *. pose proof (node_range x b dx (S k) D X) as N. rewrite <- E2 in N.
    destruct (bisect f x1 x2 true epsilon_default); apply IH; try assumption; lra.
  - exfalso. exact (rs_never f b dx (S n) x D X Z E).
Qed.
Theorem calc_roots_never_ends : forall f a b eps, a < b -> 0 <= eps -> f b = 0 -> forall fuel, calc_roots f a b eps fuel = None.
Proof. intros f a b eps L E Z fuel. unfold calc_roots. cbv zeta. apply calc_roots_loop_never; [apply dx_pos; assumption|lra|exact Z]. Qed.
(* completeness *)
Lemma monotone_sub : forall f u v u' v', monotone f u v -> u <= u' -> v' <= v -> monotone f u' v'.
Proof. intros f u v u' v' [M|M] A B; [left|right]; intros x y X L Y; apply M; lra. Qed.
Lemma bisect_loop_monotone : forall f n x1 x2, x1 <= x2 -> monotone f x1 x2 -> bisect_loop f true n x1 (f x1) x2 (f x2) <> None.
Proof.
  intros f. induction n as [|n IH]; intros x1 x2 L M; simpl; [discriminate|]. set (x3 := 5/10 * (x1 + x2)). assert (X3 : x1 <= x3 <= x2) by (unfold x3; lra).
  assert (Q : (if Rlt_dec (Rabs (f x1)) (Rabs (f x3)) then if Rlt_dec (Rabs (f x2)) (Rabs (f x3)) then true else false else false) = false).
  { destruct (Rlt_dec (Rabs (f x1)) (Rabs (f x3))) as [P|P]; [|reflexivity]. destruct (Rlt_dec (Rabs (f x2)) (Rabs (f x3))) as [P'|P']; [|reflexivity]. exfalso.
    destruct (Req_dec x1 x3) as [E|E]; [rewrite <- E in P; lra|]. destruct (Req_dec x3 x2) as [E'|E']; [rewrite E' in P'; lra|].
    destruct M as [M|M]; pose proof (M x1 x3 ltac:(lra) ltac:(lra) ltac:(lra)); pose proof (M x3 x2 ltac:(lra) ltac:(lra) ltac:(lra));
      revert P P'; unfold Rabs; destruct (Rcase_abs (f x1)), (Rcase_abs (f x2)), (Rcase_abs (f x3)); lra. }
  rewrite Q. destruct (Req_EM_T (f x3) 0); [discriminate|]. destruct (Rlt_dec (f x2 * f x3) 0); apply IH; try lra; apply (monotone_sub f x1 x2); try assumption; lra.
Qed.
Lemma bisect_monotone : forall f x1 x2 eps, x1 <= x2 -> monotone f x1 x2 -> f x1 * f x2 <= 0 -> bisect f x1 x2 true eps <> None.
Proof.
  intros f x1 x2 eps L M S. unfold bisect. cbv zeta. destruct (Req_EM_T (f x1) 0); [discriminate|]. destruct (Req_EM_T (f x2) 0); [discriminate|].
  destruct (Rlt_dec 0 _); [lra|]. apply bisect_loop_monotone; assumption.
Qed.
Lemma monotone_zero : forall f u v z w, monotone f u v -> u <= z <= v -> u <= w <= v -> f z = 0 -> f w = 0 -> z = w.
Proof.
  intros f u v z w M Z W A B. destruct (Rtotal_order z w) as [L|[E|L]]; [|exact E|]; exfalso; destruct M as [M|M].
  - pose proof (M z w ltac:(lra) L ltac:(lra)). lra.
  - pose proof (M z w ltac:(lra) L ltac:(lra)). lra.
  - pose proof (M w z ltac:(lra) L ltac:(lra)). lra.
  - pose proof (M w z ltac:(lra) L ltac:(lra)). lra.
Qed.
Lemma monotone_sign : forall f u v z, monotone f u v -> u <= z <= v -> f z = 0 -> f u * f v <= 0.
Proof.
  intros f u v z M Z A. assert (Q : (f u <= 0 /\ 0 <= f v) \/ (0 <= f u /\ f v <= 0)).
  { destruct M as [M|M]; [left|right]; (split; [destruct (Req_dec u z) as [->|N]; [lra|pose proof (M u z ltac:(lra) ltac:(lra) ltac:(lra)); lra]
      |destruct (Req_dec z v) as [<-|N]; [lra|pose proof (M z v ltac:(lra) ltac:(lra) ltac:(lra)); lra]]). }
  nra.
Qed.
(* the zero lies in a cell *)
Lemma cell_of : forall a b dx N z, node a b dx N = b -> a <= z <= b -> z < b -> exists k, (k < N)%nat /\ node a b dx k <= z < node a b dx (S k).
Proof.
  intros a b dx. induction N as [|N IH]; intros z E Z L; [simpl in E; lra|].
  destruct (Rle_dec (node a b dx N) z) as [G|G]; [exists N; split; [lia|split; [exact G|rewrite E; exact L]]|].
  assert (H : exists k, (k < N)%nat /\ node a b dx k <= z < node a b dx (S k)); [|destruct H as (k & K & Q); exists k; split; [lia|exact Q]].
  clear IH E. induction N as [|N IH]; [simpl in G; lra|]. destruct (Rle_dec (node a b dx N) z) as [G'|G'].
  - exists N. split; [lia|]. split; [exact G'|lra].
  - destruct (IH G') as (k & K & Q). exists k. split; [lia|exact Q].
Qed.
Lemma calc_roots_loop_acc : forall f b dx fuel x acc l, calc_roots_loop f b dx fuel x acc = Some l -> incl acc l.
Proof.
  intros f b dx. induction fuel as [|n IH]; intros x acc l; cbn [calc_roots_loop]; [discriminate|].
  destruct (rootsearch f x b dx (S n)) as [[[x1 x2]|]|]; [|intros E; injection E as <-; apply incl_refl|discriminate].
  destruct (bisect f x1 x2 true epsilon_default); intros E; apply IH in E; [|exact E]. intros u I. apply E, in_or_app. left. exact I.
Qed.
Lemma calc_roots_loop_complete : forall f b dx, 0 < dx -> f b <> 0 -> forall N x acc, x <= b -> node x b dx N = b -> cont f x b ->
  (forall k, monotone f (node x b dx k) (node x b dx (S k))) -> forall fuel, (N + 1 < fuel)%nat ->
  exists l, calc_roots_loop f b dx fuel x acc = Some l /\ forall z, x <= z <= b -> f z = 0 -> exists r, In r l /\ Rabs (r - z) <= epsilon_default / 2.
Proof.
  intros f b dx D FB. induction N as [N IH] using lt_wf_ind. intros x acc X E C M fuel FU. destruct fuel as [|fuel]; [lia|]. cbn [calc_roots_loop]. rewrite rootsearch_rs.
  assert (HB : forall z, x <= z <= b -> f z = 0 -> z < b). { intros z Z A. destruct (Req_dec z b) as [->|]; [contradiction|lra]. }
  destruct (rs f b dx (S fuel) x) as [[[x1 x2]|]|] eqn:R.
  - apply rs_some in R. destruct R as (k & E1 & E2 & E3 & E4). cbn [fst snd] in *.
    assert (K : (k < N)%nat).
    { destruct (Nat.lt_ge_cases k N) as [|G]; [assumption|]. exfalso. assert (NB : forall i, node x b dx (N + i) = b).
      { intros i. rewrite <- node_shift, E. pose proof (node_range b b dx i D (Rle_refl b)). lra. }
      replace k with (N + (k - N))%nat in E1 by lia. replace (S k) with (N + (S k - N))%nat in E2 by lia. rewrite NB in E1, E2. subst x1 x2. nra. }
    pose proof (node_range x b dx k D X) as N1. pose proof (node_range x b dx (S k) D X) as N2. rewrite <- E1 in N1. rewrite <- E2 in N2.
    assert (L : x1 <= x2). { subst x1 x2. simpl. apply next_range; lra. }
    assert (MK : monotone f x1 x2). { rewrite E1, E2. apply M. }
    assert (REST : forall acc', exists l, calc_roots_loop f b dx fuel x2 acc' = Some l /\ forall z, x2 <= z <= b -> f z = 0 -> exists r, In r l /\ Rabs (r - z) <= epsilon_default / 2).
    { intros acc'. apply (IH (N - S k)%nat); try lia; try lra.
      - rewrite E2, node_shift. replace (S k + (N - S k))%nat with N by lia. exact E.
      - intros y Y. apply C. lra.
      - intros j. rewrite E2, !node_shift. replace (S k + S j)%nat with (S (S k + j)) by lia. apply M. }
    destruct (bisect f x1 x2 true epsilon_default) as [r|] eqn:B; [|exfalso; exact (bisect_monotone f x1 x2 _ L MK E3 B)].
    destruct (REST (acc ++ [r])) as (l & Q1 & Q2). exists l. split; [exact Q1|]. intros z Z A. destruct (Rle_dec x2 z) as [G|G]; [apply Q2; [lra|exact A]|].
    apply bisect_sound in B; [|exact eps_pos|exact L|intros y Y; apply C; lra]. destruct B as (w & W1 & W2 & W3 & W4).
    exists r. split; [apply (calc_roots_loop_acc _ _ _ _ _ _ _ Q1), in_or_app; right; left; reflexivity|].
    assert (x1 <= z).
    { destruct (Rle_dec x1 z) as [|G']; [assumption|]. exfalso. destruct (cell_of x b dx N z E Z (HB z Z A)) as (j & _ & J).
      destruct (Nat.lt_ge_cases j k) as [JK|JK].
      - pose proof (E4 j JK). pose proof (monotone_sign f _ _ z (M j) ltac:(lra) A). lra.
      - assert (node x b dx k <= node x b dx j); [|lra]. replace j with (k + (j - k))%nat by lia. rewrite <- node_shift.
        apply node_range; [exact D|]. apply node_range; assumption. }
    rewrite (monotone_zero f x1 x2 z w MK); try assumption; lra.
  - exists acc. split; [reflexivity|]. intros z Z A. exfalso. pose proof (rs_none f b dx _ x D X R) as P.
    destruct (cell_of x b dx N z E Z (HB z Z A)) as (k & _ & Q). pose proof (monotone_sign f _ _ z (M k) ltac:(lra) A). pose proof (P k). lra.
  - exfalso. exact (rs_fuel f b dx N x E (S fuel) FU R).
Qed.

Theorem calc_roots_complete : forall f a b eps, a < b -> 0 <= eps -> cont f a b -> f b <> 0 ->
  let dx := if Req_EM_T eps 0 then (b - a) / 100 else eps in
  (forall k, monotone f (Rmin (a + INR k * dx) b) (Rmin (a + INR (S k) * dx) b)) ->
  exists n, forall fuel, (n <= fuel)%nat ->
    exists l, calc_roots f a b eps fuel = Some l /\ forall z, a <= z <= b -> f z = 0 -> exists r, In r l /\ Rabs (r - z) <= epsilon_default / 2.
Proof.
  intros f a b eps L HE C FB dx M. pose proof (dx_pos a b eps L HE) as D.
  assert (EQ : (if Req_EM_T eps 0 then Rabs (b - a) * 1 / 100 else eps) = dx). { unfold dx. destruct (Req_EM_T eps 0); [|reflexivity]. rewrite Rabs_right by lra. field. }
  rewrite EQ in D. destruct (node_end a b dx D (Rlt_le _ _ L)) as [N HN]. exists (N + 2)%nat. intros fuel FU. unfold calc_roots. cbv zeta. rewrite EQ.
  apply (calc_roots_loop_complete f b dx D FB N); try assumption; try lra; [apply HN; lia| |lia].
  intros k. rewrite !node_form by (assumption || lra). apply M.
Qed.
(* refutations *)
Theorem calc_roots_twice : exists l, calc_roots (fun x => x - 1) 0 (3/2) 1 10 = Some l /\ l = [1; 1].
Proof.
  exists [1; 1]. split; [|reflexivity]. unfold calc_roots. destruct (Req_EM_T 1 0); [lra|].
  cbn [calc_roots_loop]. rewrite !rootsearch_rs.
  assert (N0 : next (3/2) 1 0 = 1) by (unfold next; destruct (Rlt_dec (3/2) (0 + 1)); lra).
  assert (N1 : next (3/2) 1 1 = 3/2) by (unfold next; destruct (Rlt_dec (3/2) (1 + 1)); lra).
  assert (N2 : next (3/2) 1 (3/2) = 3/2) by (unfold next; destruct (Rlt_dec (3/2) (3/2 + 1)); lra).
  cbn [rs]. rewrite N0. destruct (Rlt_dec 0 ((0 - 1) * (1 - 1))); [lra|].
  unfold bisect at 1. cbv zeta. destruct (Req_EM_T (0 - 1) 0); [lra|]. destruct (Req_EM_T (1 - 1) 0); [|lra].
  rewrite rootsearch_rs. cbn [rs]. rewrite N1. destruct (Rlt_dec 0 ((1 - 1) * (3/2 - 1))); [lra|].
  unfold bisect at 1. cbv zeta. destruct (Req_EM_T (1 - 1) 0); [|lra].
  rewrite rootsearch_rs. cbn [rs]. rewrite N2. destruct (Rlt_dec 0 ((3/2 - 1) * (3/2 - 1))); [|lra]. destruct (Rle_dec (3/2) (3/2)); [|lra]. reflexivity.
Qed.
Theorem calc_roots_missed : let f := fun x => -8 * (x * x) + 10 * x - 1 in
  f 0 < 0 < f 1 /\ calc_roots f 0 1 1 10 = Some [].
Proof.
  intros f. split; [unfold f; lra|]. unfold calc_roots. destruct (Req_EM_T 1 0); [lra|].
  cbn [calc_roots_loop]. rewrite !rootsearch_rs.
  assert (N0 : next 1 1 0 = 1) by (unfold next; destruct (Rlt_dec 1 (0 + 1)); lra).
  assert (N1 : next 1 1 1 = 1) by (unfold next; destruct (Rlt_dec 1 (1 + 1)); lra).
  assert (F0 : f 0 = -1) by (unfold f; lra). assert (F1 : f 1 = 1) by (unfold f; lra).
  cbn [rs]. rewrite N0, F0, F1. destruct (Rlt_dec 0 (-1 * 1)); [lra|].
  assert (B : bisect f 0 1 true epsilon_default = None).
  { unfold bisect. cbv zeta. rewrite F0, F1. destruct (Req_EM_T (-1) 0); [lra|]. destruct (Req_EM_T 1 0); [lra|]. destruct (Rlt_dec 0 (-1 * 1)); [lra|].
    assert (W : 0 < Rabs (1 - 0) / epsilon_default) by (apply Rdiv_lt_0_compat; [rewrite Rabs_right; lra|exact eps_pos]).
    pose proof (pow_ceil _ W) as Q. destruct (Z.to_nat _) as [|m].
    - exfalso. simpl in Q. unfold epsilon_default in Q. rewrite Rabs_right in Q by lra. unfold Rdiv in Q. rewrite Rinv_inv in Q.
      assert (1 < 10 ^ 12) by (apply Rlt_pow_R1; [lra|lia]). lra.
    - cbn [bisect_loop]. cbv zeta. replace (5/10 * (0 + 1)) with (1/2) by lra. assert (F2 : f (1/2) = 2) by (unfold f; lra). rewrite F2.
      rewrite (Rabs_left (-1)), (Rabs_right 1), (Rabs_right 2) by lra. destruct (Rlt_dec (- -1) 2); [|lra]. destruct (Rlt_dec 1 2); [reflexivity|lra]. }
  rewrite B. rewrite rootsearch_rs. cbn [rs]. rewrite N1, F1. destruct (Rlt_dec 0 (1 * 1)); [|lra]. destruct (Rle_dec 1 1); [|lra]. reflexivity.
Qed.
Theorem bisect_zero : forall f x1 x2 sw eps r, 0 < eps -> x1 <= x2 -> cont f x1 x2 -> bisect f x1 x2 sw eps = Some r ->
  x1 <= r <= x2 /\ zero_within f x1 x2 (eps / 2) r.
Proof. intros f x1 x2 sw eps r HE L C E. destruct (bisect_sound f x1 x2 sw eps r HE L C E) as (z & A & B & D & F). split; [exact D|]. exists z. auto. Qed.
