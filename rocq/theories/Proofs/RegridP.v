(** Proofs about regridding. *)
From Coq Require Import Reals List ZArith Lra Lia Psatz.
From Verif Require Import Spec.Bilinear Model.Profile Model.Regrid.
Import ListNotations.
Open Scope R_scope.

Lemma floor_spec : forall x, IZR (floor x) <= x < IZR (floor x) + 1.
Proof. intros x. unfold floor. rewrite minus_IZR. destruct (archimed x). lra. Qed.
Lemma floor_nonneg : forall x, 0 <= x -> (0 <= floor x)%Z.
Proof. intros x X. destruct (floor_spec x). apply Z.lt_succ_r, lt_IZR. unfold Z.succ. rewrite plus_IZR. lra. Qed.
Lemma floor_lt : forall x n, 0 <= x -> x < INR n - 1 -> (Z.to_nat (floor x) + 1 < n)%nat.
Proof.
  intros x n X L. pose proof (floor_nonneg x X). destruct (floor_spec x) as [A _].
  assert (floor x < Z.of_nat n - 1)%Z; [|lia]. apply lt_IZR. rewrite minus_IZR, <- INR_IZR_INZ. lra.
Qed.
Lemma nth_table : forall g nx ny j i, (i < nx)%nat -> (j < ny)%nat -> at2 (table g nx ny) j i = Some (Some (g i j)).
Proof.
  intros g nx ny j i I J. unfold at2, table. rewrite nth_error_map. rewrite (nth_error_nth' (seq 0 ny) 0%nat) by (rewrite seq_length; exact J).
  rewrite seq_nth by exact J. simpl. rewrite nth_error_map. rewrite (nth_error_nth' (seq 0 nx) 0%nat) by (rewrite seq_length; exact I).
  rewrite seq_nth by exact I. reflexivity.
Qed.
Lemma point_spec : forall x0 hx y0 hy nx ny g x y, 0 < hx -> 0 < hy ->
  exists v, app_point (table g nx ny) x0 hx y0 hy nx ny x y = Some v /\ interpolated x0 hx y0 hy nx ny g (x, y) v.
Proof.
  intros x0 hx y0 hy nx ny g x y HX HY. unfold app_point. cbv zeta.
  assert (QX : x = x0 + (x - x0) / hx * hx) by (field; lra). assert (QY : y = y0 + (y - y0) / hy * hy) by (field; lra).
  set (u := (x - x0) / hx) in *. set (v := (y - y0) / hy) in *. clearbody u v. subst x y.
  destruct (Rle_dec 0 u) as [U1|U1]; [|exists None; split; [reflexivity|apply Outside; left; nra]].
  destruct (Rlt_dec u (INR nx - 1)) as [U2|U2]; [|exists None; split; [reflexivity|apply Outside; right; left; nra]].
  destruct (Rle_dec 0 v) as [V1|V1]; [|exists None; split; [reflexivity|apply Outside; right; right; left; nra]].
  destruct (Rlt_dec v (INR ny - 1)) as [V2|V2]; [|exists None; split; [reflexivity|apply Outside; right; right; right; nra]].
  pose proof (floor_lt u nx U1 U2) as I. pose proof (floor_lt v ny V1 V2) as J. pose proof (floor_nonneg u U1). pose proof (floor_nonneg v V1).
  rewrite !nth_table by lia. simpl app_2d. eexists; split; [reflexivity|].
  set (i := Z.to_nat (floor u)) in *. set (j := Z.to_nat (floor v)) in *.
  assert (EU : u = INR i + frac u). { unfold frac, i. rewrite INR_IZR_INZ, Z2Nat.id by assumption. ring. }
  assert (EV : v = INR j + frac v). { unfold frac, j. rewrite INR_IZR_INZ, Z2Nat.id by assumption. ring. }
  assert (FU : 0 <= frac u < 1). { unfold frac. pose proof (floor_spec u). lra. } assert (FV : 0 <= frac v < 1). { unfold frac. pose proof (floor_spec v). lra. }
  pose proof (Inside x0 hx y0 hy nx ny g i j (frac u) (frac v) I J FU FV) as P. rewrite <- EU, <- EV in P.
  match type of P with interpolated _ _ _ _ _ _ _ _ (Some ?w) => match goal with |- interpolated _ _ _ _ _ _ _ _ (Some ?w') => replace w' with w by ring end end. exact P.
Qed.
Lemma uniform_length : forall x0 h n, length (uniform x0 h n) = n.
Proof. intros. unfold uniform. rewrite map_length, seq_length. reflexivity. Qed.
Lemma uniform_last : forall x0 h n d, (1 <= n)%nat -> last (uniform x0 h n) d = x0 + (INR n - 1) * h.
Proof.
  intros x0 h n d N. destruct n as [|n]; [lia|]. unfold uniform. rewrite seq_S, map_app. simpl map at 2. rewrite last_last. rewrite S_INR. simpl. ring.
Qed.
Lemma all_some_map : forall {A B} (f : A -> option B) (P : A -> B -> Prop) l, (forall x, exists v, f x = Some v /\ P x v) ->
  exists vs, all_some (map f l) = Some vs /\ Forall2 P l vs.
Proof.
  intros A B f P l H. induction l as [|x l IH]; simpl; [exists []; auto|]. destruct (H x) as (v & E & Q). destruct IH as (vs & E' & Q'). rewrite E, E'.
  exists (v :: vs). auto.
Qed.
Theorem app_grid_spec : forall x0 hx y0 hy nx ny g l, 0 < hx -> 0 < hy -> (2 <= nx)%nat -> (2 <= ny)%nat ->
  exists vs, app_grid (table g nx ny) (uniform x0 hx nx) (uniform y0 hy ny) l = Some vs /\ Forall2 (interpolated x0 hx y0 hy nx ny g) l vs.
Proof.
  intros x0 hx y0 hy nx ny g l HX HY NX NY. pose proof (uniform_length x0 hx nx) as LX. pose proof (uniform_length y0 hy ny) as LY.
  pose proof (uniform_last x0 hx nx x0 ltac:(lia)) as EX. pose proof (uniform_last y0 hy ny y0 ltac:(lia)) as EY.
  assert (HDX : exists xs, uniform x0 hx nx = x0 :: xs). { unfold uniform. destruct nx; [lia|]. simpl. eexists. f_equal. simpl. ring. }
  assert (HDY : exists ys, uniform y0 hy ny = y0 :: ys). { unfold uniform. destruct ny; [lia|]. simpl. eexists. f_equal. simpl. ring. }
  destruct HDX as [xs HDX], HDY as [ys HDY]. unfold app_grid. rewrite HDX, HDY in *. cbv zeta. rewrite LX, LY, EX, EY.
  destruct (Nat.eqb_spec nx 1); [lia|]. destruct (Nat.eqb_spec ny 1); [lia|].
  assert (1 < INR nx) by (change 1 with (INR 1); apply lt_INR; lia). assert (1 < INR ny) by (change 1 with (INR 1); apply lt_INR; lia).
  assert (SX : (x0 + (INR nx - 1) * hx - x0) / (INR nx - 1) = hx) by (field; lra). assert (SY : (y0 + (INR ny - 1) * hy - y0) / (INR ny - 1) = hy) by (field; lra).
  rewrite SX, SY. destruct (Req_EM_T hx 0); [lra|]. destruct (Req_EM_T hy 0); [lra|].
  destruct l as [|p l]; [exists []; auto|]. apply all_some_map. intros [x y]. apply point_spec; assumption.
Qed.
(* the specification determines the value *)
Lemma cell_unique : forall i j s t, 0 <= s < 1 -> 0 <= t < 1 -> INR i + s = INR j + t -> i = j /\ s = t.
Proof.
  intros i j s t HS HT E. assert (i = j); [|subst; split; [reflexivity|lra]].
  destruct (Nat.lt_trichotomy i j) as [L|[Q|L]]; [|exact Q|].
  - assert (INR (S i) <= INR j) by (apply le_INR; lia). rewrite S_INR in *. lra.
  - assert (INR (S j) <= INR i) by (apply le_INR; lia). rewrite S_INR in *. lra.
Qed.
Lemma in_range : forall x0 h n i s, 0 < h -> (i + 1 < n)%nat -> 0 <= s < 1 -> x0 <= x0 + (INR i + s) * h < x0 + (INR n - 1) * h.
Proof.
  intros x0 h n i s H I S. pose proof (pos_INR i). assert (INR (i + 2) <= INR n) by (apply le_INR; lia). rewrite plus_INR in *. simpl (INR 2) in *. split; nra.
Qed.
Theorem interpolated_unique : forall x0 hx y0 hy nx ny g p v w, 0 < hx -> 0 < hy ->
  interpolated x0 hx y0 hy nx ny g p v -> interpolated x0 hx y0 hy nx ny g p w -> v = w.
Proof.
  intros x0 hx y0 hy nx ny g p v w HX HY A B. destruct A as [i j s t I J S T|x y O].
  - inversion B as [i' j' s' t' I' J' S' T' E1 E2|x' y' O' E1 E2]; subst.
    + assert (E1' : INR i' + s' = INR i + s) by nra. assert (E2' : INR j' + t' = INR j + t) by nra.
      destruct (cell_unique _ _ _ _ S' S E1') as [-> ->]. destruct (cell_unique _ _ _ _ T' T E2') as [-> ->]. reflexivity.
    + exfalso. pose proof (in_range x0 hx nx i s HX I S). pose proof (in_range y0 hy ny j t HY J T). lra.
  - inversion B as [i' j' s' t' I' J' S' T' E1 E2|x' y' O' E1 E2]; subst; [|reflexivity].
    exfalso. pose proof (in_range x0 hx nx i' s' HX I' S'). pose proof (in_range y0 hy ny j' t' HY J' T'). lra.
Qed.
Lemma app_one : forall x0 hx y0 hy nx ny g p v, 0 < hx -> 0 < hy -> (2 <= nx)%nat -> (2 <= ny)%nat -> interpolated x0 hx y0 hy nx ny g p v ->
  app_grid (table g nx ny) (uniform x0 hx nx) (uniform y0 hy ny) [p] = Some [v].
Proof.
  intros x0 hx y0 hy nx ny g p v HX HY NX NY I. destruct (app_grid_spec x0 hx y0 hy nx ny g [p] HX HY NX NY) as (vs & E & F). rewrite E. f_equal.
  inversion F as [|? w ? ? A B]; subst. inversion B; subst. f_equal. apply (interpolated_unique x0 hx y0 hy nx ny g p); assumption.
Qed.
Theorem at_nodes : forall x0 hx y0 hy nx ny g i j, 0 < hx -> 0 < hy -> (i + 1 < nx)%nat -> (j + 1 < ny)%nat ->
  app_grid (table g nx ny) (uniform x0 hx nx) (uniform y0 hy ny) [(x0 + INR i * hx, y0 + INR j * hy)] = Some [Some (g i j)].
Proof.
  intros x0 hx y0 hy nx ny g i j HX HY I J. apply app_one; try assumption; try lia.
  pose proof (Inside x0 hx y0 hy nx ny g i j 0 0 I J ltac:(lra) ltac:(lra)) as P. rewrite !Rplus_0_r in P.
  match type of P with interpolated _ _ _ _ _ _ _ _ (Some ?w) => replace w with (g i j) in P by ring end. exact P.
Qed.
Theorem last_node : forall x0 hx y0 hy nx ny g i j, 0 < hx -> 0 < hy -> (2 <= nx)%nat -> (2 <= ny)%nat -> (i + 1 = nx)%nat \/ (j + 1 = ny)%nat ->
  app_grid (table g nx ny) (uniform x0 hx nx) (uniform y0 hy ny) [(x0 + INR i * hx, y0 + INR j * hy)] = Some [None].
Proof.
  intros x0 hx y0 hy nx ny g i j HX HY NX NY E. apply app_one; try assumption. apply Outside. destruct E as [E|E].
  - right. left. rewrite <- E, plus_INR. simpl. lra.
  - right. right. right. rewrite <- E, plus_INR. simpl. lra.
Qed.
Theorem bilinear_exact : forall x0 hx y0 hy nx ny a b c d l, 0 < hx -> 0 < hy -> (2 <= nx)%nat -> (2 <= ny)%nat ->
  let h := fun x y => a + b * x + c * y + d * x * y in
  Forall (fun p => x0 <= fst p < x0 + (INR nx - 1) * hx /\ y0 <= snd p < y0 + (INR ny - 1) * hy) l ->
  app_grid (table (fun i j => h (x0 + INR i * hx) (y0 + INR j * hy)) nx ny) (uniform x0 hx nx) (uniform y0 hy ny) l = Some (map (fun p => Some (h (fst p) (snd p))) l).
Proof.
  intros x0 hx y0 hy nx ny a b c d l HX HY NX NY h F. set (g := fun i j => h (x0 + INR i * hx) (y0 + INR j * hy)).
  destruct (app_grid_spec x0 hx y0 hy nx ny g l HX HY NX NY) as (vs & E & Q). rewrite E. f_equal. clear E. induction Q as [|p v l vs I Q IH]; [reflexivity|].
  inversion F as [|? ? F1 F2]; subst. simpl. f_equal; [|apply IH; exact F2]. destruct I as [i j s t I J S T|x y O].
  - simpl. f_equal. unfold g, h. rewrite !plus_INR. simpl (INR 1). ring.
  - exfalso. simpl in F1. lra.
Qed.
Theorem within_bounds : forall x0 hx y0 hy nx ny g lo hi l vs v, 0 < hx -> 0 < hy -> (2 <= nx)%nat -> (2 <= ny)%nat ->
  (forall i j, (i < nx)%nat -> (j < ny)%nat -> lo <= g i j <= hi) ->
  app_grid (table g nx ny) (uniform x0 hx nx) (uniform y0 hy ny) l = Some vs -> In (Some v) vs -> lo <= v <= hi.
Proof.
  intros x0 hx y0 hy nx ny g lo hi l vs v HX HY NX NY B E. destruct (app_grid_spec x0 hx y0 hy nx ny g l HX HY NX NY) as (vs' & E' & Q). rewrite E in E'. injection E' as <-. clear E.
  induction Q as [|p w l vs I Q IH]; [intros []|]. intros [W|W]; [|apply IH, W]. subst w. inversion I as [i j s t I' J S T EP EV|]; subst.
  pose proof (B i j ltac:(lia) ltac:(lia)). pose proof (B (i+1)%nat j ltac:(lia) ltac:(lia)). pose proof (B i (j+1)%nat ltac:(lia) ltac:(lia)). pose proof (B (i+1)%nat (j+1)%nat ltac:(lia) ltac:(lia)).
  assert (W1 : 0 <= (1 - s) * (1 - t)) by nra. assert (W2 : 0 <= s * (1 - t)) by nra. assert (W3 : 0 <= (1 - s) * t) by nra. assert (W4 : 0 <= s * t) by nra.
  assert (SUM : (1 - s) * (1 - t) + s * (1 - t) + (1 - s) * t + s * t = 1) by ring. generalize dependent ((1 - s) * (1 - t)). generalize dependent (s * (1 - t)).
  generalize dependent ((1 - s) * t). generalize dependent (s * t). intros p1 P1 p2 P2 p3 P3 p4 P4 SUM. split; nra.
Qed.
Theorem additive : forall x0 hx y0 hy nx ny g h l vs ws, 0 < hx -> 0 < hy -> (2 <= nx)%nat -> (2 <= ny)%nat ->
  app_grid (table g nx ny) (uniform x0 hx nx) (uniform y0 hy ny) l = Some vs -> app_grid (table h nx ny) (uniform x0 hx nx) (uniform y0 hy ny) l = Some ws ->
  app_grid (table (fun i j => g i j + h i j) nx ny) (uniform x0 hx nx) (uniform y0 hy ny) l = Some (map (fun p => opt_add (fst p) (snd p)) (combine vs ws)).
Proof.
  intros x0 hx y0 hy nx ny g h l vs ws HX HY NX NY E1 E2.
  destruct (app_grid_spec x0 hx y0 hy nx ny g l HX HY NX NY) as (vs' & E1' & Q1). rewrite E1 in E1'. injection E1' as <-.
  destruct (app_grid_spec x0 hx y0 hy nx ny h l HX HY NX NY) as (ws' & E2' & Q2). rewrite E2 in E2'. injection E2' as <-. clear E1 E2.
  destruct (app_grid_spec x0 hx y0 hy nx ny (fun i j => g i j + h i j) l HX HY NX NY) as (us & E & Q). rewrite E. f_equal. clear E.
  revert vs ws us Q1 Q2 Q. induction l as [|p l IH]; intros vs ws us Q1 Q2 Q; inversion Q1 as [|? v ? vs' A1 B1]; subst; inversion Q2 as [|? w ? ws' A2 B2]; subst; inversion Q as [|? u ? us' A B]; subst; [reflexivity|].
  simpl. f_equal; [|apply IH; assumption]. clear - A1 A2 A HX HY.
  apply (interpolated_unique x0 hx y0 hy nx ny (fun i j => g i j + h i j) p); [exact HX|exact HY|exact A|].
  destruct A1 as [i j s t I J S T|x y O].
  - pose proof (Inside x0 hx y0 hy nx ny h i j s t I J S T) as P. rewrite (interpolated_unique _ _ _ _ _ _ _ _ _ _ HX HY A2 P). simpl.
    pose proof (Inside x0 hx y0 hy nx ny (fun i j => g i j + h i j) i j s t I J S T) as P'. cbv beta in P'.
    match type of P' with interpolated _ _ _ _ _ _ _ _ (Some ?w1) => match goal with |- interpolated _ _ _ _ _ _ _ _ (Some ?w2) => replace w2 with w1 by ring end end. exact P'.
  - simpl. apply Outside. exact O.
Qed.
(* the two regriddings *)
Lemma flat_length : forall {A B C} (f : A -> B -> C) (la : list A) (lb : list B), length (flat_map (fun b => map (fun a => f a b) la) lb) = (length la * length lb)%nat.
Proof. intros. induction lb as [|b lb IH]; simpl; [lia|]. rewrite app_length, map_length, IH. lia. Qed.
Lemma flat_nth : forall {A B C} (f : A -> B -> C) (la : list A) (lb : list B) i j a b, nth_error la i = Some a -> nth_error lb j = Some b ->
  nth_error (flat_map (fun b => map (fun a => f a b) la) lb) (i + j * length la) = Some (f a b).
Proof.
  intros A B C f la. induction lb as [|b0 lb IH]; intros i j a b I J; [destruct j; discriminate|]. assert (IL : (i < length la)%nat) by (apply nth_error_Some; rewrite I; discriminate).
  destruct j as [|j]; simpl.
  - simpl in J. injection J as <-. rewrite Nat.add_0_r, nth_error_app1 by (rewrite map_length; exact IL). rewrite nth_error_map, I. reflexivity.
  - rewrite nth_error_app2 by (rewrite map_length; lia). rewrite map_length. replace (i + (length la + j * length la) - length la)%nat with (i + j * length la)%nat by lia.
    apply IH; assumption.
Qed.
Lemma Forall2_nth_error : forall {A B} (P : A -> B -> Prop) l m, Forall2 P l m -> forall k x, nth_error l k = Some x -> exists y, nth_error m k = Some y /\ P x y.
Proof. intros A B P l m F. induction F as [|x y l m H F IH]; intros [|k] z E; try discriminate; simpl in *; [injection E as <-; eauto|apply IH, E]. Qed.
Lemma rows_spec : forall F x0 hx y0 hy nx ny g la lb flat, Forall2 (interpolated x0 hx y0 hy nx ny g) (flat_map (fun b => map (fun a => F a b) la) lb) flat ->
  regridded F x0 hx y0 hy nx ny g la lb (rows flat (length la) (length lb)).
Proof.
  intros F x0 hx y0 hy nx ny g la lb flat Q. split; [|split].
  - unfold rows. rewrite map_length, seq_length. reflexivity.
  - unfold rows. apply Forall_forall. intros r I. apply in_map_iff in I. destruct I as (j & <- & _). rewrite map_length, seq_length. reflexivity.
  - intros i j a b I J. assert (IL : (i < length la)%nat) by (apply nth_error_Some; rewrite I; discriminate). assert (JL : (j < length lb)%nat) by (apply nth_error_Some; rewrite J; discriminate).
    destruct (Forall2_nth_error _ _ _ Q _ _ (flat_nth F la lb i j a b I J)) as (v & V & P).
    exists (map (fun i => nth (i + j * length la) flat None) (seq 0 (length la))), v. split; [|split; [|exact P]].
    + unfold rows. rewrite nth_error_map, (nth_error_nth' (seq 0 (length lb)) 0%nat) by (rewrite seq_length; exact JL). rewrite seq_nth by exact JL. reflexivity.
    + rewrite nth_error_map, (nth_error_nth' (seq 0 (length la)) 0%nat) by (rewrite seq_length; exact IL). rewrite seq_nth by exact IL. simpl.
      f_equal. apply nth_error_nth. exact V.
Qed.
Theorem to_tthphi_spec : forall g0 hg n0 hn ng nn g l_ttheta l_phi, 0 < hg -> 0 < hn -> (2 <= ng)%nat -> (2 <= nn)%nat ->
  exists M, recal_int_to_tthphi_grid (uniform g0 hg ng) (uniform n0 hn nn) (table g ng nn) l_ttheta l_phi = Some M /\
    regridded tthphi_to_gammanu g0 hg n0 hn ng nn g l_ttheta l_phi M.
Proof.
  intros. unfold recal_int_to_tthphi_grid. cbv zeta. destruct (app_grid_spec g0 hg n0 hn ng nn g (flat_map (fun phi => map (fun tth => tthphi_to_gammanu tth phi) l_ttheta) l_phi)) as (vs & E & Q); try assumption.
  rewrite E. eexists; split; [reflexivity|]. apply rows_spec. exact Q.
Qed.
Theorem to_gammanu_spec : forall t0 ht p0 hp nt np g l_gamma l_nu, 0 < ht -> 0 < hp -> (2 <= nt)%nat -> (2 <= np)%nat ->
  exists M, recal_int_to_gammanu_grid (uniform t0 ht nt) (uniform p0 hp np) (table g nt np) l_gamma l_nu = Some M /\
    regridded gammanu_to_tthphi t0 ht p0 hp nt np g l_gamma l_nu M.
Proof.
  intros. unfold recal_int_to_gammanu_grid. cbv zeta. destruct (app_grid_spec t0 ht p0 hp nt np g (flat_map (fun nu => map (fun ga => gammanu_to_tthphi ga nu) l_gamma) l_nu)) as (vs & E & Q); try assumption.
  rewrite E. eexists; split; [reflexivity|]. apply rows_spec. exact Q.
Qed.
Theorem same_transfers : forall a b, gammanu_to_tthphi a b = calc_ttheta_phi_by_gamma_nu a b /\ tthphi_to_gammanu a b = calc_gamma_nu_by_ttheta_phi a b.
Proof. intros. unfold gammanu_to_tthphi, calc_ttheta_phi_by_gamma_nu, tthphi_to_gammanu, calc_gamma_nu_by_ttheta_phi. cbv zeta. split; f_equal; f_equal; ring. Qed.
(* a grid that is not uniform: the value at a node is not the measured one *)
Theorem not_uniform : app_grid [[Some 0; Some 1; Some 0]; [Some 0; Some 1; Some 0]] [0; 1; 4] [0; 1] [(1, 0)] = Some [Some (1/2)].
Proof.
  unfold app_grid. cbn [length Nat.eqb last map]. replace (INR 3 - 1) with 2 by (simpl; ring). replace (INR 2 - 1) with 1 by (simpl; ring).
  destruct (Req_EM_T ((4 - 0) / 2) 0); [lra|]. destruct (Req_EM_T ((1 - 0) / 1) 0); [lra|]. unfold app_point. cbn [fst snd]. cbv zeta.
  replace ((1 - 0) / ((4 - 0) / 2)) with (1/2) by field. replace ((0 - 0) / ((1 - 0) / 1)) with 0 by field.
  replace (INR 3 - 1) with 2 by (simpl; ring). replace (INR 2 - 1) with 1 by (simpl; ring).
  destruct (Rle_dec 0 (1/2)); [|lra]. destruct (Rlt_dec (1/2) 2); [|lra]. destruct (Rle_dec 0 0); [|lra]. destruct (Rlt_dec 0 1); [|lra].
  assert (FL : floor (1/2) = 0%Z). { unfold floor. rewrite <- (tech_up (1/2) 1); [reflexivity|lra|lra]. }
  assert (FL0 : floor 0 = 0%Z). { unfold floor. rewrite <- (tech_up 0 1); [reflexivity|lra|lra]. }
  unfold frac. rewrite FL, FL0. simpl. do 3 f_equal. lra.
Qed.
Lemma regridded_ext : forall F G x0 hx y0 hy nx ny g la lb M, (forall a b, F a b = G a b) -> regridded F x0 hx y0 hy nx ny g la lb M -> regridded G x0 hx y0 hy nx ny g la lb M.
Proof. intros F G x0 hx y0 hy nx ny g la lb M E (A & B & C). split; [exact A|split; [exact B|]]. intros i j a b I J. rewrite <- E. apply C; assumption. Qed.
Theorem to_tthphi_spec' : forall g0 hg n0 hn ng nn g l_ttheta l_phi, 0 < hg -> 0 < hn -> (2 <= ng)%nat -> (2 <= nn)%nat ->
  exists M, recal_int_to_tthphi_grid (uniform g0 hg ng) (uniform n0 hn nn) (table g ng nn) l_ttheta l_phi = Some M /\
    regridded calc_gamma_nu_by_ttheta_phi g0 hg n0 hn ng nn g l_ttheta l_phi M.
Proof.
  intros g0 hg n0 hn ng nn g lt lp A B C D. destruct (to_tthphi_spec g0 hg n0 hn ng nn g lt lp A B C D) as (M & E & Q). exists M. split; [exact E|].
  revert Q. apply regridded_ext. intros a b. apply same_transfers.
Qed.
Theorem to_gammanu_spec' : forall t0 ht p0 hp nt np g l_gamma l_nu, 0 < ht -> 0 < hp -> (2 <= nt)%nat -> (2 <= np)%nat ->
  exists M, recal_int_to_gammanu_grid (uniform t0 ht nt) (uniform p0 hp np) (table g nt np) l_gamma l_nu = Some M /\
    regridded calc_ttheta_phi_by_gamma_nu t0 ht p0 hp nt np g l_gamma l_nu M.
Proof.
  intros t0 ht p0 hp nt np g lt lp A B C D. destruct (to_gammanu_spec t0 ht p0 hp nt np g lt lp A B C D) as (M & E & Q). exists M. split; [exact E|].
  revert Q. apply regridded_ext. intros a b. apply same_transfers.
Qed.
