From Coq Require Import Reals Lra Lia List String Bool Arith ZArith.
From Verif Require Import Spec.Lin3 Spec.Cell Spec.Symm Spec.Density Model.MatrixOps Model.UnitCell Model.Background Model.Mem
  Proofs.BackgroundP Proofs.UnitCellP Proofs.MemP Proofs.MemP2.
Import ListNotations.
Open Scope list_scope.
Open Scope R_scope.

Definition cub : U6 R := mkU 1 1 1 (PI / 2) (PI / 2) (PI / 2).
Lemma cub_nd : nondegenerate cub.
Proof. unfold nondegenerate, cub. cbn [u_a u_b u_c u_al u_be u_ga]. pose proof PI_RGT_0. rewrite cos_PI2. repeat split; lra. Qed.
Lemma cub_orth : orthogonal cub.
Proof. repeat split. Qed.
Definition t_half : Op := mkE (mkV 1 0 0)%Z 2%Z (mkM 1 0 0 0 1 0 0 0 1)%Z.
Definition ops2 : list Op := [id_op; t_half].
Definition atA : V3 R := mkV (4 / 10) 0 0.
Definition atB : V3 R := mkV (1 / 10) 0 0.

Lemma act_id : forall x i, act id_op x i = x i.
Proof. intros x []; unfold act, id_op, sum3; cbn; lra. Qed.
Lemma act_half : forall x i, act t_half x i = x i + match i with X1 => 1 / 2 | _ => 0 end.
Proof. intros x []; unfold act, t_half, sum3; cbn; lra. Qed.
Lemma ops2_group : symmetry_group ops2.
Proof.
  split; [|split; [|split; [|split]]].
  - intros e [<-|[<-|[]]]; cbn; lia.
  - exists id_op. split; [left; reflexivity|]. intros x i. exists 0%Z. rewrite act_id. lra.
  - intros e f [<-|[<-|[]]] [<-|[<-|[]]].
    + exists id_op. split; [left; reflexivity|]. intros x i. exists 0%Z. rewrite !act_id. lra.
    + exists t_half. split; [right; left; reflexivity|]. intros x i. exists 0%Z. rewrite !act_id. lra.
    + exists t_half. split; [right; left; reflexivity|]. intros x i. exists 0%Z. rewrite !act_half, !act_id. lra.
    + exists id_op. split; [left; reflexivity|]. intros x i. exists (match i with X1 => -1 | _ => 0 end)%Z.
      rewrite act_id, !act_half. destruct i; cbn; lra.
  - intros e [<-|[<-|[]]].
    + exists id_op. split; [left; reflexivity|]. intros x i. exists 0%Z. rewrite !act_id. lra.
    + exists t_half. split; [right; left; reflexivity|]. intros x i. exists (match i with X1 => 1 | _ => 0 end)%Z.
      rewrite !act_half. destruct i; cbn; lra.
  - repeat constructor. intros H. destruct (H (fun _ => 0) X1) as [n Hn]. rewrite act_id, act_half in Hn.
    assert (Hz : IZR (2 * n) = IZR (-1)) by (rewrite mult_IZR; lra). apply eq_IZR in Hz. lia.
Qed.

Lemma wrap_small : forall d, -1/2 <= d <= 1/2 -> wrap d = d.
Proof. intros d H. unfold wrap. destruct (Rlt_dec (1 / 2) (Rabs d)) as [h|h]; [|reflexivity]. exfalso. assert (Rabs d <= 1/2) by (apply Rabs_le; lra). lra. Qed.
Lemma wrap_neg : forall d, -1 <= d < -1/2 -> wrap d = d + 1.
Proof.
  intros d H. unfold wrap. destruct (Rlt_dec (1 / 2) (Rabs d)) as [h|h]; [|exfalso; rewrite Rabs_left in h by lra; lra].
  destruct (Rle_dec 0 d) as [h1|h1]; lra.
Qed.
(* distance along one axis in the cubic cell *)
Lemma dist_cub : forall x, 0 <= x < 1 -> forall y e a, (forall i, act e (vget a) i = match i with X1 => y | _ => 0 end) ->
  0 <= y < 1 -> dist_sq_3d cub (mkV x 0 0) a e = (wrap (x - y)) ^ 2.
Proof.
  intros x Hx y e a He Hy. rewrite dist_sq_near by apply cub_nd. rewrite metric_ortho by apply cub_orth.
  unfold near, wr, v_map, v_sub. cbn [vget v_1 v_2 v_3 cub u_a u_b u_c].
  assert (E1 : v_1 (fract_atom_s e a) = y) by (change (vget (fract_atom_s e a) X1 = y); rewrite act_vget, He; apply mod1_small; exact Hy).
  assert (E2 : v_2 (fract_atom_s e a) = 0) by (change (vget (fract_atom_s e a) X2 = 0); rewrite act_vget, He; apply mod1_small; lra).
  assert (E3 : v_3 (fract_atom_s e a) = 0) by (change (vget (fract_atom_s e a) X3 = 0); rewrite act_vget, He; apply mod1_small; lra).
  rewrite E1, E2, E3. rewrite !mod1_small by lra. rewrite (wrap_small (0 - 0)) by lra. ring.
Qed.
Lemma dA0 : dist_sq_3d cub (mkV 0 0 0) atA id_op = 16 / 100.
Proof. rewrite (dist_cub 0 ltac:(lra) (4 / 10)); [rewrite wrap_small by lra; field|intros []; rewrite act_id; reflexivity|lra]. Qed.
Lemma dA1 : dist_sq_3d cub (mkV 0 0 0) atA t_half = 1 / 100.
Proof. rewrite (dist_cub 0 ltac:(lra) (9 / 10)); [rewrite wrap_neg by lra; field|intros []; rewrite act_half; cbn; lra|lra]. Qed.
Lemma dB0 : dist_sq_3d cub (mkV 0 0 0) atB id_op = 1 / 100.
Proof. rewrite (dist_cub 0 ltac:(lra) (1 / 10)); [rewrite wrap_small by lra; field|intros []; rewrite act_id; reflexivity|lra]. Qed.
Lemma dB1 : dist_sq_3d cub (mkV 0 0 0) atB t_half = 16 / 100.
Proof. rewrite (dist_cub 0 ltac:(lra) (6 / 10)); [rewrite wrap_neg by lra; field|intros []; rewrite act_half; cbn; lra|lra]. Qed.

Lemma rmin_l : forall x y, x <= y -> Rmin x y = x.
Proof. intros; apply Rmin_left; assumption. Qed.
Lemma rmin_r : forall x y, y <= x -> Rmin x y = y.
Proof. intros; apply Rmin_right; assumption. Qed.
Lemma closest_tie : closest cub (mkV 0 0 0) [atA; atB] ops2 = Some (0%nat, 0%nat, 1 / 10).
Proof.
  unfold closest, ops2. cbn [map lmin fold_left]. rewrite dA0, dA1, dB0, dB1.
  rewrite (rmin_r (16 / 100) (1 / 100)) by lra. rewrite (rmin_l (1 / 100) (16 / 100)) by lra.
  rewrite (rmin_l (1 / 100) (1 / 100)) by lra. cbn [argmin argmin_from].
  destruct (Rlt_dec (1 / 100) (1 / 100)) as [h|_]; [exfalso; lra|].
  replace (1 / 100) with ((1 / 10) * (1 / 10)) by field. rewrite sqrt_square by lra. reflexivity.
Qed.
Theorem pair_refuted : exists uc p atoms symms ia is d,
  nondegenerate uc /\ orthogonal uc /\ symmetry_group symms /\
  closest uc p atoms symms = Some (ia, is, d) /\
  forall y, image_of (nth is symms id_op) (vget (nth ia atoms v0)) y -> d ^ 2 < distance_sq uc (vget p) y.
Proof.
  exists cub, (mkV 0 0 0), [atA; atB], ops2, 0%nat, 0%nat, (1 / 10).
  split; [apply cub_nd|]. split; [apply cub_orth|]. split; [apply ops2_group|]. split; [apply closest_tie|].
  intros y Hy. cbn [nth ops2] in Hy. rewrite metric_ortho by apply cub_orth. cbn [cub u_a u_b u_c vget v_1 v_2 v_3].
  destruct (Hy X1) as [n Hn]. rewrite act_id in Hn. cbn in Hn. rewrite Hn.
  assert (G : Rabs (4 / 10) <= Rabs (4 / 10 + IZR n)) by (apply half_min; rewrite Rabs_right; lra).
  pose proof (sq_le 1 _ _ G) as S.
  pose proof (pow2_ge_0 (1 * (0 - y X2))). pose proof (pow2_ge_0 (1 * (0 - y X3))).
  replace ((1 * (0 - (4 / 10 + IZR n))) ^ 2) with ((1 * (4 / 10 + IZR n)) ^ 2) by ring.
  assert ((1 * (4 / 10)) ^ 2 = 16 / 100) by field. assert ((1 / 10) ^ 2 = 1 / 100) by field. lra.
Qed.

(* skew cell *)
Definition skew : U6 R := mkU 1 1 10 (PI / 2) (PI / 2) (PI / 3).
Lemma skew_nd : nondegenerate skew.
Proof.
  unfold nondegenerate, skew. cbn [u_a u_b u_c u_al u_be u_ga]. pose proof PI_RGT_0. rewrite cos_PI2, cos_PI3.
  repeat split; lra.
Qed.
Lemma skew_dist : forall x y, distance_sq skew x y =
  (x X1 - y X1) ^ 2 + (x X2 - y X2) ^ 2 + (x X1 - y X1) * (x X2 - y X2) + 100 * (x X3 - y X3) ^ 2.
Proof.
  intros. unfold distance_sq, metric, axis_cos, axis_len, sum3, skew. cbn [u_a u_b u_c u_al u_be u_ga].
  rewrite cos_PI2, cos_PI3. field.
Qed.
Definition skA : V3 R := mkV (4 / 10) (4 / 10) 0.
Definition skB : V3 R := mkV 0 0 (6 / 100).
Lemma near_id : forall a, (forall i, 0 <= vget a i <= 1 / 2) -> forall i, near (mkV 0 0 0) a id_op i = vget a i.
Proof.
  intros a Ha i. unfold near, wr, v_map, v_sub.
  assert (G : forall i, vget (fract_atom_s id_op a) i = vget a i).
  { intros j. rewrite act_vget, act_id. apply mod1_small. specialize (Ha j). lra. }
  pose proof (G X1). pose proof (G X2). pose proof (G X3). cbn [vget] in *. pose proof (Ha X1). pose proof (Ha X2). pose proof (Ha X3).
  cbn [vget] in *.
  destruct i; cbn [vget v_1 v_2 v_3]; rewrite mod1_small by lra; rewrite wrap_small; lra.
Qed.
Lemma dskA : dist_sq_3d skew (mkV 0 0 0) skA id_op = 48 / 100.
Proof.
  rewrite dist_sq_near by apply skew_nd. rewrite skew_dist. rewrite !near_id by (intros []; cbn; lra). cbn. field.
Qed.
Lemma dskB : dist_sq_3d skew (mkV 0 0 0) skB id_op = 36 / 100.
Proof.
  rewrite dist_sq_near by apply skew_nd. rewrite skew_dist. rewrite !near_id by (intros []; cbn; lra). cbn. field.
Qed.
Lemma closest_skew : closest skew (mkV 0 0 0) [skA; skB] [id_op] = Some (1%nat, 0%nat, 6 / 10).
Proof.
  unfold closest. cbn [map lmin fold_left]. rewrite dskA, dskB. rewrite (rmin_r (48 / 100) (36 / 100)) by lra.
  cbn [argmin argmin_from]. destruct (Rlt_dec (36 / 100) (48 / 100)) as [_|h]; [|exfalso; lra].
  replace (36 / 100) with ((6 / 10) * (6 / 10)) by field. rewrite sqrt_square by lra. reflexivity.
Qed.
Lemma id_group : symmetry_group [id_op].
Proof.
  split; [|split; [|split; [|split]]].
  - intros e [<-|[]]; cbn; lia.
  - exists id_op. split; [left; reflexivity|]. intros x i. exists 0%Z. rewrite act_id. lra.
  - intros e f [<-|[]] [<-|[]]. exists id_op. split; [left; reflexivity|]. intros x i. exists 0%Z. rewrite !act_id. lra.
  - intros e [<-|[]]. exists id_op. split; [left; reflexivity|]. intros x i. exists 0%Z. rewrite !act_id. lra.
  - repeat constructor.
Qed.
Theorem skew_refuted : exists uc p atoms symms ia is d a e y,
  nondegenerate uc /\ symmetry_group symms /\ closest uc p atoms symms = Some (ia, is, d) /\
  In a atoms /\ In e symms /\ image_of e (vget a) y /\ distance_sq uc (vget p) y < d ^ 2 /\
  (* and the nearest atom is another one *)
  forall z e', In e' symms -> image_of e' (vget (nth ia atoms v0)) z -> distance_sq uc (vget p) y < distance_sq uc (vget p) z.
Proof.
  exists skew, (mkV 0 0 0), [skA; skB], [id_op], 1%nat, 0%nat, (6 / 10), skA, id_op,
    (fun i => match i with X1 => - 6 / 10 | X2 => 4 / 10 | X3 => 0 end).
  split; [apply skew_nd|]. split; [apply id_group|]. split; [apply closest_skew|]. split; [left; reflexivity|].
  split; [left; reflexivity|]. split.
  { intros i. exists (match i with X1 => -1 | _ => 0 end)%Z. rewrite act_id. destruct i; cbn; lra. }
  rewrite skew_dist. cbn [vget v_1 v_2 v_3]. split; [nra|].
  intros z e' [<-|[]] Hz. rewrite skew_dist. cbn [vget v_1 v_2 v_3].
  destruct (Hz X3) as [n Hn]. rewrite act_id in Hn. cbn in Hn. rewrite Hn.
  assert (G : Rabs (6 / 100) <= Rabs (6 / 100 + IZR n)) by (apply half_min; rewrite Rabs_right; lra).
  pose proof (sq_le 1 _ _ G) as S.
  replace ((0 - (6 / 100 + IZR n)) ^ 2) with ((1 * (6 / 100 + IZR n)) ^ 2) by ring.
  assert ((1 * (6 / 100)) ^ 2 = 36 / 10000) by field.
  set (u := 0 - z X1). set (w := 0 - z X2).
  assert (0 <= u ^ 2 + w ^ 2 + u * w) by nra. nra.
Qed.

(* form_basins *)
Lemma opt_all_spec : forall A (l : list (option A)) r, opt_all l = Some r -> l = map Some r.
Proof.
  induction l as [|o l IH]; cbn; intros r H; [injection H as <-; reflexivity|].
  destruct o as [x|]; [|discriminate]. unfold opt_all in IH.
  destruct (fold_right _ (Some []) l) as [r'|]; [|discriminate]. injection H as <-. cbn. f_equal. apply IH. reflexivity.
Qed.
Lemma opt_all_some : forall A (l : list (option A)), (forall o, In o l -> o <> None) -> exists r, opt_all l = Some r.
Proof.
  induction l as [|o l IH]; intros H; [exists []; reflexivity|].
  destruct IH as [r Hr]; [intros o' I; apply H; right; exact I|]. cbn. unfold opt_all in Hr. rewrite Hr.
  destruct o as [x|]; [eexists; reflexivity|]. exfalso. apply (H None); [left; reflexivity|reflexivity].
Qed.
Theorem basins : forall uc symms atoms mag points, nondegenerate uc -> symms <> [] -> atoms <> [] ->
  exists flags rows, form_basins uc symms atoms mag points = Some (flags, rows) /\
    List.length flags = List.length points /\
    List.length rows = List.length (filter (fun b => b) flags) /\
    (forall label mult dist e, In (label, mult, dist, e) rows ->
       In label mag /\ In e symms /\ 0 <= dist /\
       exists xyz p f y, In (label, xyz, mult) atoms /\ In p points /\ In f symms /\
         image_of f (vget xyz) y /\ dist ^ 2 = distance_sq uc (vget p) y) /\
    (forall k, (k < List.length points)%nat ->
       exists label xyz mult ia is d, nth_error atoms ia = Some (label, xyz, mult) /\
         closest uc (nth k points v0) (map (fun a => snd (fst a)) atoms) symms = Some (ia, is, d) /\
         (nth k flags false = true <-> In label mag)).
Proof.
  intros uc symms atoms mag points Huc Hs Ha.
  assert (Hxyz : map (fun a : string * V3 R * R => snd (fst a)) atoms <> []) by (apply map_ne; exact Ha).
  assert (B : forall p, exists label xyz mult ia is d, nth_error atoms ia = Some (label, xyz, mult) /\
     closest uc p (map (fun a => snd (fst a)) atoms) symms = Some (ia, is, d) /\ (is < List.length symms)%nat /\ 0 <= d /\
     (exists f y, In f symms /\ image_of f (vget xyz) y /\ d ^ 2 = distance_sq uc (vget p) y) /\
     basin_point uc symms atoms mag p = Some (existsb (String.eqb label) mag, (label, mult, d, nth is symms id_op))).
  { intros p. destruct (closest_attained uc p _ symms Huc Hxyz Hs) as (ia & is & d & Ec & La & Ls & P & [e [y [Ie [Hy Ed]]]] & _).
    rewrite map_length in La. destruct (nth_error atoms ia) as [[[label xyz] mult]|] eqn:En; [|apply nth_error_None in En; lia].
    assert (Ex : nth ia (map (fun a : string * V3 R * R => snd (fst a)) atoms) v0 = xyz).
    { rewrite (map_nth_lt _ _ _ atoms ia (label, xyz, mult) v0 La). rewrite (nth_error_nth _ _ _ En). reflexivity. }
    rewrite Ex in Hy.
    exists label, xyz, mult, ia, is, d. split; [exact En|]. split; [exact Ec|]. split; [exact Ls|]. split; [exact P|].
    split; [exists e, y; auto|]. unfold basin_point. rewrite Ec. rewrite (nth_error_nth _ _ _ En). reflexivity. }
  destruct (opt_all_some _ (map (basin_point uc symms atoms mag) points)) as [r Hr].
  { intros o I. apply in_map_iff in I as [p [<- _]]. destruct (B p) as (l & x & m & ia & is & d & _ & _ & _ & _ & _ & E). rewrite E. discriminate. }
  pose proof (opt_all_spec _ _ _ Hr) as Er.
  assert (Lr : List.length r = List.length points) by (apply (f_equal (@List.length _)) in Er; rewrite !map_length in Er; symmetry; exact Er).
  exists (map fst r), (map snd (filter fst r)). unfold form_basins. rewrite Hr. split; [reflexivity|].
  split; [rewrite map_length; exact Lr|]. split.
  { rewrite map_length. clear. induction r as [|[b x] r IH]; cbn; [reflexivity|]. destruct b; cbn; rewrite IH; reflexivity. }
  split.
  - intros label mult dist e I. apply in_map_iff in I as [[b x] [Ex I]]. cbn in Ex. subst x. apply filter_In in I as [I Eb]. cbn in Eb. subst b.
    assert (J : In (Some (true, (label, mult, dist, e))) (map (basin_point uc symms atoms mag) points)) by (rewrite Er; apply in_map; exact I).
    apply in_map_iff in J as [p [Ep Ip]].
    destruct (B p) as (l & xyz & m & ia & is & d & En & _ & Ls & P & (f & y & If & Hy & Hd) & E). rewrite E in Ep.
    injection Ep as Eb <- <- <- <-. split.
    { apply existsb_exists in Eb as [s [Is Es]]. apply String.eqb_eq in Es. subst s. exact Is. }
    split; [apply nth_In; exact Ls|]. split; [exact P|]. exists xyz, p, f, y. split; [apply (nth_error_In _ _ En)|]. auto.
  - intros k Hk. destruct (B (nth k points v0)) as (l & xyz & m & ia & is & d & En & Ec & Ls & P & _ & E).
    exists l, xyz, m, ia, is, d. split; [exact En|]. split; [exact Ec|].
    assert (Ek : nth k (map Some r) None = basin_point uc symms atoms mag (nth k points v0)) by (rewrite <- Er; apply map_nth_lt; exact Hk).
    rewrite E in Ek. rewrite (map_nth_lt _ _ (@Some _) r k (false, (""%string, 0, 0, id_op)) None) in Ek by lia.
    injection Ek as Ek. rewrite (map_nth_lt _ _ (@fst _ _) r k (false, (""%string, 0, 0, id_op)) false) by lia. rewrite Ek. cbn [fst].
    split; intros H.
    + apply existsb_exists in H as [s [Is Es]]. apply String.eqb_eq in Es. subst s. exact Is.
    + apply existsb_exists. exists l. split; [exact H|apply String.eqb_refl].
Qed.
