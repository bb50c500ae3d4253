From Coq Require Import Reals Lra Lia List String Bool Arith ZArith.
From Verif Require Import Spec.Lin3 Spec.Cell Spec.Symm Spec.Density Model.MatrixOps Model.UnitCell Model.Background Model.Mem
  Proofs.BackgroundP Proofs.UnitCellP Proofs.MemP.
Import ListNotations.
Open Scope list_scope.
Open Scope R_scope.

(* ---- argmin ---- *)
Lemma argmin_from_spec : forall l best ib i, (ib < i)%nat ->
  let k := argmin_from best ib i l in
  (k = ib /\ (forall x, In x l -> best <= x)) \/
  ((i <= k < i + List.length l)%nat /\ nth (k - i) l 0 < best /\ (forall x, In x l -> nth (k - i) l 0 <= x)).
Proof.
  induction l as [|x l IH]; intros best ib i Hi; cbn zeta; cbn [argmin_from].
  { left. split; [reflexivity|]. intros x []. }
  destruct (Rlt_dec x best) as [Hx|Hx].
  - destruct (IH x i (S i) ltac:(lia)) as [[E H]|[H1 [H2 H3]]].
    + right. rewrite E. cbn [List.length]. split; [lia|]. replace (i - i)%nat with 0%nat by lia. cbn [nth]. split; [exact Hx|].
      intros y [<-|Hy]; [lra|apply H; exact Hy].
    + right. set (k := argmin_from x i (S i) l) in *. cbn [List.length]. split; [lia|].
      replace (k - i)%nat with (S (k - S i)) by lia. cbn [nth]. split; [lra|].
      intros y [<-|Hy]; [lra|apply H3; exact Hy].
  - destruct (IH best ib (S i) ltac:(lia)) as [[E H]|[H1 [H2 H3]]].
    + left. split; [exact E|]. intros y [<-|Hy]; [lra|apply H; exact Hy].
    + right. set (k := argmin_from best ib (S i) l) in *. cbn [List.length]. split; [lia|].
      replace (k - i)%nat with (S (k - S i)) by lia. cbn [nth]. split; [lra|].
      intros y [<-|Hy]; [lra|apply H3; exact Hy].
Qed.
Lemma argmin_spec : forall l, l <> [] -> (argmin l < List.length l)%nat /\ nth (argmin l) l 0 = lmin l.
Proof.
  intros [|x l] H; [congruence|]. cbn [argmin].
  assert (G : forall k, (k < List.length (x :: l))%nat -> (forall y, In y (x :: l) -> nth k (x :: l) 0 <= y) ->
              nth k (x :: l) 0 = lmin (x :: l)).
  { intros k Hk Hy. apply Rle_antisym; [apply Hy, lmin_in; discriminate|apply lmin_le, nth_In; exact Hk]. }
  destruct (argmin_from_spec l x 0 1 ltac:(lia)) as [[E Hm]|[H1 [H2 H3]]].
  - rewrite E. split; [cbn; lia|]. apply G; [cbn; lia|]. intros y [<-|Hy]; cbn [nth]; [lra|apply Hm; exact Hy].
  - set (k := argmin_from x 0 1 l) in *. split; [cbn [List.length]; lia|]. apply G; [cbn [List.length]; lia|].
    assert (Ek : nth k (x :: l) 0 = nth (k - 1) l 0) by (destruct k; [lia|]; cbn [nth]; f_equal; lia).
    rewrite Ek. intros y [<-|Hy]; [lra|apply H3; exact Hy].
Qed.

(* ---- mod 1 and wrapping ---- *)
Lemma mod1_range : forall x, 0 <= mod1 x < 1.
Proof. intros x. unfold mod1. destruct (base_Int_part x). lra. Qed.
Lemma mod1_small : forall x, 0 <= x < 1 -> mod1 x = x.
Proof.
  intros x H. unfold mod1. assert (E : Int_part x = 0%Z).
  { unfold Int_part. rewrite <- (tech_up x 1); [reflexivity|cbn; lra|cbn; lra]. }
  rewrite E. lra.
Qed.
Lemma wrap_spec : forall a b, 0 <= a < 1 -> 0 <= b < 1 ->
  (exists k : Z, wrap (a - b) = a - b + IZR k) /\ Rabs (wrap (a - b)) <= 1 / 2.
Proof.
  intros a b Ha Hb. unfold wrap. destruct (Rlt_dec (1 / 2) (Rabs (a - b))) as [H|H].
  - destruct (Rle_dec 0 (a - b)) as [H0|H0].
    + split; [exists (-1)%Z; cbn; lra|]. rewrite Rabs_right in H by lra. apply Rabs_le. lra.
    + split; [exists 1%Z; cbn; lra|]. rewrite Rabs_left in H by lra. apply Rabs_le. lra.
  - split; [exists 0%Z; cbn; lra|]. lra.
Qed.
Lemma half_min : forall w (n : Z), Rabs w <= 1 / 2 -> Rabs w <= Rabs (w + IZR n).
Proof.
  intros w n Hw. destruct (Z.eq_dec n 0) as [->|Hn]; [rewrite Rplus_0_r; lra|].
  assert (1 <= Rabs (IZR n)) by (rewrite <- abs_IZR; apply IZR_le; lia).
  pose proof (Rabs_triang (w + IZR n) (- w)) as T. replace (w + IZR n + - w) with (IZR n) in T by lra.
  rewrite Rabs_Ropp in T. lra.
Qed.
Lemma half_unique : forall w (n : Z), Rabs w <= 1 / 2 -> Rabs (w + IZR n) < 1 / 2 -> n = 0%Z.
Proof.
  intros w n Hw Hn. destruct (Z.eq_dec n 0) as [E|E]; [exact E|exfalso].
  assert (1 <= Rabs (IZR n)) by (rewrite <- abs_IZR; apply IZR_le; lia).
  pose proof (Rabs_triang (w + IZR n) (- w)) as T. replace (w + IZR n + - w) with (IZR n) in T by lra.
  rewrite Rabs_Ropp in T. lra.
Qed.

(* ---- one distance ---- *)
Definition wr (p a : V3 R) (e : Op) : V3 R := v_map wrap (v_sub (v_map mod1 p) (fract_atom_s e a)).
Definition near (p a : V3 R) (e : Op) : ix -> R := fun i => vget p i - vget (wr p a e) i.
Lemma act_vget : forall e a i,
  vget (fract_atom_s e a) i = mod1 (act e (vget a) i).
Proof.
  intros [b d r] [a1 a2 a3] i. destruct r, b. unfold act, sum3, fract_atom_s, v_map, v_add, calc_m_v, m_real.
  destruct i; cbn; f_equal; lra.
Qed.
Lemma wr_spec : forall p a e i, (exists k : Z, vget (wr p a e) i = vget p i - act e (vget a) i + IZR k) /\
  Rabs (vget (wr p a e) i) <= 1 / 2.
Proof.
  intros p a e i.
  assert (E : vget (wr p a e) i = wrap (mod1 (vget p i) - mod1 (act e (vget a) i))).
  { rewrite <- act_vget. unfold wr, v_map, v_sub. destruct i; reflexivity. }
  rewrite E. destruct (wrap_spec (mod1 (vget p i)) (mod1 (act e (vget a) i)) (mod1_range _) (mod1_range _)) as [[k Hk] H].
  split; [|exact H]. rewrite Hk. unfold mod1. exists (k - Int_part (vget p i) + Int_part (act e (vget a) i))%Z.
  rewrite plus_IZR, minus_IZR. lra.
Qed.
Lemma near_image : forall p a e, image_of e (vget a) (near p a e).
Proof.
  intros p a e i. destruct (wr_spec p a e i) as [[k Hk] _]. exists (- k)%Z. unfold near. rewrite Hk, opp_IZR. lra.
Qed.
Lemma dist_sq_near : forall uc p a e, nondegenerate uc -> dist_sq_3d uc p a e = distance_sq uc (vget p) (near p a e).
Proof.
  intros uc p a e H. unfold dist_sq_3d. fold (wr p a e). unfold distance_sq, near.
  pose proof (mt_m_metric uc H) as G.
  assert (G' : forall i j, metric uc i j = sum3 (fun k => mget (calc_m_m uc) k i * mget (calc_m_m uc) k j)) by (intros; symmetry; apply G).
  cbv [sum3]. rewrite !G'. destruct (wr p a e) as [w1 w2 w3]. destruct (calc_m_m uc) as [m11 m12 m13 m21 m22 m23 m31 m32 m33].
  cbv [sum3 vget mget calc_m_v v_1 v_2 v_3 m_11 m_12 m_13 m_21 m_22 m_23 m_31 m_32 m_33 Rsqr]. ring.
Qed.
Lemma dist_sq_nonneg : forall uc p a e, 0 <= dist_sq_3d uc p a e.
Proof. intros. unfold dist_sq_3d. pose proof Rle_0_sqr as S. repeat apply Rplus_le_le_0_compat; apply S. Qed.

Lemma metric_ortho : forall uc x y, orthogonal uc ->
  distance_sq uc x y = (u_a uc * (x X1 - y X1)) ^ 2 + (u_b uc * (x X2 - y X2)) ^ 2 + (u_c uc * (x X3 - y X3)) ^ 2.
Proof.
  intros uc x y [Ha [Hb Hc]]. unfold distance_sq, metric, axis_cos, axis_len, sum3. rewrite Ha, Hb, Hc, cos_PI2. ring.
Qed.
Lemma sq_le : forall c u v, Rabs u <= Rabs v -> (c * u) ^ 2 <= (c * v) ^ 2.
Proof.
  intros c u v H. rewrite !Rpow_mult_distr. apply Rmult_le_compat_l; [apply pow2_ge_0|].
  rewrite <- (pow2_abs u), <- (pow2_abs v). apply pow_incr. split; [apply Rabs_pos|exact H].
Qed.
Lemma near_min_ortho : forall uc p a e y, orthogonal uc -> image_of e (vget a) y ->
  distance_sq uc (vget p) (near p a e) <= distance_sq uc (vget p) y.
Proof.
  intros uc p a e y Ho Hy. rewrite !metric_ortho by exact Ho.
  assert (G : forall i, Rabs (vget p i - near p a e i) <= Rabs (vget p i - y i)).
  { intros i. destruct (wr_spec p a e i) as [[k Hk] Hw]. destruct (Hy i) as [n Hn].
    unfold near. replace (vget p i - (vget p i - vget (wr p a e) i)) with (vget (wr p a e) i) by lra.
    replace (vget p i - y i) with (vget (wr p a e) i + IZR (- k - n)) by (rewrite Hk, Hn, minus_IZR, opp_IZR; lra).
    apply half_min. exact Hw. }
  pose proof (sq_le (u_a uc) _ _ (G X1)). pose proof (sq_le (u_b uc) _ _ (G X2)). pose proof (sq_le (u_c uc) _ _ (G X3)). lra.
Qed.
Lemma near_half : forall p a e y, image_of e (vget a) y -> (forall i, Rabs (vget p i - y i) < 1 / 2) ->
  forall i, y i = near p a e i.
Proof.
  intros p a e y Hy Hh i. destruct (wr_spec p a e i) as [[k Hk] Hw]. destruct (Hy i) as [n Hn].
  assert (E : vget p i - y i = vget (wr p a e) i + IZR (- k - n)) by (rewrite Hk, Hn, minus_IZR, opp_IZR; lra).
  pose proof (Hh i) as Hi. rewrite E in Hi. pose proof (half_unique _ _ Hw Hi) as Ez. rewrite Ez in E. unfold near. lra.
Qed.
Lemma distance_sq_ext : forall uc x y z, (forall i, y i = z i) -> distance_sq uc x y = distance_sq uc x z.
Proof. intros uc x y z H. unfold distance_sq, sum3. rewrite !H. reflexivity. Qed.

(* ---- the search ---- *)
Lemma map_ne : forall A B (f : A -> B) l, l <> [] -> map f l <> [].
Proof. intros A B f [|x l] H; [congruence|discriminate]. Qed.
Lemma closest_some : forall uc p atoms symms, atoms <> [] -> symms <> [] ->
  let over_sym := map (fun a => lmin (map (fun e => dist_sq_3d uc p a e) symms)) atoms in
  let over_at := map (fun e => lmin (map (fun a => dist_sq_3d uc p a e) atoms)) symms in
  closest uc p atoms symms = Some (argmin over_sym, argmin over_at, sqrt (lmin over_sym)).
Proof. intros uc p [|a l] [|e s] Ha Hs; congruence || reflexivity. Qed.

Definition v0 : V3 R := mkV 0 0 0.
Lemma search : forall (A B : Type) (f : A -> B -> R) (la : list A) (lb : list B) (a0 : A) (b0 : B),
  la <> [] -> lb <> [] ->
  let oa := map (fun a => lmin (map (f a) lb)) la in
  let ob := map (fun b => lmin (map (fun a => f a b) la)) lb in
  lmin ob = lmin oa /\
  (argmin oa < List.length la)%nat /\ (argmin ob < List.length lb)%nat /\
  (exists b, In b lb /\ f (nth (argmin oa) la a0) b = lmin oa) /\
  (exists a, In a la /\ f a (nth (argmin ob) lb b0) = lmin oa) /\
  (forall a b, In a la -> In b lb -> lmin oa <= f a b).
Proof.
  intros A B f la lb a0 b0 Ha Hb oa ob.
  assert (Hoa : oa <> []) by (apply map_ne; exact Ha). assert (Hob : ob <> []) by (apply map_ne; exact Hb).
  destruct (argmin_spec oa Hoa) as [La Na]. destruct (argmin_spec ob Hob) as [Lb Nb].
  unfold oa in La at 2. unfold ob in Lb at 2. rewrite map_length in La, Lb.
  assert (M : forall a b, In a la -> In b lb -> lmin oa <= f a b).
  { intros a b Ia Ib. apply Rle_trans with (lmin (map (f a) lb)).
    - apply lmin_le. unfold oa. apply (in_map (fun a => lmin (map (f a) lb))). exact Ia.
    - apply lmin_le. apply in_map. exact Ib. }
  assert (Ea : exists b, In b lb /\ f (nth (argmin oa) la a0) b = lmin oa).
  { rewrite <- Na. unfold oa at 3. rewrite (map_nth_lt _ _ (fun a => lmin (map (f a) lb)) la _ a0 0 La).
    pose proof (lmin_in (map (f (nth (argmin oa) la a0)) lb) (map_ne _ _ _ _ Hb)) as I.
    apply in_map_iff in I as [b [E I]]. exists b. split; [exact I|exact E]. }
  assert (Eb : exists a, In a la /\ f a (nth (argmin ob) lb b0) = lmin ob).
  { rewrite <- Nb. unfold ob at 3. rewrite (map_nth_lt _ _ (fun b => lmin (map (fun a => f a b) la)) lb _ b0 0 Lb).
    pose proof (lmin_in (map (fun a => f a (nth (argmin ob) lb b0)) la) (map_ne _ _ _ _ Ha)) as I.
    apply in_map_iff in I as [a [E I]]. exists a. split; [exact I|exact E]. }
  assert (M' : forall a b, In a la -> In b lb -> lmin ob <= f a b).
  { intros a b Ia Ib. apply Rle_trans with (lmin (map (fun a => f a b) la)).
    - apply lmin_le. unfold ob. apply (in_map (fun b => lmin (map (fun a => f a b) la))). exact Ib.
    - apply lmin_le. apply (in_map (fun a => f a b)). exact Ia. }
  assert (E : lmin ob = lmin oa).
  { apply Rle_antisym.
    - destruct Ea as [b [Ib <-]]. apply M'; [apply nth_In; exact La|exact Ib].
    - destruct Eb as [a [Ia <-]]. apply M; [exact Ia|apply nth_In; exact Lb]. }
  split; [exact E|]. split; [exact La|]. split; [exact Lb|]. split; [exact Ea|]. split; [|exact M].
  rewrite <- E. exact Eb.
Qed.

Lemma closest_facts : forall uc p atoms symms ia is d, nondegenerate uc -> closest uc p atoms symms = Some (ia, is, d) ->
  (ia < List.length atoms)%nat /\ (is < List.length symms)%nat /\ 0 <= d /\
  (exists e, In e symms /\ d ^ 2 = distance_sq uc (vget p) (near p (nth ia atoms v0) e)) /\
  (exists a, In a atoms /\ d ^ 2 = distance_sq uc (vget p) (near p a (nth is symms id_op))) /\
  (forall a e, In a atoms -> In e symms -> d ^ 2 <= distance_sq uc (vget p) (near p a e)).
Proof.
  intros uc p atoms symms ia is d Huc Hc.
  assert (Ha : atoms <> []) by (destruct atoms; [discriminate|discriminate]).
  assert (Hs : symms <> []) by (destruct atoms, symms; discriminate).
  rewrite closest_some in Hc by assumption. cbn zeta in Hc.
  destruct (search _ _ (fun a e => dist_sq_3d uc p a e) atoms symms v0 id_op Ha Hs) as (E & La & Ls & Ea & Eb & M).
  cbv beta in *.
  set (oa := map (fun a => lmin (map (fun e => dist_sq_3d uc p a e) symms)) atoms) in *.
  set (ob := map (fun e => lmin (map (fun a => dist_sq_3d uc p a e) atoms)) symms) in *.
  assert (Hc' : argmin oa = ia /\ argmin ob = is /\ sqrt (lmin oa) = d) by (split; [|split]; congruence).
  destruct Hc' as (Eia & Eis & Ed). change (fun e => dist_sq_3d uc p ?a e) with (dist_sq_3d uc p a) in *.
  fold oa in La, Ea, Eb, M. rewrite Eia in *. rewrite Eis in *.
  assert (P : 0 <= lmin oa) by (destruct Ea as [e [_ <-]]; apply dist_sq_nonneg).
  assert (Sq : d ^ 2 = lmin oa) by (rewrite <- Ed; apply pow2_sqrt; exact P).
  split; [exact La|]. split; [exact Ls|]. split; [rewrite <- Ed; apply sqrt_pos|].
  rewrite Sq. split; [|split].
  - destruct Ea as [e [I E1]]. exists e. split; [exact I|]. rewrite <- E1. apply dist_sq_near; exact Huc.
  - destruct Eb as [a [I E1]]. exists a. split; [exact I|]. rewrite <- E1. apply dist_sq_near; exact Huc.
  - intros a e I J. rewrite <- dist_sq_near by exact Huc. apply M; assumption.
Qed.

Theorem closest_attained : forall uc p atoms symms, nondegenerate uc -> atoms <> [] -> symms <> [] ->
  exists ia is d, closest uc p atoms symms = Some (ia, is, d) /\
    (ia < List.length atoms)%nat /\ (is < List.length symms)%nat /\ 0 <= d /\
    (exists e y, In e symms /\ image_of e (vget (nth ia atoms v0)) y /\ d ^ 2 = distance_sq uc (vget p) y) /\
    (exists j y, (j < List.length atoms)%nat /\ image_of (nth is symms id_op) (vget (nth j atoms v0)) y /\ d ^ 2 = distance_sq uc (vget p) y).
Proof.
  intros uc p atoms symms Huc Ha Hs. pose proof (closest_some uc p atoms symms Ha Hs) as E. cbn zeta in E.
  destruct (closest uc p atoms symms) as [[[ia is] d]|] eqn:Ec; [|discriminate]. clear E.
  exists ia, is, d. split; [reflexivity|].
  destruct (closest_facts uc p atoms symms ia is d Huc Ec) as (La & Ls & P & [e [Ie Ee]] & [a [Ja Ea]] & _).
  split; [exact La|]. split; [exact Ls|]. split; [exact P|]. split.
  - exists e, (near p (nth ia atoms v0) e). split; [exact Ie|]. split; [apply near_image|exact Ee].
  - destruct (In_nth _ _ v0 Ja) as [j [Lj Ej]]. exists j, (near p a (nth is symms id_op)). split; [exact Lj|]. rewrite Ej.
    split; [apply near_image|exact Ea].
Qed.
Theorem closest_orthogonal : forall uc p atoms symms ia is d, nondegenerate uc -> orthogonal uc ->
  closest uc p atoms symms = Some (ia, is, d) ->
  forall a e y, In a atoms -> In e symms -> image_of e (vget a) y -> d ^ 2 <= distance_sq uc (vget p) y.
Proof.
  intros uc p atoms symms ia is d Huc Ho Ec a e y Ia Ie Hy.
  destruct (closest_facts uc p atoms symms ia is d Huc Ec) as (_ & _ & _ & _ & _ & M).
  apply Rle_trans with (2 := near_min_ortho uc p a e y Ho Hy). apply M; assumption.
Qed.
Theorem closest_half : forall uc p atoms symms ia is d, nondegenerate uc ->
  closest uc p atoms symms = Some (ia, is, d) ->
  forall a e y, In a atoms -> In e symms -> image_of e (vget a) y -> (forall i, Rabs (vget p i - y i) < 1 / 2) ->
  d ^ 2 <= distance_sq uc (vget p) y.
Proof.
  intros uc p atoms symms ia is d Huc Ec a e y Ia Ie Hy Hh.
  destruct (closest_facts uc p atoms symms ia is d Huc Ec) as (_ & _ & _ & _ & _ & M).
  rewrite (distance_sq_ext uc _ y (near p a e)); [apply M; assumption|]. apply near_half; assumption.
Qed.
Theorem closest_pair : forall uc p atoms symms ia is d, nondegenerate uc ->
  closest uc p atoms symms = Some (ia, is, d) ->
  (forall j e y, (j < List.length atoms)%nat -> In e symms -> image_of e (vget (nth j atoms v0)) y ->
     distance_sq uc (vget p) y = d ^ 2 -> j = ia) ->
  exists y, image_of (nth is symms id_op) (vget (nth ia atoms v0)) y /\ d ^ 2 = distance_sq uc (vget p) y.
Proof.
  intros uc p atoms symms ia is d Huc Ec Hu.
  destruct (closest_facts uc p atoms symms ia is d Huc Ec) as (La & Ls & _ & _ & [a [Ja Ea]] & _).
  destruct (In_nth _ _ v0 Ja) as [j [Lj Ej]]. exists (near p a (nth is symms id_op)).
  assert (E : j = ia).
  { apply (Hu j (nth is symms id_op) (near p a (nth is symms id_op)) Lj); [apply nth_In; exact Ls| |symmetry; exact Ea].
    rewrite Ej. apply near_image. }
  rewrite <- E, Ej. split; [apply near_image|exact Ea].
Qed.
Theorem closest_pair_op : forall uc p atoms symms ia is d, nondegenerate uc ->
  closest uc p atoms symms = Some (ia, is, d) ->
  (forall k a y, (k < List.length symms)%nat -> In a atoms -> image_of (nth k symms id_op) (vget a) y ->
     distance_sq uc (vget p) y = d ^ 2 -> k = is) ->
  exists y, image_of (nth is symms id_op) (vget (nth ia atoms v0)) y /\ d ^ 2 = distance_sq uc (vget p) y.
Proof.
  intros uc p atoms symms ia is d Huc Ec Hu.
  destruct (closest_facts uc p atoms symms ia is d Huc Ec) as (La & Ls & _ & [e [Je Ee]] & _ & _).
  destruct (In_nth _ _ id_op Je) as [k [Lk Ek]]. exists (near p (nth ia atoms v0) e).
  assert (E : k = is).
  { apply (Hu k (nth ia atoms v0) (near p (nth ia atoms v0) e) Lk); [apply nth_In; exact La| |symmetry; exact Ee].
    rewrite Ek. apply near_image. }
  rewrite <- E, Ek. split; [apply near_image|exact Ee].
Qed.
