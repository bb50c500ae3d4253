Require Import Reals Lra Lia List Bool Arith.
From Verif.Spec Require Import Interp.
From Verif.Model Require Import Background.
From Verif.Proofs Require Import BackgroundP.
Import ListNotations.
Local Open Scope R_scope.


Lemma len_ne : forall (A : Type) (l : list A), l <> [] -> (1 <= length l)%nat.
Proof. intros A [|a l] H; [congruence|simpl; lia]. Qed.

Lemma nth_mapL : forall (A B : Type) (f : A -> B) l k d e, (k < length l)%nat -> nth k (map f l) e = f (nth k l d).
Proof.
  intros. rewrite (nth_indep _ e (f d)) by (rewrite map_length; auto). apply map_nth.
Qed.

Lemma hd_nth : forall (A : Type) (l : list A) d, hd d l = nth 0 l d.
Proof. intros A [|a l] d; reflexivity. Qed.

Lemma last_nth : forall (A : Type) (l : list A) d, last l d = nth (length l - 1) l d.
Proof.
  induction l as [|a l IH]; intros d; [reflexivity|].
  destruct l as [|b l]; [reflexivity|].
  change (last (a :: b :: l) d) with (last (b :: l) d). rewrite IH.
  simpl length. replace (S (S (length l)) - 1)%nat with (S (S (length l) - 1)) by lia. reflexivity.
Qed.

Lemma ga_left_ok : forall ga ga_p s m, increasing ga_p -> ga_p <> [] -> rect (length ga_p) m s ->
  forall ga_p1 s1, ext_ga_left ga ga_p s = (ga_p1, s1) ->
  increasing ga_p1 /\ ga_p1 <> [] /\ rect (length ga_p1) m s1 /\ nth 0 ga_p1 0 <= lmin ga /\
  forall (h : list R -> R) t v, interp_const ga_p1 (fun i => h (nth i s1 [])) t v ->
    interp_const ga_p (fun i => h (nth i s [])) t v.
Proof.
  intros ga ga_p s m Hinc Hne [R1 R2] ga_p1 s1. unfold ext_ga_left, ext2_left, ltb_r.
  rewrite (incr_lmin ga_p Hinc Hne). pose proof (len_ne _ _ Hne) as Hl.
  destruct (Rlt_dec (lmin ga) (nth 0 ga_p 0)) as [H|H]; intros E; injection E as <- <-.
  - split; [apply incr_cons; auto|]. split; [discriminate|].
    split. { split; [simpl; lia|]. intros r [<-|Hr]; auto. apply R2. rewrite hd_nth. apply nth_In. lia. }
    split; [simpl; lra|]. intros h t v. apply const_left; auto.
    simpl nth. rewrite hd_nth. auto.
  - split; [auto|]. split; [auto|]. split; [split; auto|]. split; [lra|auto].
Qed.

Lemma ga_right_ok : forall ga ga_p s m, increasing ga_p -> ga_p <> [] -> rect (length ga_p) m s ->
  forall ga_p1 s1, ext_ga_right ga ga_p s = (ga_p1, s1) ->
  increasing ga_p1 /\ ga_p1 <> [] /\ rect (length ga_p1) m s1 /\
  nth 0 ga_p1 0 = nth 0 ga_p 0 /\ lmax ga < nth (length ga_p1 - 1) ga_p1 0 /\
  forall (h : list R -> R) t v, interp_const ga_p1 (fun i => h (nth i s1 [])) t v ->
    interp_const ga_p (fun i => h (nth i s [])) t v.
Proof.
  intros ga ga_p s m Hinc Hne [R1 R2] ga_p1 s1. unfold ext_ga_right, ext2_right, leb_r.
  rewrite (incr_lmax ga_p Hinc Hne). pose proof (len_ne _ _ Hne) as Hl.
  destruct (Rle_dec (nth (length ga_p - 1) ga_p 0) (lmax ga)) as [H|H]; intros E; injection E as <- <-.
  - split; [apply incr_app; auto; intros; lra|].
    split. { destruct ga_p; discriminate. }
    unfold rect. rewrite app_length. simpl length.
    split. { unfold append_row. rewrite app_length. simpl length. split; [lia|].
      intros r Hr. apply in_app_or in Hr. destruct Hr as [Hr|[<-|[]]]; auto. apply R2.
      rewrite last_nth. apply nth_In. lia. }
    split; [rewrite app_nth1 by lia; auto|].
    split. { rewrite app_nth2 by lia. replace (length ga_p + 1 - 1 - length ga_p)%nat with 0%nat by lia. simpl; lra. }
    intros h t v. apply const_right; auto; try lra.
    + unfold append_row. rewrite app_nth2 by lia. rewrite R1, Nat.sub_diag. simpl nth at 1.
      rewrite last_nth. rewrite R1. auto.
    + intros i Hi. unfold append_row. rewrite app_nth1 by lia. auto.
  - split; [auto|]. split; [auto|]. split; [split; auto|]. split; [auto|]. split; [lra|auto].
Qed.

Lemma nu_left_ok : forall nu nu_p s, increasing nu_p -> nu_p <> [] ->
  forall nu_p1 s1, ext_nu_left nu nu_p s = (nu_p1, s1) ->
  increasing nu_p1 /\ nu_p1 <> [] /\ nth 0 nu_p1 0 <= lmin nu /\
  exists e : list R -> list R, s1 = map e s /\
    forall r, length r = length nu_p -> length (e r) = length nu_p1 /\
      forall t v, interp_const nu_p1 (fun j => nth j (e r) 0) t v -> interp_const nu_p (fun j => nth j r 0) t v.
Proof.
  intros nu nu_p s Hinc Hne nu_p1 s1. unfold ext_nu_left, ext2_left, ltb_r.
  rewrite (incr_lmin nu_p Hinc Hne). pose proof (len_ne _ _ Hne) as Hl.
  destruct (Rlt_dec (lmin nu) (nth 0 nu_p 0)) as [H|H]; intros E; injection E as <- <-.
  - split; [apply incr_cons; auto|]. split; [discriminate|]. split; [simpl; lra|].
    exists (fun r => hd 0 r :: r). split; [reflexivity|]. intros r Hr. split; [simpl; lia|].
    intros t v. apply const_left; auto. simpl. apply hd_nth.
  - split; [auto|]. split; [auto|]. split; [lra|].
    exists (fun r => r). split; [rewrite map_id; auto|]. auto.
Qed.

Lemma nu_right_ok : forall nu nu_p s, increasing nu_p -> nu_p <> [] ->
  forall nu_p1 s1, ext_nu_right nu nu_p s = (nu_p1, s1) ->
  increasing nu_p1 /\ nu_p1 <> [] /\ nth 0 nu_p1 0 = nth 0 nu_p 0 /\ lmax nu < nth (length nu_p1 - 1) nu_p1 0 /\
  exists e : list R -> list R, s1 = map e s /\
    forall r, length r = length nu_p -> length (e r) = length nu_p1 /\
      forall t v, interp_const nu_p1 (fun j => nth j (e r) 0) t v -> interp_const nu_p (fun j => nth j r 0) t v.
Proof.
  intros nu nu_p s Hinc Hne nu_p1 s1. unfold ext_nu_right, ext2_right, leb_r.
  rewrite (incr_lmax nu_p Hinc Hne). pose proof (len_ne _ _ Hne) as Hl.
  destruct (Rle_dec (nth (length nu_p - 1) nu_p 0) (lmax nu)) as [H|H]; intros E; injection E as <- <-.
  - split; [apply incr_app; auto; intros; lra|].
    split. { destruct nu_p; discriminate. }
    split; [rewrite app_nth1 by lia; auto|].
    split. { rewrite app_length. simpl length. rewrite app_nth2 by lia.
      replace (length nu_p + 1 - 1 - length nu_p)%nat with 0%nat by lia. simpl; lra. }
    exists (fun r => r ++ [last r 0]). split; [reflexivity|]. intros r Hr.
    split; [rewrite !app_length; simpl; lia|].
    intros t v. apply const_right; auto; try lra.
    + rewrite <- Hr. rewrite app_nth2 by lia. rewrite Nat.sub_diag. simpl. apply last_nth.
    + intros i Hi. rewrite app_nth1 by lia. auto.
  - split; [auto|]. split; [auto|]. split; [auto|]. split; [lra|].
    exists (fun r => r). split; [rewrite map_id; auto|]. auto.
Qed.

Lemma bkg2_point_seg : forall ga_p nu_p s i j t u,
  nth i ga_p 0 < nth (S i) ga_p 0 -> nth j nu_p 0 < nth (S j) nu_p 0 ->
  bkg2_point ga_p nu_p s i j t u =
  seg ga_p (fun i => seg nu_p (fun j => at2 s i j) j u) i t.
Proof.
  intros. unfold bkg2_point, seg, line, at_. cbv zeta.
  replace (i + 1)%nat with (S i) by lia. replace (j + 1)%nat with (S j) by lia. field. lra.
Qed.

Lemma calc_background_2d_ok : forall ga nu ga_p nu_p s,
  ga <> [] -> nu <> [] -> ga_p <> [] -> nu_p <> [] -> increasing ga_p -> increasing nu_p ->
  rect (length ga_p) (length nu_p) s ->
  exists out, calc_background_2d ga nu ga_p nu_p s = Some out /\
    length out = length ga /\
    forall k l, (k < length ga)%nat -> (l < length nu)%nat ->
      interp_bilinear ga_p nu_p (fun i j => nth j (nth i s []) 0) (nth k ga 0) (nth l nu 0)
        (nth l (nth k out []) 0).
Proof.
  intros ga nu ga_p nu_p s Hga Hnu Hgp Hnp Ig In_ Hr.
  assert (EQ : calc_background_2d ga nu ga_p nu_p s =
      let '(ga_p1, s1) := ext_ga_left ga ga_p s in
      let '(ga_p2, s2) := ext_ga_right ga ga_p1 s1 in
      let '(nu_p1, s3) := ext_nu_left nu nu_p s2 in
      let '(nu_p2, s4) := ext_nu_right nu nu_p1 s3 in
      let arg_ga := argwhere_cols ga_p2 ga in
      let arg_nu := argwhere_cols nu_p2 nu in
      if ((length arg_ga =? length ga) && (length arg_nu =? length nu))%nat then
        Some (map (fun q => map (fun p =>
                bkg2_point ga_p2 nu_p2 s4 (fst q) (fst p) (snd q) (snd p))
              (combine arg_nu nu)) (combine arg_ga ga))
      else None).
  { destruct ga; [congruence|]. destruct nu; [congruence|]. destruct ga_p; [congruence|].
    destruct nu_p; [congruence|]. reflexivity. }
  rewrite EQ; clear EQ.
  destruct (ext_ga_left ga ga_p s) as [gp1 s1] eqn:E1.
  destruct (ga_left_ok _ _ _ _ Ig Hgp Hr _ _ E1) as [I1 [N1 [R1 [B1 T1]]]].
  destruct (ext_ga_right ga gp1 s1) as [gp2 s2] eqn:E2.
  destruct (ga_right_ok _ _ _ _ I1 N1 R1 _ _ E2) as [I2 [N2 [R2 [B2 [C2 T2]]]]].
  destruct (ext_nu_left nu nu_p s2) as [np1 s3] eqn:E3.
  destruct (nu_left_ok _ _ _ In_ Hnp _ _ E3) as [I3 [N3 [B3 [e3 [M3 T3]]]]].
  destruct (ext_nu_right nu np1 s3) as [np2 s4] eqn:E4.
  destruct (nu_right_ok _ _ _ I3 N3 _ _ E4) as [I4 [N4 [B4 [C4 [e4 [M4 T4]]]]]].
  cbv zeta.
  assert (Gin : forall t, In t ga -> nth 0 gp2 0 <= t < nth (length gp2 - 1) gp2 0).
  { intros t Ht. pose proof (lmin_le _ _ Ht). pose proof (lmax_ge _ _ Ht). rewrite B2. lra. }
  assert (Nin : forall t, In t nu -> nth 0 np2 0 <= t < nth (length np2 - 1) np2 0).
  { intros t Ht. pose proof (lmin_le _ _ Ht). pose proof (lmax_ge _ _ Ht). rewrite B4. lra. }
  rewrite (argwhere_map gp2 ga I2 N2 Gin), (argwhere_map np2 nu I4 N4 Nin).
  rewrite !map_length, !Nat.eqb_refl. simpl andb. cbv iota.
  eexists; split; [reflexivity|]. rewrite !combine_map_l.
  split; [rewrite !map_length; auto|].
  intros k l Hk Hl.
  rewrite map_map. cbv [fst snd].
  rewrite (nth_mapL _ _ _ ga k 0 []) by auto.
  rewrite map_map. rewrite (nth_map0 R _ nu l 0 0) by auto.
  set (t := nth k ga 0). set (u := nth l nu 0).
  destruct (cellof_ok gp2 t I2 N2 (Gin _ (nth_In _ _ Hk))) as [_ [Hc Hx]].
  destruct (cellof_ok np2 u I4 N4 (Nin _ (nth_In _ _ Hl))) as [_ [Hd Hy]].
  set (i := cellof gp2 t) in *. set (j := cellof np2 u) in *.
  rewrite bkg2_point_seg by lra.
  set (h := fun r => seg np2 (fun j => nth j (e4 (e3 r)) 0) j u).
  assert (S4 : s4 = map (fun r => e4 (e3 r)) s2) by (rewrite M4, M3, map_map; auto).
  assert (V : seg gp2 (fun i => seg np2 (fun j => at2 s4 i j) j u) i t =
              seg gp2 (fun i => h (nth i s2 [])) i t).
  { assert (A : forall i, (i < length s2)%nat -> seg np2 (fun j => at2 s4 i j) j u = h (nth i s2 [])).
    { intros i0 Hi0. unfold h, at2. rewrite S4.
      rewrite (nth_indep _ [] ((fun r => e4 (e3 r)) [])) by (rewrite map_length; auto).
      rewrite (map_nth (fun r => e4 (e3 r))). reflexivity. }
    destruct R2 as [R2 _]. apply seg_ext; apply A; rewrite R2; lia. }
  rewrite V.
  exists (fun i => h (nth i s [])). split.
  - intros i0 Hi0. destruct Hr as [Hr1 Hr2].
    assert (Lr : length (nth i0 s []) = length nu_p) by (apply Hr2, nth_In; lia).
    destruct (T3 _ Lr) as [L3 T3']. destruct (T4 _ L3) as [L4 T4'].
    apply T3', T4'. left. exists j. split; [auto|]. split; [lra|]. reflexivity.
  - apply T1, T2. left. exists i. split; [auto|]. split; [lra|]. reflexivity.
Qed.

(* ---- cosine background ---- *)
Lemma cos_sum_spec : forall x_min x_max cs i x,
  cos_sum x_min x_max cs i x =
  fold_right Rplus 0 (map (fun p => snd p * cos (INR (fst p) * PI * ((x - x_min) / x_max)))
                          (combine (seq i (length cs)) cs)).
Proof.
  induction cs as [|c cs IH]; intros i x; simpl; auto.
  rewrite IH. unfold cos_res. simpl fst; simpl snd. f_equal. f_equal. f_equal. unfold Rdiv; ring.
Qed.

Lemma cosines_value : forall xs cs x_min x_max k, (k < length xs)%nat ->
  nth k (calc_background_by_cosines xs cs x_min (Some x_max)) 0 =
  fold_right Rplus 0 (map (fun p => snd p * cos (INR (fst p) * PI * ((nth k xs 0 - x_min) / x_max)))
                          (combine (seq 0 (length cs)) cs)).
Proof.
  intros. unfold calc_background_by_cosines. rewrite (nth_map0 R _ xs k 0 0) by auto.
  apply cos_sum_spec.
Qed.

Lemma cos_sum_app : forall x_min x_max a c b i x,
  cos_sum x_min x_max (a ++ c :: b) i x =
  cos_sum x_min x_max a i x + c * cos_res x_min x_max (i + length a) x
  + cos_sum x_min x_max b (S (i + length a)) x.
Proof.
  induction a as [|d a IH]; intros c b i x; simpl.
  - rewrite Nat.add_0_r. ring.
  - rewrite IH. replace (S i + length a)%nat with (i + S (length a))%nat by lia. ring.
Qed.

From Coquelicot Require Import Coquelicot.
Import ListNotations.
Local Open Scope list_scope.
Local Open Scope R_scope.

Lemma cosines_derivative : forall xs a c0 b x_min x_max k, (k < length xs)%nat ->
  is_derive (fun c => nth k (calc_background_by_cosines xs (a ++ c :: b) x_min x_max) 0) c0
    (nth k (nth (length a) (calc_background_by_cosines_dder xs (a ++ c0 :: b) x_min x_max) []) 0).
Proof.
  intros xs a c0 b x_min x_max k Hk.
  unfold calc_background_by_cosines_dder.
  rewrite (nth_mapL _ _ _ (seq 0 (length (a ++ c0 :: b))) (length a) 0%nat [])
    by (rewrite seq_length, app_length; simpl; lia).
  rewrite seq_nth by (rewrite app_length; simpl; lia). rewrite Nat.add_0_l.
  rewrite (nth_map0 R _ xs k 0 0) by auto.
  set (xm := cos_x_max x_max xs).
  apply (is_derive_ext (fun c => cos_sum x_min xm a 0 (nth k xs 0) + c * cos_res x_min xm (length a) (nth k xs 0)
     + cos_sum x_min xm b (S (length a)) (nth k xs 0))).
  - intros c. unfold calc_background_by_cosines. rewrite (nth_map0 R _ xs k 0 0) by auto.
    fold xm. rewrite cos_sum_app. simpl (0 + length a)%nat. reflexivity.
  - evar_last; [apply (is_derive_plus (V := R_NormedModule)); [apply (is_derive_plus (V := R_NormedModule)); [apply @is_derive_const|apply @is_derive_scal_l; apply @is_derive_id]|apply @is_derive_const]|].
    unfold plus, zero, scal, one; simpl. unfold mult; simpl. ring.
Qed.

(* true value of the background in the middle of a two-point table *)
Lemma mid_value : forall y z, calc_background (1/2 :: nil) [0; 1] [y; z] = Some ((y + z) / 2 :: nil).
Proof.
  intros y z.
  assert (Hinc : increasing [0; 1]).
  { intros [|[|i]] Hi; simpl in *; try lia. lra. }
  destruct (calc_background_ok (1/2 :: nil) [0;1] [y;z]) as [out [E [L B]]]; try discriminate; auto.
  rewrite E. f_equal. destruct out as [|o [|o2 out]]; simpl in L; try lia.
  f_equal. specialize (B 0%nat ltac:(simpl; lia)). simpl nth in B.
  apply (interp_linear_unique [0;1] (fun i => nth i [y;z] 0) (1/2)); auto.
  left. exists 0%nat. simpl. split; [lia|]. split; [lra|]. unfold seg, line; simpl. field.
Qed.

Lemma bkg_dder_wrong :
  exists ts xs ys : list R, exists j k : nat, exists d : R,
    increasing xs /\ (2 <= length xs)%nat /\ length xs = length ys /\
    is_derive (fun y => match calc_background ts xs (firstn j ys ++ y :: skipn (S j) ys) with
                        | Some out => nth k out 0 | None => 0 end) (nth j ys 0) d /\
    nth j (nth k (calc_background_dder ts xs ys) []) 0 <> d.
Proof.
  exists (1/2 :: nil), [0;1], [0;0], 0%nat, 0%nat, (1/2).
  split. { intros [|[|i]] Hi; simpl in *; try lia. lra. }
  split; [simpl; lia|]. split; [reflexivity|]. split.
  - apply (is_derive_ext (fun y => (y + 0) / 2)).
    + intros y. simpl firstn. simpl skipn. simpl app. rewrite mid_value. reflexivity.
    + auto_derive; [auto|]. lra.
  - simpl. lra.
Qed.

(* two-dimensional derivative *)
Ltac rdec := repeat match goal with
  | |- context [Rle_dec ?a ?b] => destruct (Rle_dec a b); [try (exfalso; lra)|try (exfalso; lra)]
  | |- context [Rlt_dec ?a ?b] => destruct (Rlt_dec a b); [try (exfalso; lra)|try (exfalso; lra)]
  end.

Lemma bkg2_dder_same : forall ga nu ga_p nu_p s g1 n1 g2 n2 p q,
  calc_background_2d_dder ga nu ga_p nu_p s g1 n1 p q = calc_background_2d_dder ga nu ga_p nu_p s g2 n2 p q.
Proof. reflexivity. Qed.

Lemma interp_const_unique : forall xs f t v w, increasing xs -> xs <> [] ->
  interp_const xs f t v -> interp_const xs f t w -> v = w.
Proof.
  intros xs f t v w Hinc Hne. pose proof (len_ne _ _ Hne) as Hn.
  assert (B : forall i, (S i < length xs)%nat -> nth 0 xs 0 <= nth i xs 0 /\ nth (S i) xs 0 <= nth (length xs - 1) xs 0).
  { intros i Hi; split; apply incr_le; auto; lia. }
  assert (B0 : nth 0 xs 0 <= nth (length xs - 1) xs 0) by (apply incr_le; auto; lia).
  assert (I0 : forall i, (S i < length xs)%nat -> nth i xs 0 <= t <= nth (S i) xs 0 -> t <= nth 0 xs 0 -> seg xs f i t = f 0%nat).
  { intros i Hi H1 H2. destruct (B i Hi). assert (t = nth 0 xs 0) by lra.
    assert (i = 0%nat). { destruct i; auto. exfalso. assert (nth 0 xs 0 < nth (S i) xs 0) by (apply incr_lt2; auto; lia). lra. }
    subst. apply seg_at_l; auto. }
  assert (I1 : forall i, (S i < length xs)%nat -> nth i xs 0 <= t <= nth (S i) xs 0 -> nth (length xs - 1) xs 0 <= t -> seg xs f i t = f (length xs - 1)%nat).
  { intros i Hi H1 H2. destruct (B i Hi). assert (t = nth (length xs - 1) xs 0) by lra.
    assert (HL : (S i = length xs - 1)%nat).
    { destruct (Nat.eq_dec (S i) (length xs - 1)) as [|N]; auto. exfalso.
      assert (nth (S i) xs 0 < nth (length xs - 1) xs 0) by (apply incr_lt2; auto; lia). lra. }
    subst t. rewrite <- HL. apply seg_at_r; auto. }
  assert (I2 : t <= nth 0 xs 0 -> nth (length xs - 1) xs 0 <= t -> f 0%nat = f (length xs - 1)%nat).
  { intros H1 H2. destruct (Nat.eq_dec (length xs - 1) 0) as [->|N]; auto. exfalso.
    assert (nth 0 xs 0 < nth (length xs - 1) xs 0) by (apply incr_lt2; auto; lia). lra. }
  intros [[i [Hi [Ht E]]]|[[Ht E]|[Ht E]]] [[j [Hj [Hs F]]]|[[Hs F]|[Hs F]]]; subst; auto.
  - apply cells_agree; auto.
  - symmetry; auto.
  - symmetry; auto.
  - symmetry; auto.
Qed.

Definition tab2 (a b c d : R) : list (list R) := [[a; b]; [c; d]].

Lemma incr01 : increasing [0; 1].
Proof. intros [|[|i]] Hi; simpl in *; try lia. lra. Qed.

Lemma bkg2_value : forall a b c d,
  match calc_background_2d [0; 1/2] (0::nil) [0; 1] [0; 1] (tab2 a b c d) with
  | Some out => nth 0 (nth 0 out []) 0 | None => 0 end = a.
Proof.
  intros a b c d.
  destruct (calc_background_2d_ok [0; 1/2] (0::nil) [0;1] [0;1] (tab2 a b c d)) as [out [E [L B]]];
    try discriminate; try apply incr01.
  { split; [reflexivity|]. intros r [<-|[<-|[]]]; reflexivity. }
  rewrite E.
  destruct (B 0%nat 0%nat ltac:(simpl; lia) ltac:(simpl; lia)) as [g [G1 G2]].
  simpl nth in *. specialize (G1 0%nat ltac:(simpl; lia)).
  assert (H : g 0%nat = a).
  { apply (interp_const_unique [0;1] (fun j => nth j [a;b] 0) 0); try discriminate; auto; try apply incr01.
    right; left. simpl. split; [lra|auto]. }
  rewrite <- H. apply (interp_const_unique [0;1] g 0); try discriminate; auto; try apply incr01.
  right; left. simpl. split; [lra|auto].
Qed.

Lemma bkg2_dder_wrong :
  exists ga nu ga_p nu_p : list R, exists s : R -> list (list R), exists y d : R,
    ga <> [] /\ nu <> [] /\ increasing ga_p /\ increasing nu_p /\
    (forall a, rect (length ga_p) (length nu_p) (s a)) /\
    (forall a i j, nth j (nth i (s a) []) 0 = if ((i =? 0) && (j =? 0))%nat then a else 0) /\
    is_derive (fun a => match calc_background_2d ga nu ga_p nu_p (s a) with
                        | Some out => nth 0 (nth 0 out []) 0 | None => 0 end) y d /\
    calc_background_2d_dder ga nu ga_p nu_p (s y) 0 0 0 0 <> d.
Proof.
  exists [0; 1/2], (0::nil), [0;1], [0;1], (fun a => tab2 a 0 0 0), 0, 1.
  split; [discriminate|]. split; [discriminate|]. split; [apply incr01|]. split; [apply incr01|].
  split. { intros a; split; [reflexivity|]. intros r [<-|[<-|[]]]; reflexivity. }
  split. { intros a [|[|[|i]]] [|[|[|j]]]; reflexivity. }
  split.
  - apply (is_derive_ext (fun a => a)).
    + intros a. symmetry. apply bkg2_value.
    + apply @is_derive_id.
  - assert (X1 : lmin (0 :: 1/2 :: nil) = 0) by (unfold lmin; simpl; apply Rmin_left; lra).
    assert (X2 : lmax (0 :: 1/2 :: nil) = 1/2) by (unfold lmax; simpl; apply Rmax_right; lra).
    assert (X3 : lmin (0 :: 1 :: nil) = 0) by (unfold lmin; simpl; apply Rmin_left; lra).
    assert (X4 : lmax (0 :: 1 :: nil) = 1) by (unfold lmax; simpl; apply Rmax_right; lra).
    assert (X5 : lmin (0 :: nil) = 0) by reflexivity.
    assert (X6 : lmax (0 :: nil) = 0) by reflexivity.
    unfold calc_background_2d_dder, ext_ga_left, ext_ga_right, ext_nu_left, ext_nu_right, ext2_left, ext2_right,
      leb_r, ltb_r, tab2. rewrite ?X1, ?X2, ?X3, ?X4, ?X5, ?X6.
    repeat (rdec; rewrite ?X1, ?X2, ?X3, ?X4, ?X5, ?X6). cbv zeta iota beta.
    assert (M1 : argwhere_cols [0;1] [0;1/2] = [0%nat; 0%nat]).
    { unfold argwhere_cols, matches, leb_r, ltb_r, at_. simpl. rdec. reflexivity. }
    assert (M2 : argwhere_cols [0;1] (0::nil) = (0%nat::nil)).
    { unfold argwhere_cols, matches, leb_r, ltb_r, at_. simpl. rdec. reflexivity. }
    rewrite M1, M2. unfold fancy_add, at_. simpl. lra.
Qed.
