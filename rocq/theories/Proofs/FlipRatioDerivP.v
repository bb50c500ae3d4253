From Coq Require Import Reals Lra List String Bool.
From Coquelicot Require Import Coquelicot.
From Verif Require Import Spec.Lin3 Model.FlipRatio Spec.Intens Proofs.FlipRatioP.
Open Scope R_scope.

(** C39 *)
Lemma flip_is_reversal f a : a_fe a = 1 -> im (calc_iint f a) = ip (calc_iint f (with_bp a (- a_bp a))).
Proof. intros H. rewrite im_form, ip_form, H. unfold with_bp, form, fp, fm, fx, ch, fz. cbn. ring. Qed.
Lemma unpolarised f a : a_bp a = 0 -> ip (calc_iint f a) = im (calc_iint f a).
Proof. intros H. rewrite im_form, ip_form, H. f_equal; ring. Qed.
Lemma nonmagnetic f a : a_fm a = mkV (0,0) (0,0) (0,0) -> ip (calc_iint f a) = im (calc_iint f a).
Proof.
  intros H. rewrite im_form, ip_form. unfold form, fp, fm, fx, ch, fz. rewrite H. cbn.
  set (n1 := fst (a_fn a)). set (n2 := snd (a_fn a)).
  replace (n1 - (0 * v_1 (a_axis a) + 0 * v_2 (a_axis a) + 0 * v_3 (a_axis a))) with (n1 + (0 * v_1 (a_axis a) + 0 * v_2 (a_axis a) + 0 * v_3 (a_axis a))) by ring.
  replace (n2 - (0 * v_1 (a_axis a) + 0 * v_2 (a_axis a) + 0 * v_3 (a_axis a))) with (n2 + (0 * v_1 (a_axis a) + 0 * v_2 (a_axis a) + 0 * v_3 (a_axis a))) by ring.
  ring.
Qed.
(* the axis reversed together with the polarisation *)
Lemma reversal f a : ip (calc_iint f (reversed a)) = ip (calc_iint f a) /\ im (calc_iint f (reversed a)) = im (calc_iint f a).
Proof.
  assert (E1 : fp (reversed a) = fm a) by (unfold fp, fm, fz, reversed, Rsqr; cbn; ring).
  assert (E2 : fm (reversed a) = fp a) by (unfold fp, fm, fz, reversed, Rsqr; cbn; ring).
  assert (E3 : fx (reversed a) = fx a) by (unfold fx, fz, reversed, Rsqr; cbn; ring).
  assert (E4 : ch (reversed a) = - ch a) by (unfold ch, reversed, Rsqr; cbn; ring).
  rewrite !ip_form, !im_form, E1, E2, E3, E4. unfold form. cbn [reversed a_bp a_fe a_ext]. split; ring.
Qed.
(* all structure factors times a phase factor *)
Lemma phase_free f a phi : let a' := phased a (cos phi, sin phi) in
  ip (calc_iint f a') = ip (calc_iint f a) /\ im (calc_iint f a') = im (calc_iint f a).
Proof.
  cbn zeta. assert (H := sin2_cos2 phi). set (c := cos phi) in *. set (s := sin phi) in *. clearbody c s.
  assert (Hs : s * s = 1 - c * c) by (unfold Rsqr in H; lra).
  assert (E1 : fp (phased a (c, s)) = fp a) by (unfold fp, fz, phased, cmul, Rsqr; cbn; ring [Hs]).
  assert (E2 : fm (phased a (c, s)) = fm a) by (unfold fm, fz, phased, cmul, Rsqr; cbn; ring [Hs]).
  assert (E3 : fx (phased a (c, s)) = fx a) by (unfold fx, fz, phased, cmul, Rsqr; cbn; ring [Hs]).
  assert (E4 : ch (phased a (c, s)) = ch a) by (unfold ch, fz, phased, cmul, Rsqr; cbn; ring [Hs]).
  rewrite !ip_form, !im_form, E1, E2, E3, E4. split; reflexivity.
Qed.
(* ratio and asymmetry *)
Lemma ratio_one i c : i + match c with None => 0 | Some (l, j) => l * j end <> 0 ->
  fst (calc_flip_ratio_by_iint i i c) = 1 /\ fst (calc_asymmetry_by_iint i i c) = 0.
Proof.
  intros H. unfold calc_flip_ratio_by_iint, calc_asymmetry_by_iint. cbn [fst]. split.
  - field. exact H.
  - destruct c as [[l j]|]; unfold Rdiv; rewrite Rminus_diag_eq by reflexivity; ring.
Qed.
Lemma ratio_asym p m c : m + match c with None => 0 | Some (l, j) => l * j end <> 0 ->
  p + m + match c with None => 0 | Some (l, j) => 2 * l * j end <> 0 ->
  let r := fst (calc_flip_ratio_by_iint p m c) in fst (calc_asymmetry_by_iint p m c) = (r - 1) / (r + 1).
Proof.
  intros H1 H2. unfold calc_flip_ratio_by_iint, calc_asymmetry_by_iint. cbn [fst]. destruct c as [[l j]|]; field; repeat split; try assumption; intros K; (apply H1; lra) || (apply H2; lra).
Qed.

(** C40 *)
Lemma chain (Y : R -> R) (p x y z c : R -> R) t dp_ dx dy dz dc D1 D2 D3 :
  is_derive Y (x t) D1 -> is_derive Y (y t) D2 -> is_derive Y (z t) D3 ->
  is_derive p t dp_ -> is_derive x t dx -> is_derive y t dy -> is_derive z t dz -> is_derive c t dc ->
  is_derive (fun t => form Y (p t) (x t) (y t) (z t) (c t)) t
   ((5/10) * (dp_ * Y (x t) * x t + (1 + p t) * (dx * D1 * x t + Y (x t) * dx) - dp_ * Y (y t) * y t + (1 - p t) * (dy * D2 * y t + Y (y t) * dy))
    + (dz * D3 * z t + Y (z t) * dz) + dp_ * c t + p t * dc).
Proof.
  intros HY1 HY2 HY3 Hp Hx Hy Hz Hc. unfold form.
  auto_derive.
  { repeat split; eexists; eauto. }
  replace (Derive (fun x0 => Y x0) (x t)) with D1 by (symmetry; apply is_derive_unique; exact HY1).
  replace (Derive (fun x0 => Y x0) (y t)) with D2 by (symmetry; apply is_derive_unique; exact HY2).
  replace (Derive (fun x0 => Y x0) (z t)) with D3 by (symmetry; apply is_derive_unique; exact HY3).
  replace (Derive (fun x0 => p x0) t) with dp_ by (symmetry; apply is_derive_unique; exact Hp).
  replace (Derive (fun x0 => x x0) t) with dx by (symmetry; apply is_derive_unique; exact Hx).
  replace (Derive (fun x0 => y x0) t) with dy by (symmetry; apply is_derive_unique; exact Hy).
  replace (Derive (fun x0 => z x0) t) with dz by (symmetry; apply is_derive_unique; exact Hz).
  replace (Derive (fun x0 => c x0) t) with dc by (symmetry; apply is_derive_unique; exact Hc).
  ring.
Qed.
Lemma y_d e x : good_ext e -> 0 <= x -> is_derive (y_of e) x (dy_of e x).
Proof.
  destruct e as [e|]; intros G Hx.
  - exact (proj1 G x Hx).
  - apply is_derive_ext with (f := fun _ => 1). reflexivity. apply @is_derive_const.
Qed.
Ltac ev := eapply is_derive_ext; [intros ?; cbn; reflexivity|]; auto_derive; [exact I|].
Ltac dtriv := unfold fp, fm, fx, ch, fz, Rsqr; cbn; auto_derive; [exact I|reflexivity].

Lemma is_derive_eq (f : R -> R) (x d1 d2 : R) : is_derive f x d1 -> d1 = d2 -> is_derive f x d2.
Proof. intros H <-. exact H. Qed.
Ltac take Hv := match type of Hv with context [given ?b _] => destruct b | context [if ?b then _ else _] => destruct b end; [cbn [given] in Hv; injection Hv as Hv; rewrite <- Hv; clear Hv|discriminate Hv].
Ltac known := unfold fp, fm, fx, ch, fz, Rsqr; cbn; auto_derive; [exact I|reflexivity].
Ltac go Y P s k Y1 Y2 Y3 :=
  eapply is_derive_eq;
  [eapply (chain Y P (fun t => fp (s_arg (vary s k t))) (fun t => fm (s_arg (vary s k t))) (fun t => fx (s_arg (vary s k t)))
     (fun t => ch (s_arg (vary s k t))));
   [exact Y1|exact Y2|exact Y3|known|known|known|known|known]
  |cbn [vary entry s_arg vset vget fst snd a_bp a_fe a_fn a_fm a_axis a_ext v_1 v_2 v_3]].
Ltac fin := unfold fp, fm, fx, ch, fz; cbn; unfold Rsqr; first [ring|field].

Lemma lin3_d (g1 g2 g3 : R -> R) t d1 d2 d3 q A B C D : is_derive g1 t d1 -> is_derive g2 t d2 -> is_derive g3 t d3 ->
  is_derive (fun t => (5/10) * ((1 + q) * g1 t * A + (1 - q) * g2 t * B) + g3 t * C + q * D) t ((5/10) * ((1 + q) * d1 * A + (1 - q) * d2 * B) + d3 * C).
Proof.
  intros H1 H2 H3. auto_derive. { repeat split; eexists; eauto. }
  replace (Derive (fun x0 => g1 x0) t) with d1 by (symmetry; apply is_derive_unique; exact H1).
  replace (Derive (fun x0 => g2 x0) t) with d2 by (symmetry; apply is_derive_unique; exact H2).
  replace (Derive (fun x0 => g3 x0) t) with d3 by (symmetry; apply is_derive_unique; exact H3). ring.
Qed.
Lemma ext_d f s n v : good_ext (a_ext (s_arg s)) -> unit_axis (a_axis (s_arg s)) -> dp (calc_iint f (s_arg s)) (K_ext n) = Some v ->
  is_derive (fun t => ip (calc_iint f (s_arg (vary s (K_ext n) t)))) (entry s (K_ext n)) v.
Proof.
  destruct s as [[bp fe fn fm_ ax [[p y dy ks dk]|]] l2 fn2 fm2]; intros G U Hv; [|discriminate].
  unfold dp, calc_iint in Hv. cbn [s_arg a_ext in_keys e_keys] in *.
  destruct (existsb (String.eqb n) ks) eqn:E; [|discriminate].
  apply existsb_exists in E. destruct E as [n' [E1 E2]]. apply String.eqb_eq in E2. subst n'.
  destruct G as [_ G]. cbn [e_keys e_par e_y e_dk e_dy] in *.
  set (a := mkArg bp fe fn fm_ ax (Some (mkE p y dy ks dk))) in *.
  assert (Y1 := G n _ (fp_pos a) E1). assert (Y2 := G n _ (fm_pos a) E1). assert (Y3 := G n _ (fx_pos a U) E1).
  apply is_derive_ext with (f := fun t => (5/10) * ((1 + bp) * y (upd p n t) (fp a) * fp a + (1 - bp) * y (upd p n t) (fm a) * fm a) + y (upd p n t) (fx a) * fx a + bp * ch a).
  { intros t. rewrite ip_form. reflexivity. }
  cbn [entry s_arg a_ext e_par a].
  eapply is_derive_eq; [exact (lin3_d _ _ _ _ _ _ _ bp (fp a) (fm a) (fx a) (ch a) Y1 Y2 Y3)|].
  injection Hv as Hv. rewrite <- Hv. unfold a, fp, fm, fx, fz. cbn [a_bp a_fe a_fn a_fm a_axis fst snd]. unfold dk_of. cbn [e_dk e_par].
  ring.
Qed.
Lemma ext_dm f s n v : good_ext (a_ext (s_arg s)) -> unit_axis (a_axis (s_arg s)) -> dm (calc_iint f (s_arg s)) (K_ext n) = Some v ->
  is_derive (fun t => im (calc_iint f (s_arg (vary s (K_ext n) t)))) (entry s (K_ext n)) v.
Proof.
  destruct s as [[bp fe fn fm_ ax [[p y dy ks dk]|]] l2 fn2 fm2]; intros G U Hv; [|discriminate].
  unfold dm, calc_iint in Hv. cbn [s_arg a_ext in_keys e_keys] in *.
  destruct (existsb (String.eqb n) ks) eqn:E; [|discriminate].
  apply existsb_exists in E. destruct E as [n' [E1 E2]]. apply String.eqb_eq in E2. subst n'.
  destruct G as [_ G]. cbn [e_keys e_par e_y e_dk e_dy] in *.
  set (a := mkArg bp fe fn fm_ ax (Some (mkE p y dy ks dk))) in *.
  assert (Y1 := G n _ (fp_pos a) E1). assert (Y2 := G n _ (fm_pos a) E1). assert (Y3 := G n _ (fx_pos a U) E1).
  set (q := - (bp * (2 * fe - 1))).
  apply is_derive_ext with (f := fun t => (5/10) * ((1 + q) * y (upd p n t) (fp a) * fp a + (1 - q) * y (upd p n t) (fm a) * fm a) + y (upd p n t) (fx a) * fx a + q * ch a).
  { intros t. rewrite im_form. reflexivity. }
  cbn [entry s_arg a_ext e_par a].
  eapply is_derive_eq; [exact (lin3_d _ _ _ _ _ _ _ q (fp a) (fm a) (fx a) (ch a) Y1 Y2 Y3)|].
  injection Hv as Hv. rewrite <- Hv. unfold q, a, fp, fm, fx, fz. cbn [a_bp a_fe a_fn a_fm a_axis fst snd]. unfold dk_of. cbn [e_dk e_par]. ring.
Qed.
Lemma iint_dp f s : good_ext (a_ext (s_arg s)) -> unit_axis (a_axis (s_arg s)) ->
  right_dder (fun s => ip (calc_iint f (s_arg s))) s (dp (calc_iint f (s_arg s))).
Proof.
  intros G U k v Hv.
  destruct k as [| | | |i|i|n| | |i|i|]; [ | | | | | |apply ext_d; assumption| | | | | ].
  all: lazymatch goal with |- is_derive _ (entry ?s ?k) _ =>
    apply is_derive_ext with (f := fun t => let a := s_arg (vary s k t) in form (y_of (a_ext a)) (a_bp a) (fp a) (fm a) (fx a) (ch a));
    [intros t; cbn zeta; symmetry; apply ip_form|] end.
  all: assert (Y1 := y_d _ _ G (fp_pos (s_arg s))); assert (Y2 := y_d _ _ G (fm_pos (s_arg s))); assert (Y3 := y_d _ _ G (fx_pos _ U)).
  all: destruct s as [[bp fe [fnr fni] [[mxr mxi] [myr myi] [mzr mzi]] [a b c] e] l2 fn2 fm2]; cbn [s_arg a_ext] in *.
  all: cbn in Hv; try discriminate.
  all: try (destruct i; cbn in Hv).
  all: take Hv.
  all: lazymatch goal with |- is_derive _ (entry ?s ?k) _ =>
         go (y_of e) (fun t => a_bp (s_arg (vary s k t))) s k Y1 Y2 Y3; fin end.
Qed.
Lemma iint_dm f s : good_ext (a_ext (s_arg s)) -> unit_axis (a_axis (s_arg s)) ->
  right_dder (fun s => im (calc_iint f (s_arg s))) s (dm (calc_iint f (s_arg s))).
Proof.
  intros G U k v Hv.
  destruct k as [| | | |i|i|n| | |i|i|]; [ | | | | | |apply ext_dm; assumption| | | | | ].
  all: lazymatch goal with |- is_derive _ (entry ?s ?k) _ =>
    apply is_derive_ext with (f := fun t => let a := s_arg (vary s k t) in form (y_of (a_ext a)) (- (a_bp a * (2 * a_fe a - 1))) (fp a) (fm a) (fx a) (ch a));
    [intros t; cbn zeta; symmetry; apply im_form|] end.
  all: assert (Y1 := y_d _ _ G (fp_pos (s_arg s))); assert (Y2 := y_d _ _ G (fm_pos (s_arg s))); assert (Y3 := y_d _ _ G (fx_pos _ U)).
  all: destruct s as [[bp fe [fnr fni] [[mxr mxi] [myr myi] [mzr mzi]] [a b c] e] l2 fn2 fm2]; cbn [s_arg a_ext] in *.
  all: cbn in Hv; try discriminate.
  all: try (destruct i; cbn in Hv).
  all: take Hv.
  all: lazymatch goal with |- is_derive _ (entry ?s ?k) _ =>
         go (y_of e) (fun t => - (a_bp (s_arg (vary s k t)) * (2 * a_fe (s_arg (vary s k t)) - 1))) s k Y1 Y2 Y3; fin end.
Qed.
