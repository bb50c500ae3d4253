(** The derivative of the model value of one reflection along a column of coefficients (C105). *)
From Coq Require Import Reals Lra List String Bool.
From Coquelicot Require Import Coquelicot.
From Verif Require Import Spec.Lin3 Spec.Density Model.FlipRatio Model.MemFourier Model.MemIter Spec.Intens Proofs.FlipRatioP Proofs.FlipRatioDerivP.
Open Scope R_scope.

Definition along (f m : V3 cx) (t : R) : V3 cx :=
  mkV (fst (v_1 f) + t * fst (v_1 m), snd (v_1 f) + t * snd (v_1 m)) (fst (v_2 f) + t * fst (v_2 m), snd (v_2 f) + t * snd (v_2 m))
      (fst (v_3 f) + t * fst (v_3 m), snd (v_3 f) + t * snd (v_3 m)).
Definition arg_of (r : mrefl) (v : V3 cx) : arg := mkArg (mr_bp r) (mr_fe r) (mr_fn r) v (mr_axis r) (mr_ext r).
Definition slope (d : dict) (m : V3 cx) : R :=
  (fst (v_1 m) * or0 (d (K_fm_re X1)) + fst (v_2 m) * or0 (d (K_fm_re X2)) + fst (v_3 m) * or0 (d (K_fm_re X3))) +
  (snd (v_1 m) * or0 (d (K_fm_im X1)) + snd (v_2 m) * or0 (d (K_fm_im X2)) + snd (v_3 m) * or0 (d (K_fm_im X3))).
Definition ffm := mkF false false false true.
Ltac known' := unfold fp, fm, fx, ch, fz, arg_of, along, Rsqr; cbn; auto_derive; [exact I|reflexivity].
Lemma ip_along : forall r f m (t : R), good_ext (mr_ext r) -> unit_axis (mr_axis r) ->
  is_derive (fun t => ip (calc_iint ffm (arg_of r (along f m t)))) t (slope (dp (calc_iint ffm (arg_of r (along f m t)))) m).
Proof.
  intros r f m t G U.
  apply is_derive_ext with (f := fun t => let a := arg_of r (along f m t) in form (y_of (mr_ext r)) (mr_bp r) (fp a) (fm a) (fx a) (ch a)); [intros s; cbn zeta; symmetry; apply ip_form|].
  pose proof (y_d _ _ G (fp_pos (arg_of r (along f m t)))) as Y1. pose proof (y_d _ _ G (fm_pos (arg_of r (along f m t)))) as Y2. pose proof (y_d _ _ G (fx_pos (arg_of r (along f m t)) U)) as Y3.
  cbv zeta. destruct r as [bp fe [fnr fni] [a b c] e col chi ex sg], f as [[mxr mxi] [myr myi] [mzr mzi]], m as [[xr xi] [yr yi] [zr zi]]. cbn [mr_ext mr_bp mr_axis] in *.
  set (r := mkMR bp fe (fnr, fni) (mkV a b c) e col chi ex sg) in *. set (v := along _ _) in *.
  eapply is_derive_eq.
  - eapply (chain (y_of e) (fun _ => bp) (fun t => fp (arg_of r (v t))) (fun t => fm (arg_of r (v t))) (fun t => fx (arg_of r (v t))) (fun t => ch (arg_of r (v t)))); [exact Y1|exact Y2|exact Y3|apply @is_derive_const| | | | ].
    all: unfold r, v.
    + known'.
    + known'.
    + known'.
    + known'.
  - unfold slope, dp, calc_iint, arg_of, r, v, along. cbn. unfold fp, fm, fx, ch, fz. cbn. unfold Rsqr, zero; cbn; field.
Qed.
Lemma im_along : forall r f m (t : R), good_ext (mr_ext r) -> unit_axis (mr_axis r) ->
  is_derive (fun t => im (calc_iint ffm (arg_of r (along f m t)))) t (slope (dm (calc_iint ffm (arg_of r (along f m t)))) m).
Proof.
  intros r f m t G U.
  apply is_derive_ext with (f := fun t => let a := arg_of r (along f m t) in form (y_of (mr_ext r)) (- (mr_bp r * (2 * mr_fe r - 1))) (fp a) (fm a) (fx a) (ch a)); [intros s; cbn zeta; symmetry; apply im_form|].
  pose proof (y_d _ _ G (fp_pos (arg_of r (along f m t)))) as Y1. pose proof (y_d _ _ G (fm_pos (arg_of r (along f m t)))) as Y2. pose proof (y_d _ _ G (fx_pos (arg_of r (along f m t)) U)) as Y3.
  cbv zeta. destruct r as [bp fe [fnr fni] [a b c] e col chi ex sg], f as [[mxr mxi] [myr myi] [mzr mzi]], m as [[xr xi] [yr yi] [zr zi]]. cbn [mr_ext mr_bp mr_fe mr_axis] in *.
  set (r := mkMR bp fe (fnr, fni) (mkV a b c) e col chi ex sg) in *. set (v := along _ _) in *.
  eapply is_derive_eq.
  - eapply (chain (y_of e) (fun _ => - (bp * (2 * fe - 1))) (fun t => fp (arg_of r (v t))) (fun t => fm (arg_of r (v t))) (fun t => fx (arg_of r (v t))) (fun t => ch (arg_of r (v t)))); [exact Y1|exact Y2|exact Y3|apply @is_derive_const| | | | ].
    all: unfold r, v.
    + known'.
    + known'.
    + known'.
    + known'.
  - unfold slope, dm, calc_iint, arg_of, r, v, along. cbn. unfold fp, fm, fx, ch, fz. cbn. unfold Rsqr, zero; cbn; field.
Qed.
