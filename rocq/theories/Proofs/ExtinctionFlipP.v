From Coq Require Import Reals Lra Psatz Bool List String.
From Coquelicot Require Import Coquelicot.
From Verif Require Import Spec.Lin3 Model.FlipRatio Spec.Intens Model.Extinction Proofs.ExtinctionP Proofs.ExtinctionDerivP.
Open Scope R_scope.
(** The callable handed to calc_iint by procedure_rhochi/rhochi_diffrn.py (a closure over the crystal), asked for F^2 only,
    or, for the primary correction alone, also for the radius. *)
Definition sphere_ext (m : ext_model) (c : crystal) : ext :=
  mkE (fun _ => 0) (fun _ f => val (calc_extinction_sphere m f c)) (fun _ f => ed_f_sq (calc_extinction_sphere_dder m f c)) nil (fun _ _ _ => 0).
Lemma sphere_good m c : (forall f, 0 <= f -> physical f c) -> - (67/100) <= x_cos c -> (m = M_gauss -> x_cos c <= 8/10) ->
  good_ext (Some (sphere_ext m c)).
Proof. intros H C Cm. split; [intros x Hx; apply sphere_d_f; auto|intros n x _ []]. Qed.
Definition radius_ext (c : crystal) : ext :=
  mkE (fun _ => x_radius c) (fun p f => val (calc_extinction_sphere M_other f (mkX (p "radius"%string) (x_mosaicity c) (x_volume c) (x_cos c) (x_wavelength c))))
    (fun p f => ed_f_sq (calc_extinction_sphere_dder M_other f (mkX (p "radius"%string) (x_mosaicity c) (x_volume c) (x_cos c) (x_wavelength c))))
    ("radius"%string :: nil)
    (fun _ p f => ed_radius (calc_extinction_sphere_dder M_other f (mkX (p "radius"%string) (x_mosaicity c) (x_volume c) (x_cos c) (x_wavelength c)))).
Lemma radius_good c : (forall f, 0 <= f -> physical f c) -> - (67/100) <= x_cos c -> good_ext (Some (radius_ext c)).
Proof.
  intros H C. destruct c as [r mo v co w]. cbn in C. split; cbn.
  - intros x Hx. apply sphere_d_f; [apply H; exact Hx|exact C|discriminate].
  - intros n x Hx [<-|[]]. 
    assert (P := H x Hx). destruct P as (_ & _ & _ & V & _ & C1). cbn in V, C1.
    destruct (prim_d_all x r mo v co w Hx ltac:(lra) ltac:(lra)) as (_ & D & _).
    eapply is_derive_eq; [eapply is_derive_ext; [|exact D]|]; cbn beta.
    + intros t. unfold upd. cbn. rewrite sphere_prod. cbn. symmetry. apply Rmult_1_r.
    + match goal with |- ?a = ?b => change (@eq R a b) end.
      match goal with |- _ = ?v * 0 + ?d * 1 => rewrite (Rmult_0_r v), Rplus_0_l, Rmult_1_r end. reflexivity.
Qed.
