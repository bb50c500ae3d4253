(** Property theorems C38-C40 (flip_ratio.py). *)
From Coq Require Import Reals Lra List String.
From Coquelicot Require Import Coquelicot.
From Verif Require Import Spec.Lin3 Model.FlipRatio Spec.Intens Proofs.FlipRatioP Proofs.FlipRatioDerivP Proofs.FlipRatioSfP.
Open Scope R_scope.

(** No extinction correction: both intensities are non-negative for every structure factor. *)
Theorem C38_intensities_nonnegative : forall f a, a_ext a = None -> unit_axis (a_axis a) -> -1 <= a_bp a <= 1 -> 0 <= a_fe a <= 1 ->
  0 <= ip (calc_iint f a) /\ 0 <= im (calc_iint f a).
Proof. exact iint_nonneg. Qed.
Print Assumptions C38_intensities_nonnegative.
(** With an extinction factor y >= 0 they are non-negative if there is no chiral scattering. *)
Theorem C38_with_extinction_partial : forall f a, (forall x, 0 <= y_of (a_ext a) x) -> chiral a = 0 -> unit_axis (a_axis a) ->
  -1 <= a_bp a <= 1 -> 0 <= a_fe a <= 1 -> 0 <= ip (calc_iint f a) /\ 0 <= im (calc_iint f a).
Proof. exact iint_nonneg_ext. Qed.
Print Assumptions C38_with_extinction_partial.
(** With chiral scattering a physical extinction factor (0 < y <= 1) may give a negative intensity: the chiral term is
    not corrected for extinction. *)
Theorem C38_with_extinction_refuted : exists a e, a_ext a = Some e /\ (forall x, 0 <= x -> 0 < e_y e (e_par e) x <= 1) /\ unit_axis (a_axis a) /\
  -1 <= a_bp a <= 1 /\ 0 <= a_fe a <= 1 /\ im (calc_iint (mkF false false false false) a) < 0.
Proof. exact iint_neg_ext_ex. Qed.
Print Assumptions C38_with_extinction_refuted.
Example C38_case : let a := mkArg (9/10) (95/100) (1, 2) (mkV (3, 4) (1, -1) (2, 0)) (mkV 0 (3/5) (4/5)) None in
  unit_axis (a_axis a) /\ -1 <= a_bp a <= 1 /\ 0 <= a_fe a <= 1 /\ chiral a <> 0.
Proof. unfold unit_axis, chiral, Rsqr; cbn. repeat split; lra. Qed.

Theorem C39_perfect_flipper : forall f a, a_fe a = 1 -> im (calc_iint f a) = ip (calc_iint f (with_bp a (- a_bp a))).
Proof. exact flip_is_reversal. Qed.
Print Assumptions C39_perfect_flipper.
Theorem C39_unpolarised : forall f a, a_bp a = 0 -> ip (calc_iint f a) = im (calc_iint f a).
Proof. exact unpolarised. Qed.
Print Assumptions C39_unpolarised.
Theorem C39_nonmagnetic : forall f a, a_fm a = mkV (0,0) (0,0) (0,0) -> ip (calc_iint f a) = im (calc_iint f a).
Proof. exact nonmagnetic. Qed.
Print Assumptions C39_nonmagnetic.
Theorem C39_axis_reversal : forall f a,
  ip (calc_iint f (reversed a)) = ip (calc_iint f a) /\ im (calc_iint f (reversed a)) = im (calc_iint f a).
Proof. exact reversal. Qed.
Print Assumptions C39_axis_reversal.
Theorem C39_origin_choice : forall f a phi, let a' := phased a (cos phi, sin phi) in
  ip (calc_iint f a') = ip (calc_iint f a) /\ im (calc_iint f a') = im (calc_iint f a).
Proof. exact phase_free. Qed.
Print Assumptions C39_origin_choice.
Theorem C39_equal_intensities : forall i c, i + match c with None => 0 | Some (l, j) => l * j end <> 0 ->
  fst (calc_flip_ratio_by_iint i i c) = 1 /\ fst (calc_asymmetry_by_iint i i c) = 0.
Proof. exact ratio_one. Qed.
Print Assumptions C39_equal_intensities.
Theorem C39_asymmetry_of_ratio : forall p m c, m + match c with None => 0 | Some (l, j) => l * j end <> 0 ->
  p + m + match c with None => 0 | Some (l, j) => 2 * l * j end <> 0 ->
  let r := fst (calc_flip_ratio_by_iint p m c) in fst (calc_asymmetry_by_iint p m c) = (r - 1) / (r + 1).
Proof. exact ratio_asym. Qed.
Print Assumptions C39_asymmetry_of_ratio.

(** Every entry of the dictionaries is the partial derivative with respect to the input its key names; the extinction
    callable is any function with right derivatives. *)
Theorem C40_iint : forall f s, good_ext (a_ext (s_arg s)) -> unit_axis (a_axis (s_arg s)) ->
  right_dder (fun s => ip (calc_iint f (s_arg s))) s (dp (calc_iint f (s_arg s))) /\
  right_dder (fun s => im (calc_iint f (s_arg s))) s (dm (calc_iint f (s_arg s))).
Proof. exact (fun f s G U => conj (iint_dp f s G U) (iint_dm f s G U)). Qed.
Print Assumptions C40_iint.
Theorem C40_requested_entries_present : forall f a,
  (fl_bp f = true -> dp (calc_iint f a) K_bp <> None /\ dm (calc_iint f a) K_bp <> None) /\
  (fl_fe f = true -> dm (calc_iint f a) K_fe <> None) /\
  (fl_fn f = true -> forall k, In k (K_fn_re :: K_fn_im :: nil) -> dp (calc_iint f a) k <> None /\ dm (calc_iint f a) k <> None) /\
  (fl_fm f = true -> forall i, dp (calc_iint f a) (K_fm_re i) <> None /\ dm (calc_iint f a) (K_fm_re i) <> None /\
     dp (calc_iint f a) (K_fm_im i) <> None /\ dm (calc_iint f a) (K_fm_im i) <> None).
Proof. exact requested. Qed.
Print Assumptions C40_requested_entries_present.
(** Intensities contaminated by half the wavelength. *)
Theorem C40_intensities_by_structure_factors : forall f f2 s, good_ext (a_ext (s_arg s)) -> unit_axis (a_axis (s_arg s)) ->
  right_dder (fun s => ip (both f f2 s)) s (dp (both f f2 s)) /\ right_dder (fun s => im (both f f2 s)) s (dm (both f f2 s)).
Proof. exact both_d. Qed.
Print Assumptions C40_intensities_by_structure_factors.
Theorem C40_flip_ratio_by_structure_factors : forall f f2 s, good_ext (a_ext (s_arg s)) -> unit_axis (a_axis (s_arg s)) ->
  (im (both f f2 s) <> 0 -> right_dder (fun s => fst (ratio f f2 s)) s (snd (ratio f f2 s))) /\
  (im (calc_iint f (s_arg s)) <> 0 -> right_dder (fun s => fst (ratio0 f f2 s)) s (snd (ratio0 f f2 s))).
Proof. exact (fun f f2 s G U => conj (ratio_d f f2 s G U) (ratio0_d f f2 s G U)). Qed.
Print Assumptions C40_flip_ratio_by_structure_factors.
Theorem C40_flip_ratio_by_iint : forall p m l j, m + l * j <> 0 -> let d := snd (calc_flip_ratio_by_iint p m (Some (l, j))) in
  is_derive (fun t => fst (calc_flip_ratio_by_iint t m (Some (l, j)))) p (d_plus d) /\
  is_derive (fun t => fst (calc_flip_ratio_by_iint p t (Some (l, j)))) m (d_minus d) /\
  is_derive (fun t => fst (calc_flip_ratio_by_iint p m (Some (t, j)))) l (d_lambda2 d) /\
  is_derive (fun t => fst (calc_flip_ratio_by_iint p m (Some (l, t)))) j (d_2hkl d).
Proof. exact fr_d. Qed.
Print Assumptions C40_flip_ratio_by_iint.
Theorem C40_flip_ratio_by_iint_pure : forall p m, m <> 0 -> let d := snd (calc_flip_ratio_by_iint p m None) in
  is_derive (fun t => fst (calc_flip_ratio_by_iint t m None)) p (d_plus d) /\
  is_derive (fun t => fst (calc_flip_ratio_by_iint p t None)) m (d_minus d).
Proof. exact fr_d0. Qed.
Print Assumptions C40_flip_ratio_by_iint_pure.
Theorem C40_asymmetry_by_iint : forall p m l j, p + m + 2 * l * j <> 0 -> let d := snd (calc_asymmetry_by_iint p m (Some (l, j))) in
  is_derive (fun t => fst (calc_asymmetry_by_iint t m (Some (l, j)))) p (d_plus d) /\
  is_derive (fun t => fst (calc_asymmetry_by_iint p t (Some (l, j)))) m (d_minus d) /\
  is_derive (fun t => fst (calc_asymmetry_by_iint p m (Some (t, j)))) l (d_lambda2 d) /\
  is_derive (fun t => fst (calc_asymmetry_by_iint p m (Some (l, t)))) j (d_2hkl d).
Proof. exact as_d. Qed.
Print Assumptions C40_asymmetry_by_iint.
Theorem C40_asymmetry_by_iint_pure : forall p m, p + m <> 0 -> let d := snd (calc_asymmetry_by_iint p m None) in
  is_derive (fun t => fst (calc_asymmetry_by_iint t m None)) p (d_plus d) /\
  is_derive (fun t => fst (calc_asymmetry_by_iint p t None)) m (d_minus d).
Proof. exact as_d0. Qed.
Print Assumptions C40_asymmetry_by_iint_pure.
(** A callable with right derivatives exists: y = exp(-g F^2) with the parameter g. *)
Example C40_case : good_ext (Some (mkE (fun _ => 2) (fun p x => exp (- p "g"%string * x)) (fun p x => - p "g"%string * exp (- p "g"%string * x))
  ("g"%string :: nil) (fun _ p x => - x * exp (- p "g"%string * x)))) /\ unit_axis (mkV (3/5) 0 (-4/5)).
Proof.
  split; [|unfold unit_axis, Rsqr; cbn; lra]. split.
  - intros x _. cbn. auto_derive; [exact I|]. unfold Rdiv; ring.
  - intros n x _ [<-|[]]. cbn. unfold upd. cbn. auto_derive; [exact I|]. ring.
Qed.
