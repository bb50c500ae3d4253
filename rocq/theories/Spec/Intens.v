(** Vocabulary for the statements about intensities: which input a key of the returned dictionaries names, and what
    it means to vary that input alone. *)
From Coq Require Import Reals String List.
From Coquelicot Require Import Coquelicot.
From Verif Require Import Spec.Lin3 Model.FlipRatio.
Open Scope R_scope.

(** Components of a returned tuple (iint_plus, iint_minus, dder_plus, dder_minus). *)
Definition ip (x : R * R * dict * dict) : R := let '(a, _, _, _) := x in a.
Definition im (x : R * R * dict * dict) : R := let '(_, a, _, _) := x in a.
Definition dp (x : R * R * dict * dict) : dict := let '(_, _, a, _) := x in a.
Definition dm (x : R * R * dict * dict) : dict := let '(_, _, _, a) := x in a.

Definition upd (p : string -> R) (s : string) (t : R) : string -> R := fun s' => if String.eqb s' s then t else p s'.
(** Everything the polarised intensities of one reflection, contaminated by its half-wavelength reflection, depend on. *)
Record setup := mkS { s_arg : arg; s_l2 : R; s_fn2 : cx; s_fm2 : V3 cx }.

(** The number in [s] named by the key. *)
Definition entry (s : setup) (k : key) : R :=
  let a := s_arg s in
  match k with
  | K_bp => a_bp a | K_fe => a_fe a
  | K_fn_re => fst (a_fn a) | K_fn_im => snd (a_fn a)
  | K_fm_re i => fst (vget (a_fm a) i) | K_fm_im i => snd (vget (a_fm a) i)
  | K_ext n => match a_ext a with Some e => e_par e n | None => 0 end
  | K_fn2_re => fst (s_fn2 s) | K_fn2_im => snd (s_fn2 s)
  | K_fm2_re i => fst (vget (s_fm2 s) i) | K_fm2_im i => snd (vget (s_fm2 s) i)
  | K_lambda2 => s_l2 s
  end.
(** [s] with that number replaced by t and everything else unchanged. *)
Definition vary (s : setup) (k : key) (t : R) : setup :=
  let '(mkS (mkArg bp fe fn fm ax e) l2 fn2 fm2) := s in
  match k with
  | K_bp => mkS (mkArg t fe fn fm ax e) l2 fn2 fm2
  | K_fe => mkS (mkArg bp t fn fm ax e) l2 fn2 fm2
  | K_fn_re => mkS (mkArg bp fe (t, snd fn) fm ax e) l2 fn2 fm2
  | K_fn_im => mkS (mkArg bp fe (fst fn, t) fm ax e) l2 fn2 fm2
  | K_fm_re i => mkS (mkArg bp fe fn (vset fm i (t, snd (vget fm i))) ax e) l2 fn2 fm2
  | K_fm_im i => mkS (mkArg bp fe fn (vset fm i (fst (vget fm i), t)) ax e) l2 fn2 fm2
  | K_ext n => mkS (mkArg bp fe fn fm ax
      match e with Some (mkE p y dy ks dk) => Some (mkE (upd p n t) y dy ks dk) | None => None end) l2 fn2 fm2
  | K_fn2_re => mkS (mkArg bp fe fn fm ax e) l2 (t, snd fn2) fm2
  | K_fn2_im => mkS (mkArg bp fe fn fm ax e) l2 (fst fn2, t) fm2
  | K_fm2_re i => mkS (mkArg bp fe fn fm ax e) l2 fn2 (vset fm2 i (t, snd (vget fm2 i)))
  | K_fm2_im i => mkS (mkArg bp fe fn fm ax e) l2 fn2 (vset fm2 i (fst (vget fm2 i), t))
  | K_lambda2 => mkS (mkArg bp fe fn fm ax e) t fn2 fm2
  end.

(** The derivatives the extinction callable reports are those of its value (asked at non-negative F^2). *)
Definition good_ext (e : option ext) : Prop :=
  match e with
  | None => True
  | Some e =>
    (forall x, 0 <= x -> is_derive (e_y e (e_par e)) x (e_dy e (e_par e) x)) /\
    (forall n x, 0 <= x -> In n (e_keys e) -> is_derive (fun t => e_y e (upd (e_par e) n t) x) (e_par e n) (e_dk e n (e_par e) x))
  end.
(** The dictionary [d] holds only right partial derivatives of the quantity q. *)
Definition right_dder (q : setup -> R) (s : setup) (d : dict) : Prop :=
  forall k v, d k = Some v -> is_derive (fun t => q (vary s k t)) (entry s k) v.

Definition unit_axis (v : V3 R) : Prop := Rsqr (v_1 v) + Rsqr (v_2 v) + Rsqr (v_3 v) = 1.
(** The same measurement with another polarisation / the magnetisation axis and polarisation reversed / all structure
    factors multiplied by the phase factor exp(i phi) (another choice of origin). *)
Definition with_bp (a : arg) (p : R) : arg := mkArg p (a_fe a) (a_fn a) (a_fm a) (a_axis a) (a_ext a).
Definition reversed (a : arg) : arg :=
  mkArg (- a_bp a) (a_fe a) (a_fn a) (a_fm a) (mkV (- v_1 (a_axis a)) (- v_2 (a_axis a)) (- v_3 (a_axis a))) (a_ext a).
Definition cmul (u v : cx) : cx := (fst u * fst v - snd u * snd v, fst u * snd v + snd u * fst v).
Definition phased (a : arg) (u : cx) : arg :=
  mkArg (a_bp a) (a_fe a) (cmul u (a_fn a)) (mkV (cmul u (v_1 (a_fm a))) (cmul u (v_2 (a_fm a))) (cmul u (v_3 (a_fm a)))) (a_axis a) (a_ext a).
(** The intensities and the flip ratio of a set-up with and without half-wavelength contamination. *)
Definition both f f2 (s : setup) := calc_intensities_by_structure_factors f f2 (s_arg s) (Some (s_l2 s, s_fn2 s, s_fm2 s)).
Definition ratio f f2 (s : setup) := calc_flip_ratio_by_structure_factors f f2 (s_arg s) (Some (s_l2 s, s_fn2 s, s_fm2 s)).
Definition ratio0 f f2 (s : setup) := calc_flip_ratio_by_structure_factors f f2 (s_arg s) None.
(** Chiral scattering: the component along the axis of i times the product of M and its conjugate, i.e. 2 axis . (Im M x Re M). *)
Definition chiral (a : arg) : R :=
  let re := fun i => fst (vget (a_fm a) i) in let im := fun i => snd (vget (a_fm a) i) in let n := vget (a_axis a) in
  2 * (n X1 * (im X2 * re X3 - re X2 * im X3) + n X2 * (im X3 * re X1 - re X3 * im X1) + n X3 * (im X1 * re X2 - re X1 * im X2)).
