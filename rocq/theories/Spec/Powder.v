(** Vocabulary for the statements about powder intensities. *)
From Coq Require Import Reals Bool.
From Coquelicot Require Import Coquelicot.
From Verif Require Import Spec.Lin3 Model.FlipRatio Model.PowderInt Spec.Intens.
Open Scope R_scope.

Definition same (v w : var) : bool :=
  let part_b p q := match p, q with Re, Re | Im, Im => true | _, _ => false end in
  let ix_b i j := match i, j with X1, X1 | X2, X2 | X3, X3 => true | _, _ => false end in
  match v, w with
  | Fn p, Fn q => part_b p q
  | Sg i j p, Sg i' j' q => ix_b i i' && ix_b j j' && part_b p q
  | Fm i p, Fm i' q => ix_b i i' && part_b p q
  | Pol, Pol | Flip, Flip | Field, Field | Alpha, Alpha => true
  | _, _ => false
  end.
(** All arguments as in e but one of them, which is t. *)
Definition with_ (e : env) (v : var) (t : R) : env := fun w => if same w v then t else e w.
(** Every number in the dictionary is the partial derivative of q with respect to the argument it is filed under. *)
Definition right (q : env -> R) (e : env) (d : pdict) : Prop :=
  forall v x, d v = Some x -> is_derive (fun t => q (with_ e v t)) (e v) x.
(** The same, except perhaps for the arguments in ex. *)
Definition right_but (ex : var -> bool) (q : env -> R) (e : env) (d : pdict) : Prop :=
  forall v x, d v = Some x -> ex v = false -> is_derive (fun t => q (with_ e v t)) (e v) x.

(** Orientation of a crystallite.  The scattering vector is the third axis.  The field, and with it the polarisation,
    makes the angle alpha with it; phi is the angle of rotation of the crystallite about the scattering vector. *)
Definition field_dir (alpha phi : R) : V3 R := mkV (sin alpha * cos phi) (sin alpha * sin phi) (cos alpha).
Definition cadd (u v : cx) : cx := (fst u + fst v, snd u + snd v).
Definition cscale (t : R) (u : cx) : cx := (t * fst u, t * snd u).
(** Structure factor of the moment induced by the field H n: component i of sigma (H n).  Neutrons see the components
    perpendicular to the scattering vector only. *)
Definition induced (e : env) (n : V3 R) (i : ix) : cx :=
  let s j := (e (Sg i j Re), e (Sg i j Im)) in
  match i with X3 => (0, 0) | _ =>
  cscale (e Field) (cadd (cadd (cscale (v_1 n) (s X1)) (cscale (v_2 n) (s X2))) (cscale (v_3 n) (s X3)))
  end.
Definition ordered (e : env) (i : ix) : cx := (e (Fm i Re), e (Fm i Im)).
Definition vec3 (f : ix -> cx) : V3 cx := mkV (f X1) (f X2) (f X3).
(** Single-crystal measurement (as calc_iint of flip_ratio.py takes it) of a crystallite with magnetic structure factor m
    in the orientation phi, without extinction. *)
Definition crystallite (e : env) (alpha phi : R) (m : V3 R -> ix -> cx) : arg :=
  let n := field_dir alpha phi in
  mkArg (e Pol) (e Flip) (e (Fn Re), e (Fn Im)) (vec3 (m n)) n None.
Definition para e := induced e.
Definition ord e := fun (_ : V3 R) => ordered e.
Definition mix e := fun n i => cadd (induced e n i) (ordered e i).
(** Average over the rotation of the crystallite about the scattering vector. *)
Definition powder_average (i : R -> R) : R := RInt i 0 (2 * PI) / (2 * PI).
Definition avg_plus (e : env) (alpha : R) m := powder_average (fun phi => ip (calc_iint (mkF false false false false) (crystallite e alpha phi m))).
Definition avg_minus (e : env) (alpha : R) m := powder_average (fun phi => im (calc_iint (mkF false false false false) (crystallite e alpha phi m))).
(** |sigma_12| = |sigma_21|; holds for the symmetric tensors of local susceptibility *)
Definition balanced (e : env) : Prop :=
  Rsqr (e (Sg X1 X2 Re)) + Rsqr (e (Sg X1 X2 Im)) = Rsqr (e (Sg X2 X1 Re)) + Rsqr (e (Sg X2 X1 Im)).
(** components of the returned tuples *)
Definition pip (x : R * R * pdict * pdict) : R := let '(a, _, _, _) := x in a.
Definition pim (x : R * R * pdict * pdict) : R := let '(_, a, _, _) := x in a.
Definition pdp (x : R * R * pdict * pdict) : pdict := let '(_, _, a, _) := x in a.
Definition pdm (x : R * R * pdict * pdict) : pdict := let '(_, _, _, a) := x in a.
Definition sig_13_23 (v : var) : bool := match v with Sg X1 X3 _ | Sg X2 X3 _ => true | _ => false end.
(** calc_powder_iint_1d_mix where it does not raise *)
Definition mix1 (f : pflags) (e : env) := calc_powder_iint_1d_mix f e.
Definition mixp (f : pflags) (e : env) : R := match mix1 f e with Some x => pip x | None => 0 end.
Definition mixm (f : pflags) (e : env) : R := match mix1 f e with Some x => pim x | None => 0 end.
