(** Independent vocabulary for lists of reflections. *)
From Coq Require Import Reals ZArith List.
From Verif Require Import Spec.Lin3 Spec.Cell Spec.Symm Spec.Scatter.
Import ListNotations.
Open Scope R_scope.

(** Reflections related by the rotation of an operation of the list or, when [c], by its negative. *)
Definition equivalent (ops : list Op) (c : bool) (h g : V3 Z) : Prop :=
  exists e, In e ops /\ (is_hR h e g \/ (c = true /\ exists k, is_hR h e k /\ forall i, vget g i = (- vget k i)%Z)).
(** The rotations of the list (with their negatives when [c]) form a group. *)
Definition is_rotation_product (r : M3 Z) (a b : M3 Z) : Prop := forall i j,
  mget r i j = (mget a i X1 * mget b X1 j + mget a i X2 * mget b X2 j + mget a i X3 * mget b X3 j)%Z.
Definition up_to_sign (c : bool) (a b : M3 Z) : Prop :=
  (forall i j, mget a i j = mget b i j) \/ (c = true /\ forall i j, mget a i j = (- mget b i j)%Z).
Definition rotation_group (ops : list Op) (c : bool) : Prop :=
  (exists e, In e ops /\ up_to_sign c (e_r e) (mkM 1 0 0 0 1 0 0 0 1)%Z) /\
  (forall e f, In e ops -> In f ops -> exists g r, In g ops /\ is_rotation_product r (e_r e) (e_r f) /\ up_to_sign c (e_r g) r) /\
  (forall e, In e ops -> exists f r, In f ops /\ is_rotation_product r (e_r e) (e_r f) /\ up_to_sign c r (mkM 1 0 0 0 1 0 0 0 1)%Z).
(** Centring translations: a group modulo lattice translations, mapped onto itself by the rotations. *)
Definition translation_op (t : V3 Z * Z) : Op := mkE (fst t) (snd t) (mkM 1 0 0 0 1 0 0 0 1)%Z.
Definition centring_group (ts : list (V3 Z * Z)) (ops : list Op) : Prop :=
  symmetry_group (map translation_op ts) /\
  forall e t, In e ops -> In t ts -> exists t', In t' ts /\
    same_point (fun i => sum3 (fun j => IZR (mget (e_r e) i j) * frac (fst t) (snd t) j)) (frac (fst t') (snd t')).
(** Present: h.t is an integer for every centring translation. *)
Definition present (ts : list (V3 Z * Z)) (h : V3 Z) : Prop := forall t, In t ts -> exists n : Z, hdot h (frac (fst t) (snd t)) = IZR n.
