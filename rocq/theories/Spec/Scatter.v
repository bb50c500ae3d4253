(** Independent vocabulary for structure factors. *)
From Coq Require Import Reals ZArith List.
From Coquelicot Require Import Complex.
From Verif Require Import Spec.Lin3 Spec.Cell Spec.Symm.
Import ListNotations.
Open Scope list_scope.
Open Scope R_scope.

(** exp(-2 pi i t) *)
Definition phase (t : R) : C := (cos (2 * PI * t), - sin (2 * PI * t)).
Definition csum (l : list C) : C := fold_right Cplus (RtoC 0) l.
(** h . x *)
Definition hdot (h : V3 Z) (x : ix -> R) : R := sum3 (fun i => IZR (vget h i) * x i).
(** The row vector h R. *)
Definition is_hR (h : V3 Z) (e : Op) (g : V3 Z) : Prop :=
  forall i, IZR (vget g i) = sum3 (fun k => IZR (vget h k) * IZR (mget (e_r e) k i)).
(** Structure factor of the content of a cell: scattering length (times weight) and position of each nucleus. *)
Definition structure_factor (h : V3 Z) (content : list (C * (ix -> R))) : C :=
  csum (map (fun a => Cmult (fst a) (phase (hdot h (snd a)))) content).
(** The atoms of one cell generated by a list of operations from an atom at [x]: each point once. *)
Definition is_orbit (l : list Op) (x : ix -> R) (pts : list (ix -> R)) : Prop :=
  (forall p, In p pts -> exists e, In e l /\ same_point p (act e x)) /\
  ForallOrdPairs (fun p q => ~ same_point p q) pts /\
  (forall e, In e l -> exists p, In p pts /\ same_point (act e x) p).
(** An operation, a translation and an inversion centre as maps. *)
Definition real_valued (z : C) : Prop := snd z = 0.
