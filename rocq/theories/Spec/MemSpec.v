(** Independent vocabulary for the density reconstruction. *)
From Coq Require Import Reals List.
From Coquelicot Require Import Complex.
From Verif Require Import Spec.Lin3 Spec.Density Spec.Intens Model.FlipRatio Model.MemIter.
Import ListNotations.
Open Scope R_scope.

(** The list with t instead of its element number j. *)
Fixpoint with_nth (l : list R) (j : nat) (t : R) : list R :=
  match l, j with [], _ => [] | _ :: r, O => t :: r | x :: r, S j => x :: with_nth r j t end.
Definition with_plus (d : dens) (j : nat) (t : R) : dens := ((with_nth (fst (fst d)) j t, snd (fst d)), snd d).
Definition with_minus (d : dens) (j : nat) (t : R) : dens := ((fst (fst d), with_nth (snd (fst d)) j t), snd d).
Definition with_chi (d : dens) (j : nat) (t : R) : dens := (fst d, with_nth (snd d) j t).
(** Extinction with right derivatives, a unit vector as field direction, and no division by zero in the ratio fitted. *)
Definition regular (p : mpar) (d : dens) : Prop := forall r, In r (pa_refl p) ->
  good_ext (mr_ext r) /\ unit_axis (mr_axis r) /\
  let a := mkArg (mr_bp r) (mr_fe r) (mr_fn r) (f_m_perp_of (pa_plus p) (pa_minus p) r d) (mr_axis r) (mr_ext r) in
  if pa_asym p then iint_plus_of a + iint_minus_of a <> 0 else iint_minus_of a <> 0.
(** Densities that are not negative, one for each point, with integral one in each channel that is switched on: for each row of the density,
    and for each atom. *)
Definition proper_row (p : mpar) (row : list R) : Prop :=
  length row = length (pa_mult p) /\ (forall x, In x row -> 0 <= x) /\ integral (pa_volume p) (pa_number p) row (pa_mult p) = 1.
Definition proper (p : mpar) (d : dens) : Prop :=
  (pa_on_col p = true -> proper_row p (fst (fst d)) /\ proper_row p (snd (fst d))) /\
  (pa_on_chi p = true -> length (snd d) = length (pa_points p) /\ (forall x, In x (snd d) -> 0 <= x) /\
     forall q, In q (pa_points p) -> atom_integral (pa_volume p) (pa_number p) (mp_label q)
       (map (fun x => mkMP (fst x) (mp_mult (snd x)) (mp_label (snd x)) (mp_amult (snd x))) (combine (snd d) (pa_points p))) = 1).
Definition sensible (p : mpar) : Prop :=
  0 < pa_volume p /\ 0 < pa_number p /\ (forall m, In m (pa_mult p) -> 0 < m) /\ (forall q, In q (pa_points p) -> 0 < mp_mult q /\ 0 < mp_amult q).
