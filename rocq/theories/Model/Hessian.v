(** Model of the inverse Hessian and the correlation matrix:
    /repo/cryspy/C_item_loop_classes/cl_1_inversed_hessian.py l.9-16 inversed_hessian_to_correlation,
      l.90-110 form_object, l.112-128 setters, l.130-168 form_inversed_hessian;
    /repo/cryspy/A_functions_base/function_1_inversed_hessian.py l.16-75 estimate_inversed_hessian_matrix.
    Floating point numbers are reals; matrices of any size are index functions. *)
From Coq Require Import Reals List Arith String.
From Verif Require Import Spec.LinN.
Import ListNotations.
Open Scope R_scope.

(** l.11-13: np_sigma = sqrt(abs(diagonal)) *)
Definition hess_sigma (h : mat) : vec := fun i => sqrt (Rabs (h i i)).
(** l.14-15: inv_hessian / (sigma_i sigma_j) *)
Definition hess_corr (h : mat) : mat := fun i j => h i j / (hess_sigma h i * hess_sigma h j).

(** numpy.argsort(np_label), as insertion sort of the indices (stable; numpy's default sort is not, which matters for
    repeated labels only). Strings are compared character by character. *)
Fixpoint ins (key : nat -> string) (i : nat) (l : list nat) : list nat :=
  match l with
  | [] => [i]
  | j :: r => if String.leb (key i) (key j) then i :: l else j :: ins key i r
  end.
Definition argsort (labels : list string) : list nat :=
  fold_right (ins (fun i => nth i labels EmptyString)) [] (seq 0 (List.length labels)).

(** x[arg_sort], m[arg_sort, :][:, arg_sort] *)
Definition take_labels (p : list nat) (labels : list string) : list string := map (fun i => nth i labels EmptyString) p.
Definition take_vec (p : list nat) (v : vec) : vec := fun k => v (nth k p 0%nat).
Definition take_mat (p : list nat) (m : mat) : mat := fun k l => m (nth k p 0%nat) (nth l p 0%nat).

(** attributes of the item; None = not set *)
Record inv_hess := mkH { h_label : option (list string); h_matrix : option mat; h_corr : option mat; h_sigma : option vec }.

(** l.130-168 form_inversed_hessian (the text of with_labels is modelled by [text_of] below) *)
Definition form_inversed_hessian (o : inv_hess) : inv_hess :=
  match h_label o with
  | None => o
  | Some lab =>
      let p := argsort lab in
      let o1 := mkH (Some (take_labels p lab)) (option_map (take_mat p) (h_matrix o))
                    (option_map (take_mat p) (h_corr o)) (option_map (take_vec p) (h_sigma o)) in
      match h_matrix o1, h_corr o1, h_sigma o1 with
      | None, Some c, Some s => mkH (h_label o1) (Some (fun i j => c i j * s i * s j)) (h_corr o1) (h_sigma o1)
      | _, _, _ => o1
      end
  end.

(** f"{val:.10f}" read back as a number: rounding to a multiple of 1e-10 (simplification: ties go up) *)
Definition round10 (x : R) : R := IZR (Int_part (x * 10 ^ 10 + 1 / 2)) / 10 ^ 10.
(** the labels and numbers in the text with_labels (l.152-154) *)
Definition text_of (o : inv_hess) : option (list string * mat) :=
  match h_label o, h_matrix o with
  | Some lab, Some m => Some (lab, fun i j => round10 (m i j))
  | _, _ => None
  end.
(** l.90-110 form_object *)
Definition form_object (t : list string * mat) : inv_hess :=
  let p := argsort (fst t) in
  let m := take_mat p (snd t) in
  mkH (Some (take_labels p (fst t))) (Some m) (Some (hess_corr m)) (Some (hess_sigma m)).

(** function_1_inversed_hessian.py l.25-27, l.51-53: step of a parameter *)
Definition hess_step (p : R) : R :=
  let d := 1 / 100 * Rabs p in if Rlt_dec d (1 / 100000) then 1 / 100000 else d.
(** param[i] += d *)
Definition bump (v : vec) (i : nat) (d : R) : vec := fun k => if Nat.eq_dec k i then v k + d else v k.
Definition set2 (m : mat) (i j : nat) (x : R) : mat :=
  fun a b => if Nat.eq_dec a i then (if Nat.eq_dec b j then x else m a b) else m a b.

(** l.49-73: one pass of the inner loop; the state is the matrix and the four parameter arrays, which are shifted and
    shifted back *)
Definition hess_inner (func : vec -> R) (p0 : vec) (i : nat) (st : mat * vec * vec * vec * vec) (j : nat) : mat * vec * vec * vec * vec :=
  let '(h, pp, pm, mp, mm) := st in
  let d1 := hess_step (p0 i) in
  let d2 := hess_step (p0 j) in
  let pp := bump pp j d2 in
  let pm := bump pm j (- d2) in
  let mp := bump mp j d2 in
  let mm := bump mm j (- d2) in
  let der := (func pp + func mm - func pm - func mp) / (4 * d1 * d2) in
  let h := set2 (set2 h i j der) j i der in
  (h, bump pp j (- d2), bump pm j d2, bump mp j (- d2), bump mm j d2).
(** l.24-48: one pass of the outer loop *)
Definition hess_outer (func : vec -> R) (p0 : vec) (h : mat) (i : nat) : mat :=
  let d1 := hess_step (p0 i) in
  let '(h', _, _, _, _) :=
    fold_left (hess_inner func p0 i) (seq 0 (i + 1)) (h, bump p0 i d1, bump p0 i d1, bump p0 i (- d1), bump p0 i (- d1)) in h'.
(** np_hessian after the loops *)
Definition hess_matrix (func : vec -> R) (n : nat) (p0 : vec) : mat := fold_left (hess_outer func p0) (seq 0 n) (fun _ _ => 0).
(** l.75-79: (np_hessian_inv, np_first_der); np_first_der is never filled. [inv] is numpy.linalg.inv (None = LinAlgError). *)
Definition estimate_inversed_hessian_matrix (inv : nat -> mat -> option mat) (func : vec -> R) (n : nat) (p0 : vec) : option mat * vec :=
  (inv n (hess_matrix func n p0), fun _ => 0).
