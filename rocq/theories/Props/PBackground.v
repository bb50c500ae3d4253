(** Property theorems C55: backgrounds of powder profiles. *)
From Coq Require Import Reals Lra Lia List Bool Arith.
From Coquelicot Require Import Hierarchy Derive.
From Verif Require Import Spec.Interp Model.Background Proofs.BackgroundP Proofs.BackgroundP2.
Import ListNotations.
Open Scope list_scope.
Open Scope R_scope.

(** For every strictly increasing table of at least two points and every non-empty array of angles the background is
    returned and each value lies on the polygonal line through the points, linearly continued outside. *)
Theorem C55_piecewise_linear : forall ts xs ys,
  ts <> [] -> increasing xs -> (2 <= length xs)%nat -> length xs = length ys ->
  exists out, calc_background ts xs ys = Some out /\ length out = length ts /\
    forall k, (k < length ts)%nat -> interp_linear xs (fun i => nth i ys 0) (nth k ts 0) (nth k out 0).
Proof. exact calc_background_ok. Qed.
Print Assumptions C55_piecewise_linear.
(** The specification determines the value, *)
Theorem C55_value_unique : forall xs f t v w, increasing xs -> (2 <= length xs)%nat ->
  interp_linear xs f t v -> interp_linear xs f t w -> v = w.
Proof. exact interp_linear_unique. Qed.
Print Assumptions C55_value_unique.
(** at the points of the table the tabulated intensities are returned, *)
Theorem C55_table_points : forall xs ys, increasing xs -> (2 <= length xs)%nat -> length xs = length ys ->
  calc_background xs xs ys = Some ys.
Proof. exact calc_background_nodes. Qed.
Print Assumptions C55_table_points.
(** and the background is linear in the intensities. *)
Theorem C55_linear_in_intensities : forall ts xs ys1 ys2 a b,
  ts <> [] -> increasing xs -> (2 <= length xs)%nat -> length xs = length ys1 -> length xs = length ys2 ->
  exists o1 o2, calc_background ts xs ys1 = Some o1 /\ calc_background ts xs ys2 = Some o2 /\
    calc_background ts xs (map (fun p => a * fst p + b * snd p) (combine ys1 ys2)) =
      Some (map (fun p => a * fst p + b * snd p) (combine o1 o2)).
Proof. exact calc_background_linear. Qed.
Print Assumptions C55_linear_in_intensities.
(** The reported derivative with respect to the intensities is not the derivative (it is an array of zeros). *)
Theorem C55_derivative_refuted : exists ts xs ys : list R, exists j k : nat, exists d : R,
    increasing xs /\ (2 <= length xs)%nat /\ length xs = length ys /\
    is_derive (fun y : R => match calc_background ts xs (firstn j ys ++ y :: skipn (S j) ys) with
                        | Some out => nth k out 0 | None => 0 end) (nth j ys 0) d /\
    nth j (nth k (calc_background_dder ts xs ys) []) 0 <> d.
Proof. exact bkg_dder_wrong. Qed.
Print Assumptions C55_derivative_refuted.
Example C55_case : calc_background [1/2] [0; 1] [3; 5] = Some [(3 + 5) / 2].
Proof. apply mid_value. Qed.

(** Two-dimensional background (polarised powder, gamma-nu): bilinear in the table, continued by constants; also for
    tables with one row or column. *)
Theorem C55_bilinear_2d : forall ga nu ga_p nu_p s,
  ga <> [] -> nu <> [] -> ga_p <> [] -> nu_p <> [] -> increasing ga_p -> increasing nu_p ->
  rect (length ga_p) (length nu_p) s ->
  exists out, calc_background_2d ga nu ga_p nu_p s = Some out /\
    length out = length ga /\
    forall k l, (k < length ga)%nat -> (l < length nu)%nat ->
      interp_bilinear ga_p nu_p (fun i j => nth j (nth i s []) 0) (nth k ga 0) (nth l nu 0)
        (nth l (nth k out []) 0).
Proof. exact calc_background_2d_ok. Qed.
Print Assumptions C55_bilinear_2d.
Theorem C55_derivative_2d_refuted : exists ga nu ga_p nu_p : list R, exists s : R -> list (list R), exists y d : R,
    ga <> [] /\ nu <> [] /\ increasing ga_p /\ increasing nu_p /\
    (forall a, rect (length ga_p) (length nu_p) (s a)) /\
    (forall a i j, nth j (nth i (s a) []) 0 = if ((i =? 0) && (j =? 0))%nat then a else 0) /\
    is_derive (fun a : R => match calc_background_2d ga nu ga_p nu_p (s a) with
                        | Some out => nth 0 (nth 0 out []) 0 | None => 0 end) y d /\
    calc_background_2d_dder ga nu ga_p nu_p (s y) 0 0 0 0 <> d.
Proof. exact bkg2_dder_wrong. Qed.
Print Assumptions C55_derivative_2d_refuted.
Example C55_case_2d : increasing [0; 1] /\ rect 2 2 [[1; 2]; [3; 4]] /\
  match calc_background_2d [0; 1/2] [0] [0; 1] [0; 1] [[1; 2]; [3; 4]] with
  | Some out => nth 0 (nth 0 out []) 0 | None => 0 end = 1.
Proof. split; [exact incr01|]. split; [split; [reflexivity|intros r [<-|[<-|[]]]; reflexivity]|]. exact (bkg2_value 1 2 3 4). Qed.

(** Cosine background (time of flight): y(x) = sum_i c_i cos(i pi (x - x_min)/x_max), and the reported derivative with
    respect to the coefficients is right. *)
Theorem C55_cosines : forall xs cs x_min x_max k, (k < length xs)%nat ->
  nth k (calc_background_by_cosines xs cs x_min (Some x_max)) 0 =
  fold_right Rplus 0 (map (fun p => snd p * cos (INR (fst p) * PI * ((nth k xs 0 - x_min) / x_max)))
                          (combine (seq 0 (length cs)) cs)).
Proof. exact cosines_value. Qed.
Print Assumptions C55_cosines.
Theorem C55_cosines_derivative : forall xs a c0 b x_min x_max k, (k < length xs)%nat ->
  is_derive (fun c : R => nth k (calc_background_by_cosines xs (a ++ c :: b) x_min x_max) 0) c0
    (nth k (nth (length a) (calc_background_by_cosines_dder xs (a ++ c0 :: b) x_min x_max) []) 0).
Proof. exact cosines_derivative. Qed.
Print Assumptions C55_cosines_derivative.
Example C55_case_cosines : (1 < length [1; 2])%nat /\ nth 1 (calc_background_by_cosines [1; 2] [3; 4] 0 (Some 2)) 0 = -1.
Proof.
  split; [simpl; lia|]. simpl. unfold cos_res. simpl.
  replace (0 * ((2 - 0) / 2 * PI)) with 0 by ring. replace (1 * ((2 - 0) / 2 * PI)) with PI by field.
  rewrite cos_0, cos_PI. ring.
Qed.
