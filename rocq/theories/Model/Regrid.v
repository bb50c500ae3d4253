(** Model of cryspy/A_functions_base/function_1_gamma_nu.py.  Floats are reals; a matrix is a list of rows; a cell is [option R], None
    being a value for which arithmetic raises (Python's None).  The outer [option] is None where the function raises. *)
From Coq Require Import Reals List ZArith.
From Verif Require Import Model.Profile.
Import ListNotations.
Open Scope R_scope.

(** l.14-30 gammanu_to_tthphi *)
Definition gammanu_to_tthphi (gamma nu : R) : R * R := (acos (cos gamma * cos nu), arctan2 (sin nu) (cos nu * sin gamma)).
(** l.33-37 tthphi_to_gammanu *)
Definition tthphi_to_gammanu (tth phi : R) : R * R := (arctan2 (cos phi * sin tth) (cos tth), asin (sin tth * sin phi)).
(** l.105-112 app_2d *)
Definition app_2d (f11 f12 f21 f22 : option R) (nx ny : R) : option R :=
  match f11, f12, f21, f22 with
  | Some f11, Some f12, Some f21, Some f22 =>
    let res2 := f21 - nx * (f21 - f22) in
    let res1 := f11 - nx * (f11 - f12) in
    Some (res1 - ny * (res1 - res2))
  | _, _, _, _ => None
  end.
(** x // 1. and x % 1. *)
Definition floor (x : R) : Z := (up x - 1)%Z.
Definition frac (x : R) : R := x - IZR (floor x).
Definition at2 (mat : list (list (option R))) (j i : nat) : option (option R) :=
  match nth_error mat j with Some row => nth_error row i | None => None end.
(** l.81-101, one point *)
Definition app_point (mat : list (list (option R))) (min_x step_x min_y step_y : R) (n_x n_y : nat) (val_x val_y : R) : option (option R) :=
  let n_tot_x := (val_x - min_x) / step_x in
  let n_tot_y := (val_y - min_y) / step_y in
  if Rle_dec 0 n_tot_x then if Rlt_dec n_tot_x (INR n_x - 1) then if Rle_dec 0 n_tot_y then if Rlt_dec n_tot_y (INR n_y - 1) then
    let nx := frac n_tot_x in let ny := frac n_tot_y in
    let ind_x := Z.to_nat (floor n_tot_x) in let ind_y := Z.to_nat (floor n_tot_y) in
    match at2 mat ind_y ind_x, at2 mat ind_y (ind_x + 1), at2 mat (ind_y + 1) ind_x, at2 mat (ind_y + 1) (ind_x + 1) with
    | Some f11, Some f12, Some f21, Some f22 => Some (app_2d f11 f12 f21 f22 nx ny)
    | _, _, _, _ => None
    end
  else Some None else Some None else Some None else Some None.
Fixpoint all_some {A} (l : list (option A)) : option (list A) :=
  match l with
  | [] => Some []
  | None :: _ => None
  | Some x :: l => match all_some l with Some r => Some (x :: r) | None => None end
  end.
(** l.74-102 app_grid; the points are pairs, so the test of l.82-86 always succeeds.  An empty grid or one of a single value raises
    (l.76-80), and a step of zero does for the first point. *)
Definition app_grid (mat : list (list (option R))) (x_grid y_grid : list R) (l_point : list (R * R)) : option (list (option R)) :=
  match x_grid, y_grid with
  | x0 :: xs, y0 :: ys =>
    let n_x := length x_grid in let n_y := length y_grid in
    if (n_x =? 1)%nat then None else if (n_y =? 1)%nat then None else
    let step_x := (last x_grid x0 - x0) / (INR n_x - 1) in
    let step_y := (last y_grid y0 - y0) / (INR n_y - 1) in
    match l_point with
    | [] => Some []
    | _ => if Req_EM_T step_x 0 then None else if Req_EM_T step_y 0 then None else
           all_some (map (fun p => app_point mat x0 step_x y0 step_y n_x n_y (fst p) (snd p)) l_point)
    end
  | _, _ => None
  end.
(** l.51-53, l.68-70: the flat list cut into rows: row j, column i is number i + j n *)
Definition rows (flat : list (option R)) (n m : nat) : list (list (option R)) :=
  map (fun j => map (fun i => nth (i + j * n) flat None) (seq 0 n)) (seq 0 m).
(** l.40-54 recal_int_to_tthphi_grid *)
Definition recal_int_to_tthphi_grid (l_gamma l_nu : list R) (ll_int : list (list (option R))) (l_ttheta l_phi : list R) : option (list (list (option R))) :=
  let l_point := flat_map (fun phi => map (fun tth => tthphi_to_gammanu tth phi) l_ttheta) l_phi in
  match app_grid ll_int l_gamma l_nu l_point with
  | Some flat => Some (rows flat (length l_ttheta) (length l_phi))
  | None => None
  end.
(** l.57-71 recal_int_to_gammanu_grid *)
Definition recal_int_to_gammanu_grid (l_tth l_phi : list R) (ll_int : list (list (option R))) (l_gamma l_nu : list R) : option (list (list (option R))) :=
  let l_point := flat_map (fun nu => map (fun gamma => gammanu_to_tthphi gamma nu) l_gamma) l_nu in
  match app_grid ll_int l_tth l_phi l_point with
  | Some flat => Some (rows flat (length l_gamma) (length l_nu))
  | None => None
  end.
