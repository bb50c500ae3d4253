(* Model of the background of powder profiles:
   /repo/cryspy/procedure_rhochi/rhochi_pd.py   l.30-61 calc_background
   /repo/cryspy/procedure_rhochi/rhochi_pd2d.py l.28-95 calc_background
   /repo/cryspy/procedure_rhochi/rhochi_tof.py  l.37-50 calc_background_by_cosines
   Floating point numbers are real numbers.  None stands for a raised
   exception (empty arrays, index out of range, shapes which do not match). *)
Require Import Reals List Bool Arith.
Import ListNotations.
Local Open Scope R_scope.

(* numpy array.min(), array.max() of a non-empty 1D array. *)
Definition lmin (l : list R) : R :=
  match l with [] => 0 | x :: r => fold_left Rmin r x end.
Definition lmax (l : list R) : R :=
  match l with [] => 0 | x :: r => fold_left Rmax r x end.

(* x[i] *)
Definition at_ (l : list R) (i : nat) : R := nth i l 0.

Definition leb_r (x y : R) : bool := if Rle_dec x y then true else false.
Definition ltb_r (x y : R) : bool := if Rlt_dec x y then true else false.

(* One row of flags = logical_and(t >= x_left, t < x_right), as the list of
   columns where it is True: rhochi_pd.py l.44-47, rhochi_pd2d.py l.60-76. *)
Definition matches (xs : list R) (t : R) : list nat :=
  filter (fun i => leb_r (at_ xs i) t && ltb_r t (at_ xs (S i)))
         (seq 0 (length xs - 1)).

(* p0 = numpy.argwhere(flags)[:, 1] (row by row): rhochi_pd.py l.47. *)
Definition argwhere_cols (xs ts : list R) : list nat := flat_map (matches xs) ts.

(* rhochi_pd.py l.35-38: a point at x_min is inserted before the table. *)
Definition extend_left (x_min : R) (xs ys : list R) : list R * list R :=
  if Rlt_dec x_min (lmin xs) then
    let y_0 := (at_ ys 1 - at_ ys 0) * (x_min - at_ xs 0) / (at_ xs 1 - at_ xs 0) + at_ ys 0 in
    (x_min :: xs, y_0 :: ys)
  else (xs, ys).

(* rhochi_pd.py l.39-43: a point at x_max + 1 is appended to the table. *)
Definition extend_right (x_max : R) (xs ys : list R) : list R * list R :=
  if Rle_dec (lmax xs) x_max then
    let n := length xs in
    let x_max' := x_max + 1 in
    let y_last := (at_ ys (n - 1) - at_ ys (n - 2)) * (x_max' - at_ xs (n - 2))
                  / (at_ xs (n - 1) - at_ xs (n - 2)) + at_ ys (n - 2) in
    (xs ++ [x_max'], ys ++ [y_last])
  else (xs, ys).

(* rhochi_pd.py l.49: intensity for one point. *)
Definition bkg_point (xs ys : list R) (i : nat) (t : R) : R :=
  (at_ ys (i + 1) - at_ ys i) * (t - at_ xs i) / (at_ xs (i + 1) - at_ xs i) + at_ ys i.

(* rhochi_pd.py l.30-49: the intensity returned by calc_background.
   A table with less than two points raises IndexError; a number of matches
   which differs from the number of points is a broadcasting error
   (simplification: numpy would broadcast when one of them is 1). *)
Definition calc_background (ts xs ys : list R) : option (list R) :=
  match ts, xs with
  | [], _ | _, [] | _, [_] => None
  | _, _ =>
      let '(xs1, ys1) := extend_left (lmin ts) xs ys in
      let '(xs2, ys2) := extend_right (lmax ts) xs1 ys1 in
      let p0 := argwhere_cols xs2 ts in
      if (length p0 =? length ts)%nat then
        Some (map (fun q => bkg_point xs2 ys2 (fst q) (snd q)) (combine p0 ts))
      else None
  end.

(* rhochi_pd.py l.53-60: dder["background_intensity"] (row = 2theta point,
   column = table point): numpy.zeros. *)
Definition calc_background_dder (ts xs ys : list R) : list (list R) :=
  map (fun _ => map (fun _ => 0) xs) ts.

(* ---------- two-dimensional background (rhochi_pd2d.py) ---------- *)

(* the row / column index taken from the table for each index of the extended
   axis is encoded by extending the axis itself: *)

(* rhochi_pd2d.py l.42-44 (gamma), l.50-52 (nu): first row / column repeated. *)
Definition ext2_left (t_min : R) (xs : list R) : bool := ltb_r t_min (lmin xs).
(* rhochi_pd2d.py l.46-48, l.54-56: last row / column repeated. *)
Definition ext2_right (t_max : R) (xs : list R) : bool := leb_r (lmax xs) t_max.

(* numpy.insert(signal_p, 0, signal_p[0,:], axis=0), numpy.append(..., axis=0) *)
Definition insert_row (s : list (list R)) : list (list R) := hd [] s :: s.
Definition append_row (s : list (list R)) : list (list R) := s ++ [last s []].
Definition insert_col (s : list (list R)) : list (list R) := map (fun r => hd 0 r :: r) s.
Definition append_col (s : list (list R)) : list (list R) := map (fun r => r ++ [last r 0]) s.

(* the four conditional extensions, l.42-56, in the order of the code *)
Definition ext_ga_left (ga : list R) (ga_p : list R) (s : list (list R)) :=
  if ext2_left (lmin ga) ga_p then (lmin ga :: ga_p, insert_row s) else (ga_p, s).
Definition ext_ga_right (ga : list R) (ga_p : list R) (s : list (list R)) :=
  if ext2_right (lmax ga) ga_p then (ga_p ++ [lmax ga + 1/1000], append_row s) else (ga_p, s).
Definition ext_nu_left (nu : list R) (nu_p : list R) (s : list (list R)) :=
  if ext2_left (lmin nu) nu_p then (lmin nu :: nu_p, insert_col s) else (nu_p, s).
Definition ext_nu_right (nu : list R) (nu_p : list R) (s : list (list R)) :=
  if ext2_right (lmax nu) nu_p then (nu_p ++ [lmax nu + 1/1000], append_col s) else (nu_p, s).

Definition at2 (s : list (list R)) (i j : nat) : R := nth j (nth i s []) 0.

(* rhochi_pd2d.py l.72-89: one element of signal. *)
Definition bkg2_point (ga_p nu_p : list R) (s : list (list R)) (i j : nat) (ga nu : R) : R :=
  let f_11 := at2 s i j in
  let f_12 := at2 s i (j + 1) in
  let f_21 := at2 s (i + 1) j in
  let f_22 := at2 s (i + 1) (j + 1) in
  let c_11 := (at_ ga_p (i + 1) - ga) * (at_ nu_p (j + 1) - nu) in
  let c_12 := (at_ ga_p (i + 1) - ga) * (nu - at_ nu_p j) in
  let c_21 := (ga - at_ ga_p i) * (at_ nu_p (j + 1) - nu) in
  let c_22 := (ga - at_ ga_p i) * (nu - at_ nu_p j) in
  let denom := (at_ ga_p (i + 1) - at_ ga_p i) * (at_ nu_p (j + 1) - at_ nu_p j) in
  (c_11 * f_11 + c_12 * f_12 + c_21 * f_21 + c_22 * f_22) / denom.

(* rhochi_pd2d.py l.28-85 *)
Definition calc_background_2d (ga nu ga_p nu_p : list R) (s : list (list R))
  : option (list (list R)) :=
  match ga, nu, ga_p, nu_p with
  | [], _, _, _ | _, [], _, _ | _, _, [], _ | _, _, _, [] => None
  | _, _, _, _ =>
      let '(ga_p1, s1) := ext_ga_left ga ga_p s in
      let '(ga_p2, s2) := ext_ga_right ga ga_p1 s1 in
      let '(nu_p1, s3) := ext_nu_left nu nu_p s2 in
      let '(nu_p2, s4) := ext_nu_right nu nu_p1 s3 in
      let arg_ga := argwhere_cols ga_p2 ga in
      let arg_nu := argwhere_cols nu_p2 nu in
      if ((length arg_ga =? length ga) && (length arg_nu =? length nu))%nat then
        Some (map (fun q => map (fun p =>
                bkg2_point ga_p2 nu_p2 s4 (fst q) (fst p) (snd q) (snd p))
              (combine arg_nu nu)) (combine arg_ga ga))
      else None
  end.

(* ---------- cosine background (rhochi_tof.py l.37-50) ---------- *)

(* l.40-44: res[i, j] = cos(i * x_rel_j); x_rel = ((x-x_min)/x_max) * pi *)
Definition cos_res (x_min x_max : R) (i : nat) (x : R) : R :=
  cos (INR i * ((x - x_min) / x_max * PI)).

(* l.45-46: y = sum_i coeff_i * res[i, :]; the list of coefficients is walked
   with its index. *)
Fixpoint cos_sum (x_min x_max : R) (cs : list R) (i : nat) (x : R) : R :=
  match cs with
  | [] => 0
  | c :: r => c * cos_res x_min x_max i x + cos_sum x_min x_max r (S i) x
  end.

(* x_max is None -> numpy.max(x) *)
Definition cos_x_max (x_max : option R) (xs : list R) : R :=
  match x_max with None => lmax xs | Some v => v end.

Definition calc_background_by_cosines (xs cs : list R) (x_min : R) (x_max : option R) : list R :=
  map (cos_sum x_min (cos_x_max x_max xs) cs 0) xs.

(* dder["background_coefficients"] = res (row = coefficient, column = point) *)
Definition calc_background_by_cosines_dder (xs cs : list R) (x_min : R) (x_max : option R)
  : list (list R) :=
  map (fun i => map (cos_res x_min (cos_x_max x_max xs) i) xs) (seq 0 (length cs)).

(* rhochi_pd2d.py l.86-92: dder_b, of shape ga x nu x (extended ga_p) x (extended nu_p).
   "dder_b[:, :, A[:, na], B[na, :]] += w[na, na, :, :]" adds w[i, j] to
   dder_b[g, n, A[i], B[j]] for EVERY g and n; with repeated indices the last
   pair (i, j) wins (numpy buffers fancy in-place addition). *)
Fixpoint last_index (l : list nat) (p : nat) (i : nat) : option nat :=
  match l with
  | [] => None
  | a :: r => match last_index r p (S i) with
              | Some k => Some k
              | None => if (a =? p)%nat then Some i else None
              end
  end.
Definition fancy_add (A B : list nat) (w : nat -> nat -> R) (old : nat -> nat -> R) (p q : nat) : R :=
  match last_index A p 0, last_index B q 0 with
  | Some i, Some j => old p q + w i j
  | _, _ => old p q
  end.
Definition calc_background_2d_dder (ga nu ga_p nu_p : list R) (s : list (list R))
  (g n p q : nat) : R :=
  let '(ga_p1, s1) := ext_ga_left ga ga_p s in
  let '(ga_p2, s2) := ext_ga_right ga ga_p1 s1 in
  let '(nu_p1, s3) := ext_nu_left nu nu_p s2 in
  let '(nu_p2, s4) := ext_nu_right nu nu_p1 s3 in
  let A1 := argwhere_cols ga_p2 ga in
  let A2 := map S A1 in
  let B1 := argwhere_cols nu_p2 nu in
  let B2 := map S B1 in
  let denom i j := (at_ ga_p2 (nth i A2 0%nat) - at_ ga_p2 (nth i A1 0%nat))
                 * (at_ nu_p2 (nth j B2 0%nat) - at_ nu_p2 (nth j B1 0%nat)) in
  let c_11 i j := (at_ ga_p2 (nth i A2 0%nat) - at_ ga i) * (at_ nu_p2 (nth j B2 0%nat) - at_ nu j) in
  let c_12 i j := (at_ ga_p2 (nth i A2 0%nat) - at_ ga i) * (at_ nu j - at_ nu_p2 (nth j B1 0%nat)) in
  let c_21 i j := (at_ ga i - at_ ga_p2 (nth i A1 0%nat)) * (at_ nu_p2 (nth j B2 0%nat) - at_ nu j) in
  let c_22 i j := (at_ ga i - at_ ga_p2 (nth i A1 0%nat)) * (at_ nu j - at_ nu_p2 (nth j B1 0%nat)) in
  let d0 (_ _ : nat) := 0 in
  let d1 := fancy_add A1 B1 (fun i j => c_11 i j / denom i j) d0 in
  let d2 := fancy_add A1 B2 (fun i j => c_12 i j / denom i j) d1 in
  let d3 := fancy_add A2 B1 (fun i j => c_21 i j / denom i j) d2 in
  fancy_add A2 B2 (fun i j => c_22 i j / denom i j) d3 p q.
