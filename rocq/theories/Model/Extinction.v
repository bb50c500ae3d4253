(** Model of cryspy/A_functions_base/extinction.py for one reflection.  Floats are reals; a square root of a
    non-positive number (NaN or division by zero in numpy) is None.  Exact division by zero of 1+B*x is not modelled:
    the statements exclude it. *)
From Coq Require Import Reals Bool.
Open Scope R_scope.

(** [1./numpy.sqrt(d)] *)
Definition inv_sqrt (d : R) : option R := if Rlt_dec 0 d then Some (1 / sqrt d) else None.
(** value used in derivative formulas *)
Definition val (o : option R) : R := match o with Some y => y | None => 0 end.

Record crystal := mkX { x_radius : R; x_mosaicity : R; x_volume : R; x_cos : R; x_wavelength : R }.
Record ext_dder := mkED { ed_f_sq : R; ed_radius : R; ed_mosaicity : R; ed_volume : R; ed_cos : R; ed_wavelength : R }.

(** common shape 1 + k x + A x^2/(1+B x), l.16, l.75, l.140 *)
Definition ext_den (k A B x : R) : R := 1 + k * x + A * Rsqr x / (1 + B * x).
(** l.18-19, 78-79, 142-143: der_y_x *)
Definition der_y_x (k A B x y : R) : R :=
  (- (5/10)) * y ^ 3 * (k + 2 * A * x / (1 + B * x) - A * B * Rsqr x / Rsqr (1 + B * x)).

(** l.4-47 calc_extinction_sphere_primary *)
Definition prim_x (f_sq : R) (c : crystal) : R := (15/10) * f_sq * Rsqr (x_wavelength c * x_radius c / x_volume c).
Definition prim_A (c2t : R) : R := (20/100) + (45/100) * c2t.
Definition prim_B (c2t : R) : R := (22/100) - (12/100) * ((5/10) - c2t) ^ 2.
Definition calc_extinction_sphere_primary (f_sq : R) (c : crystal) : option R :=
  inv_sqrt (ext_den 2 (prim_A (x_cos c)) (prim_B (x_cos c)) (prim_x f_sq c)).
Definition calc_extinction_sphere_primary_dder (f_sq : R) (c : crystal) : ext_dder :=
  let x := prim_x f_sq c in let A := prim_A (x_cos c) in let B := prim_B (x_cos c) in
  let y_p := val (calc_extinction_sphere_primary f_sq c) in
  let der_yp_x := der_y_x 2 A B x y_p in
  let der_A := 45/100 in let der_B := (24/100) * ((5/10) - x_cos c) in
  let der_yp_A := (- (5/10)) * y_p ^ 3 * Rsqr x / (1 + B * x) in
  let der_yp_B := (5/10) * y_p ^ 3 * A * Rsqr x * x / Rsqr (1 + B * x) in
  mkED (der_yp_x * (15/10) * Rsqr (x_wavelength c * x_radius c / x_volume c))
       (der_yp_x * 3 * f_sq * x_radius c * Rsqr (x_wavelength c / x_volume c))
       0 (* no mosaicity argument *)
       ((- 3) * der_yp_x * f_sq * Rsqr (x_wavelength c * x_radius c / x_volume c) / x_volume c)
       (der_yp_A * der_A + der_yp_B * der_B)
       (der_yp_x * 3 * f_sq * x_wavelength c * Rsqr (x_radius c / x_volume c)).

(** l.59, l.125 minutes to radians *)
Definition mos_rad (c : crystal) : R := x_mosaicity c * PI / (180 * 60).
(** l.60-71 *)
Definition gauss_root (c : crystal) : R :=
  sqrt (Rsqr (mos_rad c * x_wavelength c) + 9 / 8 * Rsqr (x_radius c) * (1 - Rsqr (x_cos c))).
Definition gauss_term (c : crystal) : R :=
  if Rlt_dec 0 (x_radius c * mos_rad c) then mos_rad c / gauss_root c else 0.
Definition sec_x (term_1 f_sq : R) (c : crystal) : R :=
  if Rlt_dec 0 (x_radius c * mos_rad c)
  then (15/10) * f_sq * x_wavelength c * Rsqr (x_wavelength c * x_radius c / x_volume c) * term_1 else 0.
Definition gauss_A (c2t : R) : R := (58/100) + (48/100) * c2t + (24/100) * Rsqr c2t.
Definition gauss_B (c2t : R) : R := (2/100) - (25/1000) * c2t.
(** l.50-108 calc_extinction_sphere_secondary_gauss; l.76: a NaN is replaced by 1 *)
Definition calc_extinction_sphere_secondary_gauss (f_sq : R) (c : crystal) : R :=
  match inv_sqrt (ext_den (212/100) (gauss_A (x_cos c)) (gauss_B (x_cos c)) (sec_x (gauss_term c) f_sq c)) with
  | Some y => y | None => 1
  end.
Definition calc_extinction_sphere_secondary_gauss_dder (f_sq : R) (c : crystal) : ext_dder :=
  let x := sec_x (gauss_term c) f_sq c in
  let y_s := calc_extinction_sphere_secondary_gauss f_sq c in
  let der_ys_x := der_y_x (212/100) (gauss_A (x_cos c)) (gauss_B (x_cos c)) x y_s in
  let r := x_radius c in let w := x_wavelength c in let v := x_volume c in let m := mos_rad c in let c2 := Rsqr (x_cos c) in
  mkED (der_ys_x * (15/10) * w * Rsqr (w * r / v) * gauss_term c)
       (der_ys_x * (2 * r * (15/10) * f_sq * w * Rsqr (w / v) * gauss_term c +
                    (15/10) * f_sq * w * Rsqr (w * r / v) * m / (gauss_root c) ^ 3 * 9 / 8 * 2 * r * (1 - c2)))
       (PI / (180 * 60) * der_ys_x * (15/10) * f_sq * w * Rsqr (w * r / v) *
          (1 / gauss_root c + m / (gauss_root c) ^ 3 * 2 * Rsqr w * m))
       0 0 0.
(** l.111-157 calc_extinction_sphere_secondary_lorentz *)
Definition lorentz_term (c : crystal) : R :=
  if Rlt_dec 0 (x_radius c * mos_rad c)
  then mos_rad c / (mos_rad c * x_wavelength c + x_radius c * sqrt (1 - Rsqr (x_cos c))) else 0.
Definition lorentz_A (c2t : R) : R := (25/1000) + (285/1000) * c2t.
Definition lorentz_B (c2t : R) : R :=
  if Rlt_dec 0 c2t then (15/100) - (2/10) * Rsqr ((75/100) - c2t) else (- (45/100)) * c2t.
Definition calc_extinction_sphere_secondary_lorentz (f_sq : R) (c : crystal) : option R :=
  inv_sqrt (ext_den 2 (lorentz_A (x_cos c)) (lorentz_B (x_cos c)) (sec_x (lorentz_term c) f_sq c)).
Definition calc_extinction_sphere_secondary_lorentz_dder (f_sq : R) (c : crystal) : ext_dder :=
  let x := sec_x (lorentz_term c) f_sq c in
  let y_s := val (calc_extinction_sphere_secondary_lorentz f_sq c) in
  let der_ys_x := der_y_x 2 (lorentz_A (x_cos c)) (lorentz_B (x_cos c)) x y_s in
  mkED (der_ys_x * (15/10) * x_wavelength c * Rsqr (x_wavelength c * x_radius c / x_volume c) * lorentz_term c) 0 0 0 0 0.

(** l.160-222 calc_extinction_sphere; the argument model selects the secondary part *)
Inductive ext_model := M_gauss | M_lorentz | M_other.
Definition calc_extinction_sphere (m : ext_model) (f_sq : R) (c : crystal) : option R :=
  match calc_extinction_sphere_primary f_sq c with
  | None => None
  | Some y_p =>
    match m with
    | M_gauss => Some (y_p * calc_extinction_sphere_secondary_gauss f_sq c)
    | M_lorentz => match calc_extinction_sphere_secondary_lorentz f_sq c with Some y_s => Some (y_p * y_s) | None => None end
    | M_other => Some (y_p * 1)
    end
  end.
Definition calc_extinction_sphere_dder (m : ext_model) (f_sq : R) (c : crystal) : ext_dder :=
  let y_p := val (calc_extinction_sphere_primary f_sq c) in
  let d_p := calc_extinction_sphere_primary_dder f_sq c in
  let y_s := match m with M_gauss => calc_extinction_sphere_secondary_gauss f_sq c
             | M_lorentz => val (calc_extinction_sphere_secondary_lorentz f_sq c) | M_other => 1 end in
  let d_s := match m with M_gauss => calc_extinction_sphere_secondary_gauss_dder f_sq c
             | M_lorentz => calc_extinction_sphere_secondary_lorentz_dder f_sq c | M_other => mkED 0 0 0 0 0 0 end in
  mkED (y_p * ed_f_sq d_s + ed_f_sq d_p * y_s) (y_p * ed_radius d_s + ed_radius d_p * y_s)
       (y_p * ed_mosaicity d_s) (y_p * ed_volume d_s + ed_volume d_p * y_s)
       (y_p * ed_cos d_s + ed_cos d_p * y_s) (y_p * ed_wavelength d_s + ed_wavelength d_p * y_s).
