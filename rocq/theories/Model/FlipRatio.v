(** Model of cryspy/A_functions_base/flip_ratio.py for one reflection (array axes over hkl are element-wise).
    Complex numbers are pairs (real, imag); floats are reals. *)
From Coq Require Import Reals List String Bool.
From Verif Require Import Spec.Lin3.
Import ListNotations.
Open Scope R_scope.

Definition cx := (R * R)%type.

(** The argument func_extinction (l.11, used at l.62-70): a callable of F^2 closed over its own parameters
    [e_par]; it returns y and a dictionary with "f_sq" ([e_dy]) and one entry for each key in [e_keys]
    ([e_dk]). *)
Record ext := mkE
  { e_par : string -> R; e_y : (string -> R) -> R -> R; e_dy : (string -> R) -> R -> R;
    e_keys : list string; e_dk : string -> (string -> R) -> R -> R }.

(** Keys of the returned dictionaries dder_plus / dder_minus.  Entries which are arrays [3, n_hkl] have one key
    for each component. *)
Inductive key := K_bp | K_fe | K_fn_re | K_fn_im | K_fm_re (i : ix) | K_fm_im (i : ix) | K_ext (s : string)
  | K_fn2_re | K_fn2_im | K_fm2_re (i : ix) | K_fm2_im (i : ix) | K_lambda2.
Definition dict := key -> option R.

Record flags := mkF { fl_bp : bool; fl_fe : bool; fl_fn : bool; fl_fm : bool }.
Record arg := mkArg { a_bp : R; a_fe : R; a_fn : cx; a_fm : V3 cx; a_axis : V3 R; a_ext : option ext }.

(** l.61-70: extinction factor of an intensity, 1 without func_extinction *)
Definition y_of (e : option ext) (f_sq : R) : R :=
  match e with None => 1 | Some e => e_y e (e_par e) f_sq end.
(** dder_y["f_sq"]; without func_extinction the products containing it are initialised by 0 (l.137-138, l.188-196) *)
Definition dy_of (e : option ext) (f_sq : R) : R :=
  match e with None => 0 | Some e => e_dy e (e_par e) f_sq end.
Definition dk_of (e : option ext) (k : string) (f_sq : R) : R :=
  match e with None => 0 | Some e => e_dk e k (e_par e) f_sq end.
Definition in_keys (e : option ext) (k : string) : bool :=
  match e with None => false | Some e => existsb (String.eqb k) (e_keys e) end.
Definition given (b : bool) (x : R) : option R := if b then Some x else None.

(** l.5-334 calc_iint; the result is (iint_plus, iint_minus, dder_plus, dder_minus). *)
Definition calc_iint (f : flags) (a : arg) : R * R * dict * dict :=
  let beam_polarization := a_bp a in let flipper_efficiency := a_fe a in
  let p_u := beam_polarization in
  let p_d := beam_polarization * (2 * flipper_efficiency - 1) in
  let f_n_real := fst (a_fn a) in let f_n_imag := snd (a_fn a) in
  let axis_z_0 := v_1 (a_axis a) in let axis_z_1 := v_2 (a_axis a) in let axis_z_2 := v_3 (a_axis a) in
  let f_m_perp_0_real := fst (v_1 (a_fm a)) in let f_m_perp_0_imag := snd (v_1 (a_fm a)) in
  let f_m_perp_1_real := fst (v_2 (a_fm a)) in let f_m_perp_1_imag := snd (v_2 (a_fm a)) in
  let f_m_perp_2_real := fst (v_3 (a_fm a)) in let f_m_perp_2_imag := snd (v_3 (a_fm a)) in
  let f_m_perp_sq := (Rsqr f_m_perp_0_real + Rsqr f_m_perp_1_real + Rsqr f_m_perp_2_real) +
                     (Rsqr f_m_perp_0_imag + Rsqr f_m_perp_1_imag + Rsqr f_m_perp_2_imag) in
  let f_m_perp_zlab_real := f_m_perp_0_real * axis_z_0 + f_m_perp_1_real * axis_z_1 + f_m_perp_2_real * axis_z_2 in
  let f_m_perp_zlab_imag := f_m_perp_0_imag * axis_z_0 + f_m_perp_1_imag * axis_z_1 + f_m_perp_2_imag * axis_z_2 in
  let f_m_perp_zlab_sq := Rsqr f_m_perp_zlab_real + Rsqr f_m_perp_zlab_imag in
  let f_plus_real := f_n_real + f_m_perp_zlab_real in let f_plus_imag := f_n_imag + f_m_perp_zlab_imag in
  let f_minus_real := f_n_real - f_m_perp_zlab_real in let f_minus_imag := f_n_imag - f_m_perp_zlab_imag in
  let f_plus_sq := Rsqr f_plus_real + Rsqr f_plus_imag in
  let f_minus_sq := Rsqr f_minus_real + Rsqr f_minus_imag in
  let f_m_perp_xy_sq := f_m_perp_sq - f_m_perp_zlab_sq in
  let y_plus := y_of (a_ext a) f_plus_sq in
  let y_minus := y_of (a_ext a) f_minus_sq in
  let y_m_perp_xy := y_of (a_ext a) f_m_perp_xy_sq in
  let dder_y_plus_f_sq := dy_of (a_ext a) f_plus_sq in
  let dder_y_minus_f_sq := dy_of (a_ext a) f_minus_sq in
  let dder_y_m_perp_xy_f_sq := dy_of (a_ext a) f_m_perp_xy_sq in
  let fmpx_r := f_m_perp_0_real in
  let fmpx_i := f_m_perp_0_imag in
  let fmpy_r := f_m_perp_1_real in
  let fmpy_i := f_m_perp_1_imag in
  let fmpz_r := f_m_perp_2_real in
  let fmpz_i := f_m_perp_2_imag in
  let chiral_term := 2 * (axis_z_0 * (fmpy_i * fmpz_r - fmpy_r * fmpz_i) + axis_z_1 * (fmpz_i * fmpx_r - fmpz_r * fmpx_i) + axis_z_2 * (fmpx_i * fmpy_r - fmpx_r * fmpy_i)) in
  let iint_plus := (5 / 10) * ((1 + p_u) * y_plus * f_plus_sq + (1 - p_u) * y_minus * f_minus_sq) + y_m_perp_xy * f_m_perp_xy_sq + p_u * chiral_term in
  let iint_minus := (5 / 10) * ((1 - p_d) * y_plus * f_plus_sq + (1 + p_d) * y_minus * f_minus_sq) + y_m_perp_xy * f_m_perp_xy_sq - p_d * chiral_term in
  (* l.105-128 *)
  let bp_plus := (5 / 10) * (y_plus * f_plus_sq - y_minus * f_minus_sq + 2 * chiral_term) in
  let bp_minus := (5 / 10) * ((- y_plus) * f_plus_sq + y_minus * f_minus_sq - 2 * chiral_term) * (2 * flipper_efficiency - 1) in
  let fe_minus := beam_polarization * ((- y_plus) * f_plus_sq + y_minus * f_minus_sq - 2 * chiral_term) in
  (* l.130-162 *)
  let f_plus_sq_f_n_real := 2 * f_plus_real in
  let f_plus_sq_f_n_imag := 2 * f_plus_imag in
  let f_minus_sq_f_n_real := 2 * f_minus_real in
  let f_minus_sq_f_n_imag := 2 * f_minus_imag in
  let y_plus_f_n_real := dder_y_plus_f_sq * f_plus_sq_f_n_real in
  let y_plus_f_n_imag := dder_y_plus_f_sq * f_plus_sq_f_n_imag in
  let y_minus_f_n_real := dder_y_minus_f_sq * f_minus_sq_f_n_real in
  let y_minus_f_n_imag := dder_y_minus_f_sq * f_minus_sq_f_n_imag in
  let plus_f_nucl_real := (5 / 10) * ((1 + p_u) * (y_plus * f_plus_sq_f_n_real + y_plus_f_n_real * f_plus_sq) + (1 - p_u) * (y_minus * f_minus_sq_f_n_real + y_minus_f_n_real * f_minus_sq)) in
  let plus_f_nucl_imag := (5 / 10) * ((1 + p_u) * (y_plus * f_plus_sq_f_n_imag + y_plus_f_n_imag * f_plus_sq) + (1 - p_u) * (y_minus * f_minus_sq_f_n_imag + y_minus_f_n_imag * f_minus_sq)) in
  let minus_f_nucl_real := (5 / 10) * ((1 - p_d) * (y_plus * f_plus_sq_f_n_real + y_plus_f_n_real * f_plus_sq) + (1 + p_d) * (y_minus * f_minus_sq_f_n_real + y_minus_f_n_real * f_minus_sq)) in
  let minus_f_nucl_imag := (5 / 10) * ((1 - p_d) * (y_plus * f_plus_sq_f_n_imag + y_plus_f_n_imag * f_plus_sq) + (1 + p_d) * (y_minus * f_minus_sq_f_n_imag + y_minus_f_n_imag * f_minus_sq)) in
  (* l.165-186 *)
  let f_plus_sq_f_m_perp_x_real := 2 * f_plus_real * axis_z_0 in
  let f_plus_sq_f_m_perp_x_imag := 2 * f_plus_imag * axis_z_0 in
  let f_plus_sq_f_m_perp_y_real := 2 * f_plus_real * axis_z_1 in
  let f_plus_sq_f_m_perp_y_imag := 2 * f_plus_imag * axis_z_1 in
  let f_plus_sq_f_m_perp_z_real := 2 * f_plus_real * axis_z_2 in
  let f_plus_sq_f_m_perp_z_imag := 2 * f_plus_imag * axis_z_2 in
  let f_minus_sq_f_m_perp_x_real := (- 2) * f_minus_real * axis_z_0 in
  let f_minus_sq_f_m_perp_x_imag := (- 2) * f_minus_imag * axis_z_0 in
  let f_minus_sq_f_m_perp_y_real := (- 2) * f_minus_real * axis_z_1 in
  let f_minus_sq_f_m_perp_y_imag := (- 2) * f_minus_imag * axis_z_1 in
  let f_minus_sq_f_m_perp_z_real := (- 2) * f_minus_real * axis_z_2 in
  let f_minus_sq_f_m_perp_z_imag := (- 2) * f_minus_imag * axis_z_2 in
  let zx := axis_z_0 in
  let zy := axis_z_1 in
  let zz := axis_z_2 in
  let z_sq_0 := Rsqr axis_z_0 in let z_sq_1 := Rsqr axis_z_1 in let z_sq_2 := Rsqr axis_z_2 in
  let zx_sq := z_sq_0 in
  let zy_sq := z_sq_1 in
  let zz_sq := z_sq_2 in
  let f_m_perp_xy_sq_f_m_perp_x_real := 2 * ((1 - zx_sq) * fmpx_r - zx * (zy * fmpy_r + zz * fmpz_r)) in
  let f_m_perp_xy_sq_f_m_perp_x_imag := 2 * ((1 - zx_sq) * fmpx_i - zx * (zy * fmpy_i + zz * fmpz_i)) in
  let f_m_perp_xy_sq_f_m_perp_y_real := 2 * ((1 - zy_sq) * fmpy_r - zy * (zz * fmpz_r + zx * fmpx_r)) in
  let f_m_perp_xy_sq_f_m_perp_y_imag := 2 * ((1 - zy_sq) * fmpy_i - zy * (zz * fmpz_i + zx * fmpx_i)) in
  let f_m_perp_xy_sq_f_m_perp_z_real := 2 * ((1 - zz_sq) * fmpz_r - zz * (zx * fmpx_r + zy * fmpy_r)) in
  let f_m_perp_xy_sq_f_m_perp_z_imag := 2 * ((1 - zz_sq) * fmpz_i - zz * (zx * fmpx_i + zy * fmpy_i)) in
  let chiral_term_f_m_perp_x_real := 2 * (zy * fmpz_i - zz * fmpy_i) in
  let chiral_term_f_m_perp_x_imag := (- 2) * (zy * fmpz_r - zz * fmpy_r) in
  let chiral_term_f_m_perp_y_real := (- 2) * (zx * fmpz_i - zz * fmpx_i) in
  let chiral_term_f_m_perp_y_imag := 2 * (zx * fmpz_r - zz * fmpx_r) in
  let chiral_term_f_m_perp_z_real := 2 * (zx * fmpy_i - zy * fmpx_i) in
  let chiral_term_f_m_perp_z_imag := (- 2) * (zx * fmpy_r - zy * fmpx_r) in
  let y_plus_f_m_perp_x_real := dder_y_plus_f_sq * f_plus_sq_f_m_perp_x_real in
  let y_plus_f_m_perp_x_imag := dder_y_plus_f_sq * f_plus_sq_f_m_perp_x_imag in
  let y_plus_f_m_perp_y_real := dder_y_plus_f_sq * f_plus_sq_f_m_perp_y_real in
  let y_plus_f_m_perp_y_imag := dder_y_plus_f_sq * f_plus_sq_f_m_perp_y_imag in
  let y_plus_f_m_perp_z_real := dder_y_plus_f_sq * f_plus_sq_f_m_perp_z_real in
  let y_plus_f_m_perp_z_imag := dder_y_plus_f_sq * f_plus_sq_f_m_perp_z_imag in
  let y_minus_f_m_perp_x_real := dder_y_minus_f_sq * f_minus_sq_f_m_perp_x_real in
  let y_minus_f_m_perp_x_imag := dder_y_minus_f_sq * f_minus_sq_f_m_perp_x_imag in
  let y_minus_f_m_perp_y_real := dder_y_minus_f_sq * f_minus_sq_f_m_perp_y_real in
  let y_minus_f_m_perp_y_imag := dder_y_minus_f_sq * f_minus_sq_f_m_perp_y_imag in
  let y_minus_f_m_perp_z_real := dder_y_minus_f_sq * f_minus_sq_f_m_perp_z_real in
  let y_minus_f_m_perp_z_imag := dder_y_minus_f_sq * f_minus_sq_f_m_perp_z_imag in
  let y_m_perp_xy_f_m_perp_x_real := dder_y_m_perp_xy_f_sq * f_m_perp_xy_sq_f_m_perp_x_real in
  let y_m_perp_xy_f_m_perp_x_imag := dder_y_m_perp_xy_f_sq * f_m_perp_xy_sq_f_m_perp_x_imag in
  let y_m_perp_xy_f_m_perp_y_real := dder_y_m_perp_xy_f_sq * f_m_perp_xy_sq_f_m_perp_y_real in
  let y_m_perp_xy_f_m_perp_y_imag := dder_y_m_perp_xy_f_sq * f_m_perp_xy_sq_f_m_perp_y_imag in
  let y_m_perp_xy_f_m_perp_z_real := dder_y_m_perp_xy_f_sq * f_m_perp_xy_sq_f_m_perp_z_real in
  let y_m_perp_xy_f_m_perp_z_imag := dder_y_m_perp_xy_f_sq * f_m_perp_xy_sq_f_m_perp_z_imag in
  let dder_plus_f_m_perp_x_real := (5 / 10) * ((1 + p_u) * (y_plus * f_plus_sq_f_m_perp_x_real + y_plus_f_m_perp_x_real * f_plus_sq) + (1 - p_u) * (y_minus * f_minus_sq_f_m_perp_x_real + y_minus_f_m_perp_x_real * f_minus_sq)) + y_m_perp_xy_f_m_perp_x_real * f_m_perp_xy_sq + y_m_perp_xy * f_m_perp_xy_sq_f_m_perp_x_real + p_u * chiral_term_f_m_perp_x_real in
  let dder_plus_f_m_perp_x_imag := (5 / 10) * ((1 + p_u) * (y_plus * f_plus_sq_f_m_perp_x_imag + y_plus_f_m_perp_x_imag * f_plus_sq) + (1 - p_u) * (y_minus * f_minus_sq_f_m_perp_x_imag + y_minus_f_m_perp_x_imag * f_minus_sq)) + y_m_perp_xy_f_m_perp_x_imag * f_m_perp_xy_sq + y_m_perp_xy * f_m_perp_xy_sq_f_m_perp_x_imag + p_u * chiral_term_f_m_perp_x_imag in
  let dder_plus_f_m_perp_y_real := (5 / 10) * ((1 + p_u) * (y_plus * f_plus_sq_f_m_perp_y_real + y_plus_f_m_perp_y_real * f_plus_sq) + (1 - p_u) * (y_minus * f_minus_sq_f_m_perp_y_real + y_minus_f_m_perp_y_real * f_minus_sq)) + y_m_perp_xy_f_m_perp_y_real * f_m_perp_xy_sq + y_m_perp_xy * f_m_perp_xy_sq_f_m_perp_y_real + p_u * chiral_term_f_m_perp_y_real in
  let dder_plus_f_m_perp_y_imag := (5 / 10) * ((1 + p_u) * (y_plus * f_plus_sq_f_m_perp_y_imag + y_plus_f_m_perp_y_imag * f_plus_sq) + (1 - p_u) * (y_minus * f_minus_sq_f_m_perp_y_imag + y_minus_f_m_perp_y_imag * f_minus_sq)) + y_m_perp_xy_f_m_perp_y_imag * f_m_perp_xy_sq + y_m_perp_xy * f_m_perp_xy_sq_f_m_perp_y_imag + p_u * chiral_term_f_m_perp_y_imag in
  let dder_plus_f_m_perp_z_real := (5 / 10) * ((1 + p_u) * (y_plus * f_plus_sq_f_m_perp_z_real + y_plus_f_m_perp_z_real * f_plus_sq) + (1 - p_u) * (y_minus * f_minus_sq_f_m_perp_z_real + y_minus_f_m_perp_z_real * f_minus_sq)) + y_m_perp_xy_f_m_perp_z_real * f_m_perp_xy_sq + y_m_perp_xy * f_m_perp_xy_sq_f_m_perp_z_real + p_u * chiral_term_f_m_perp_z_real in
  let dder_plus_f_m_perp_z_imag := (5 / 10) * ((1 + p_u) * (y_plus * f_plus_sq_f_m_perp_z_imag + y_plus_f_m_perp_z_imag * f_plus_sq) + (1 - p_u) * (y_minus * f_minus_sq_f_m_perp_z_imag + y_minus_f_m_perp_z_imag * f_minus_sq)) + y_m_perp_xy_f_m_perp_z_imag * f_m_perp_xy_sq + y_m_perp_xy * f_m_perp_xy_sq_f_m_perp_z_imag + p_u * chiral_term_f_m_perp_z_imag in
  let dder_minus_f_m_perp_x_real := (5 / 10) * ((1 - p_d) * (y_plus * f_plus_sq_f_m_perp_x_real + y_plus_f_m_perp_x_real * f_plus_sq) + (1 + p_d) * (y_minus * f_minus_sq_f_m_perp_x_real + y_minus_f_m_perp_x_real * f_minus_sq)) + y_m_perp_xy_f_m_perp_x_real * f_m_perp_xy_sq + y_m_perp_xy * f_m_perp_xy_sq_f_m_perp_x_real - p_d * chiral_term_f_m_perp_x_real in
  let dder_minus_f_m_perp_x_imag := (5 / 10) * ((1 - p_d) * (y_plus * f_plus_sq_f_m_perp_x_imag + y_plus_f_m_perp_x_imag * f_plus_sq) + (1 + p_d) * (y_minus * f_minus_sq_f_m_perp_x_imag + y_minus_f_m_perp_x_imag * f_minus_sq)) + y_m_perp_xy_f_m_perp_x_imag * f_m_perp_xy_sq + y_m_perp_xy * f_m_perp_xy_sq_f_m_perp_x_imag - p_d * chiral_term_f_m_perp_x_imag in
  let dder_minus_f_m_perp_y_real := (5 / 10) * ((1 - p_d) * (y_plus * f_plus_sq_f_m_perp_y_real + y_plus_f_m_perp_y_real * f_plus_sq) + (1 + p_d) * (y_minus * f_minus_sq_f_m_perp_y_real + y_minus_f_m_perp_y_real * f_minus_sq)) + y_m_perp_xy_f_m_perp_y_real * f_m_perp_xy_sq + y_m_perp_xy * f_m_perp_xy_sq_f_m_perp_y_real - p_d * chiral_term_f_m_perp_y_real in
  let dder_minus_f_m_perp_y_imag := (5 / 10) * ((1 - p_d) * (y_plus * f_plus_sq_f_m_perp_y_imag + y_plus_f_m_perp_y_imag * f_plus_sq) + (1 + p_d) * (y_minus * f_minus_sq_f_m_perp_y_imag + y_minus_f_m_perp_y_imag * f_minus_sq)) + y_m_perp_xy_f_m_perp_y_imag * f_m_perp_xy_sq + y_m_perp_xy * f_m_perp_xy_sq_f_m_perp_y_imag - p_d * chiral_term_f_m_perp_y_imag in
  let dder_minus_f_m_perp_z_real := (5 / 10) * ((1 - p_d) * (y_plus * f_plus_sq_f_m_perp_z_real + y_plus_f_m_perp_z_real * f_plus_sq) + (1 + p_d) * (y_minus * f_minus_sq_f_m_perp_z_real + y_minus_f_m_perp_z_real * f_minus_sq)) + y_m_perp_xy_f_m_perp_z_real * f_m_perp_xy_sq + y_m_perp_xy * f_m_perp_xy_sq_f_m_perp_z_real - p_d * chiral_term_f_m_perp_z_real in
  let dder_minus_f_m_perp_z_imag := (5 / 10) * ((1 - p_d) * (y_plus * f_plus_sq_f_m_perp_z_imag + y_plus_f_m_perp_z_imag * f_plus_sq) + (1 + p_d) * (y_minus * f_minus_sq_f_m_perp_z_imag + y_minus_f_m_perp_z_imag * f_minus_sq)) + y_m_perp_xy_f_m_perp_z_imag * f_m_perp_xy_sq + y_m_perp_xy * f_m_perp_xy_sq_f_m_perp_z_imag - p_d * chiral_term_f_m_perp_z_imag in
  (* l.319-333 *)
  let ext_plus k := (5 / 10) * ((1 + p_u) * f_plus_sq * dk_of (a_ext a) k f_plus_sq +
                                (1 - p_u) * f_minus_sq * dk_of (a_ext a) k f_minus_sq) +
                    f_m_perp_xy_sq * dk_of (a_ext a) k f_m_perp_xy_sq in
  let ext_minus k := (5 / 10) * ((1 - p_d) * f_plus_sq * dk_of (a_ext a) k f_plus_sq +
                                 (1 + p_d) * f_minus_sq * dk_of (a_ext a) k f_minus_sq) +
                     f_m_perp_xy_sq * dk_of (a_ext a) k f_m_perp_xy_sq in
  let dder_plus (k : key) : option R :=
    match k with
    | K_bp => given (fl_bp f) bp_plus
    | K_fn_re => given (fl_fn f) plus_f_nucl_real | K_fn_im => given (fl_fn f) plus_f_nucl_imag
    | K_fm_re X1 => given (fl_fm f) dder_plus_f_m_perp_x_real | K_fm_im X1 => given (fl_fm f) dder_plus_f_m_perp_x_imag
    | K_fm_re X2 => given (fl_fm f) dder_plus_f_m_perp_y_real | K_fm_im X2 => given (fl_fm f) dder_plus_f_m_perp_y_imag
    | K_fm_re X3 => given (fl_fm f) dder_plus_f_m_perp_z_real | K_fm_im X3 => given (fl_fm f) dder_plus_f_m_perp_z_imag
    | K_ext s => given (in_keys (a_ext a) s) (ext_plus s)
    | _ => None
    end in
  let dder_minus (k : key) : option R :=
    match k with
    | K_bp => given (fl_bp f) bp_minus
    | K_fe => given (fl_fe f) fe_minus
    | K_fn_re => given (fl_fn f) minus_f_nucl_real | K_fn_im => given (fl_fn f) minus_f_nucl_imag
    | K_fm_re X1 => given (fl_fm f) dder_minus_f_m_perp_x_real | K_fm_im X1 => given (fl_fm f) dder_minus_f_m_perp_x_imag
    | K_fm_re X2 => given (fl_fm f) dder_minus_f_m_perp_y_real | K_fm_im X2 => given (fl_fm f) dder_minus_f_m_perp_y_imag
    | K_fm_re X3 => given (fl_fm f) dder_minus_f_m_perp_z_real | K_fm_im X3 => given (fl_fm f) dder_minus_f_m_perp_z_imag
    | K_ext s => given (in_keys (a_ext a) s) (ext_minus s)
    | _ => None
    end in
  (iint_plus, iint_minus, dder_plus, dder_minus).
Definition iint_plus_of (a : arg) : R := let '(ip, _, _, _) := calc_iint (mkF false false false false) a in ip.
Definition iint_minus_of (a : arg) : R := let '(_, im, _, _) := calc_iint (mkF false false false false) a in im.

(** l.339-366 calc_flip_ratio_by_iint; [c] is None when c_lambda2 or iint_2hkl is None, else Some (c_lambda2, iint_2hkl). *)
Record fr_dder := mkFR { d_plus : R; d_minus : R; d_lambda2 : R; d_2hkl : R }.
Definition calc_flip_ratio_by_iint (iint_plus iint_minus : R) (c : option (R * R)) : R * fr_dder :=
  let contamination := match c with None => 0 | Some (c_lambda2, iint_2hkl) => c_lambda2 * iint_2hkl end in
  let signal_plus := iint_plus + contamination in let signal_minus := iint_minus + contamination in
  let flip_ratio := signal_plus / signal_minus in
  let c_lambda2 := match c with None => 0 | Some (x, _) => x end in
  let iint_2hkl := match c with None => 0 | Some (_, x) => x end in
  (flip_ratio,
   mkFR (1 / signal_minus) (- 1 * flip_ratio * 1 / signal_minus)
        (1 * iint_2hkl / signal_minus - flip_ratio * 1 * iint_2hkl / signal_minus)
        (1 * c_lambda2 / signal_minus - flip_ratio * 1 * c_lambda2 / signal_minus)).
(** l.369-397 calc_asymmetry_by_iint *)
Definition calc_asymmetry_by_iint (iint_plus iint_minus : R) (c : option (R * R)) : R * fr_dder :=
  let contamination := match c with None => 0 | Some (c_lambda2, iint_2hkl) => 2 * c_lambda2 * iint_2hkl end in
  let denom := iint_plus + iint_minus + contamination in
  let asymmetry := (iint_plus - iint_minus) / denom in
  let c_lambda2 := match c with None => 0 | Some (x, _) => x end in
  let iint_2hkl := match c with None => 0 | Some (_, x) => x end in
  (asymmetry,
   mkFR (1 / denom - (iint_plus - iint_minus) / Rsqr denom) (- 1 / denom - (iint_plus - iint_minus) / Rsqr denom)
        (2 * iint_2hkl * (- ((iint_plus - iint_minus) / Rsqr denom)))
        (2 * c_lambda2 * (- ((iint_plus - iint_minus) / Rsqr denom)))).

(** l.400-488 calc_intensities_by_structure_factors.  [two] is None when one of c_lambda2, f_nucl_2hkl, f_m_perp_2hkl
    is None (or c_lambda2 is nan), else Some (c_lambda2, f_nucl_2hkl, f_m_perp_2hkl).  [f2] holds
    flag_f_nucl_2hkl, flag_f_m_perp_2hkl, flag_c_lambda2. *)
Record flags2 := mkF2 { fl_fn2 : bool; fl_fm2 : bool; fl_lambda2 : bool }.
Definition calc_intensities_by_structure_factors (f : flags) (f2 : flags2) (a : arg) (two : option (R * cx * V3 cx)) : R * R * dict * dict :=
  let '(iint_plus, iint_minus, dder_plus_hkl, dder_minus_hkl) := calc_iint f a in
  match two with
  | None =>
    (* l.447-482 with dder_2hkl = {}; dder["c_lambda2"] = None is stored when flag_c_lambda2 is set (l.484-486) *)
    (iint_plus, iint_minus, dder_plus_hkl, dder_minus_hkl)
  | Some (c_lambda2, f_nucl_2hkl, f_m_perp_2hkl) =>
    let '(iint_plus_2hkl, _, dder_plus_2hkl, _) :=
      calc_iint (mkF false false (fl_fn2 f2) (fl_fm2 f2)) (mkArg 0 0 f_nucl_2hkl f_m_perp_2hkl (a_axis a) (a_ext a)) in
    let iint_2hkl := iint_plus_2hkl in
    (* l.440-446: the keys of the structure factors of 2h 2k 2l are renamed *)
    let dder_2hkl (k : key) : option R :=
      match k with
      | K_fn2_re => if fl_fn2 f2 then dder_plus_2hkl K_fn_re else None
      | K_fn2_im => if fl_fn2 f2 then dder_plus_2hkl K_fn_im else None
      | K_fm2_re i => if fl_fm2 f2 then dder_plus_2hkl (K_fm_re i) else None
      | K_fm2_im i => if fl_fm2 f2 then dder_plus_2hkl (K_fm_im i) else None
      | K_fn_re | K_fn_im => if fl_fn2 f2 then None else dder_plus_2hkl k
      | K_fm_re _ | K_fm_im _ => if fl_fm2 f2 then None else dder_plus_2hkl k
      | _ => dder_plus_2hkl k
      end in
    (* l.455-482 *)
    let merge (d : dict) (k : key) : option R :=
      match d k, dder_2hkl k with
      | Some term_1, Some term_3 => Some (term_1 + c_lambda2 * term_3)
      | Some term_1, None => Some term_1
      | None, Some term_3 => Some (c_lambda2 * term_3)
      | None, None => None
      end in
    let close (d : dict) (k : key) : option R :=
      match k with K_lambda2 => if fl_lambda2 f2 then Some iint_2hkl else merge d k | _ => merge d k end in
    (iint_plus + c_lambda2 * iint_2hkl, iint_minus + c_lambda2 * iint_2hkl, close dder_plus_hkl, close dder_minus_hkl)
  end.
(** l.491-540 calc_flip_ratio_by_structure_factors *)
Definition calc_flip_ratio_by_structure_factors (f : flags) (f2 : flags2) (a : arg) (two : option (R * cx * V3 cx)) : R * dict :=
  let '(iint_plus, iint_minus, dder_plus, dder_minus) := calc_intensities_by_structure_factors f f2 a two in
  let flip_ration := iint_plus / iint_minus in
  (flip_ration,
   fun k => match dder_plus k, dder_minus k with
            | Some t_1, Some t_2 => Some (t_1 / iint_minus - flip_ration * t_2 / iint_minus)
            | Some t_1, None => Some (t_1 / iint_minus)
            | None, Some t_2 => Some (- flip_ration * t_2 / iint_minus)
            | None, None => None
            end).
