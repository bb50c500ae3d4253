(** Model of the iteration of the density reconstruction:
    /repo/cryspy/procedure_mempy/mempy_by_dictionary.py l.230-232, l.250-256, l.270-455 (mempy_reconstruction_by_dictionary).
    Floating point numbers are real numbers.  The reflections of all experiments are one list, each with the data of its experiment
    (l.300-380 loops over the experiments and concatenates).  A channel that is switched off has empty arrays.  A division by a sum that
    is zero gives NaN, which then spreads to everything: modelled as no result. *)
From Coq Require Import Reals ZArith List Bool String.
From Coquelicot Require Import Complex.
From Verif Require Import Spec.Lin3 Spec.Density Model.Mem Model.FlipRatio Model.MemFourier.
Import ListNotations.
Open Scope list_scope.
Open Scope R_scope.

(** l.250-256: measured value and sigma, from the flipping ratio and its sigma *)
Definition exp_value_sigma (flag_asymmetry : bool) (fr fs : R) : R * R :=
  if flag_asymmetry then ((fr - 1) / (fr + 1), sqrt 2 * fs * sqrt (Rsqr fr + 1) / Rsqr (fr + 1)) else (fr, fs).
(** one reflection: data of the experiment, coefficients of the points (l.262-296), measured value and sigma *)
Record mrefl := mkMR { mr_bp : R; mr_fe : R; mr_fn : cx; mr_axis : V3 R; mr_ext : option ext; mr_col : list (V3 C); mr_chi : list (V3 C); mr_exp : R; mr_sigma : R }.
Definition dens := ((list R * list R) * list R)%type.   (* density_col[0], density_col[1], density_chi *)
(** l.306-317 *)
Definition f_m_perp_of (plus minus : R) (r : mrefl) (d : dens) : V3 cx :=
  let c i := Cplus (f_m_perp_col plus minus (combine (fst (fst d)) (snd (fst d))) (mr_col r) i) (f_m_perp_chi (snd d) (mr_chi r) i) in mkV (c X1) (c X2) (c X3).
(** l.341-370, one reflection: the value of the model and the derivative along a column of coefficients *)
Definition or0 (x : option R) : R := match x with Some y => y | None => 0 end.
Definition refl_model (asym : bool) (r : mrefl) (fm : V3 cx) : R * (V3 C -> R) :=
  let '(ip, im, dp, dm) := calc_iint (mkF false false false true) (mkArg (mr_bp r) (mr_fe r) (mr_fn r) fm (mr_axis r) (mr_ext r)) in
  let '(m, dd) := if asym then calc_asymmetry_by_iint ip im None else calc_flip_ratio_by_iint ip im None in
  let re i := d_plus dd * or0 (dp (K_fm_re i)) + d_minus dd * or0 (dm (K_fm_re i)) in
  let imm i := d_plus dd * or0 (dp (K_fm_im i)) + d_minus dd * or0 (dm (K_fm_im i)) in
  (m, fun v => (fst (v_1 v) * re X1 + fst (v_2 v) * re X2 + fst (v_3 v) * re X3) + (snd (v_1 v) * imm X1 + snd (v_2 v) * imm X2 + snd (v_3 v) * imm X3)).

Record mpar := mkPar { pa_refl : list mrefl; pa_asym : bool; pa_plus : R; pa_minus : R; pa_on_col : bool; pa_on_chi : bool; pa_desired : R; pa_volume : R;
  pa_number : R; pa_delta : R; pa_mult : list R; pa_points : list mpoint; pa_lambda_min : R }.
Record meval := mkEv { ev_d : dens; ev_c : R; ev_dcol : list R * list R; ev_dchi : list R }.
(** l.383-402 *)
Definition zero3 : V3 C := mkV (RtoC 0) (RtoC 0) (RtoC 0).
Definition diff_value (p : mpar) (d : dens) (r : mrefl) : R := (mr_exp r - fst (refl_model (pa_asym p) r (f_m_perp_of (pa_plus p) (pa_minus p) r d))) / mr_sigma r.
Definition der_c_den (p : mpar) (d : dens) (coef : mrefl -> list (V3 C)) (j : nat) : R :=
  -2 / INR (List.length (pa_refl p)) *
  asum (map (fun r => diff_value p d r / mr_sigma r * snd (refl_model (pa_asym p) r (f_m_perp_of (pa_plus p) (pa_minus p) r d)) (nth j (coef r) zero3)) (pa_refl p)).
Definition evaluate (p : mpar) (d : dens) : meval :=
  let pm := map (der_c_den p d mr_col) (seq 0 (List.length (fst (fst d)))) in
  mkEv d (asum (map (fun r => Rsqr (diff_value p d r)) (pa_refl p)) / INR (List.length (pa_refl p)))
    (map (fun x => pa_plus p * x) pm, map (fun x => pa_minus p * x) pm) (map (der_c_den p d mr_chi) (seq 0 (List.length (snd d)))).
(** l.428-438: the next density *)
Definition clip (x : R) : R := if Rlt_dec 0 x then x else 0.
Definition moved (delta coeff d der : R) : R := clip ((d + delta) * exp (- coeff * der) - delta).
Definition moved_col (p : mpar) (lambda : R) (row der : list R) : list R :=
  map (fun x => moved (pa_delta p) (lambda * pa_number p / (pa_desired p * pa_volume p) / snd x) (fst (fst x)) (snd (fst x))) (combine (combine row der) (pa_mult p)).
Definition moved_chi (p : mpar) (lambda : R) (row der : list R) : list R :=
  map (fun x => moved (pa_delta p) (lambda * pa_number p / (pa_desired p * pa_volume p) * mp_amult (snd x) / mp_mult (snd x)) (fst (fst x)) (snd (fst x))) (combine (combine row der) (pa_points p)).
Definition col_sum (p : mpar) (row : list R) : R := asum (map (fun x => fst x * snd x) (combine row (pa_mult p))).
Definition chi_sum (l : list mpoint) (a : string) : R := asum (map prod_den_mult (filter (fun p => String.eqb (mp_label p) a) l)).
Definition next_col (p : mpar) (lambda : R) (row der : list R) : option (list R) :=
  let hh := moved_col p lambda row der in
  if Req_EM_T (col_sum p hh) 0 then None else Some (renorm_col_row hh (pa_mult p) (pa_volume p) (pa_number p)).
Definition next_chi (p : mpar) (lambda : R) (row der : list R) : option (list R) :=
  let l := set_density (moved_chi p lambda row der) (pa_points p) in
  if existsb (fun a => if Req_EM_T (chi_sum l (mp_label a)) 0 then true else false) l then None
  else Some (renormailize_density_chi l (pa_volume p) (pa_number p)).
Definition mem_next (p : mpar) (lambda : R) (e : meval) : option dens :=
  let col := if pa_on_col p then
      match next_col p lambda (fst (fst (ev_d e))) (fst (ev_dcol e)), next_col p lambda (snd (fst (ev_d e))) (snd (ev_dcol e)) with Some a, Some b => Some (a, b) | _, _ => None end
    else Some (fst (ev_d e)) in
  let chi := if pa_on_chi p then next_chi p lambda (snd (ev_d e)) (ev_dchi e) else Some (snd (ev_d e)) in
  match col, chi with Some a, Some b => Some (a, b) | _, _ => None end.
(** l.404-424: the better of this density and the best before, and the new lambda *)
Definition mem_accept (cur : meval) (prev : option meval) (lambda : R) : meval * R :=
  match prev with
  | Some b => if Rlt_dec (ev_c b) (ev_c cur) then (b, 5 / 10 * lambda) else (cur, 103 / 100 * lambda)
  | None => (cur, 103 / 100 * lambda)
  end.
(** l.290-455; [fuel]: iterations left after this one; result: the densities saved, and all densities tried *)
Fixpoint mem_loop (p : mpar) (fuel : nat) (d : dens) (prev : option meval) (lambda : R) : option (meval * list dens) :=
  let '(best, lambda) := mem_accept (evaluate p d) prev lambda in
  let stop := (if Rlt_dec lambda (pa_lambda_min p) then true else false) || (if Rle_dec (ev_c best) (pa_desired p) then true else false) in
  match fuel with
  | O => Some (best, [d])
  | S fuel => if stop : bool then Some (best, [d]) else
      match mem_next p lambda best with
      | None => None
      | Some d' => match mem_loop p fuel d' (Some best) lambda with None => None | Some (b, tried) => Some (b, d :: tried) end
      end
  end.
(** the procedure, from the prior density *)
Definition mem_run (p : mpar) (iteration_max : nat) (prior : dens) (lambda : R) : option (meval * list dens) := mem_loop p (Nat.pred iteration_max) prior None lambda.
