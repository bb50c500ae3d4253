(** Model of C_item_loop_classes/cl_1_pd_instr_resolution.py: PdInstrResolution.calc_resolution at one angle.  Floats are reals; a NaN is None;
    the refined attributes are plain numbers and the intermediate results kept as attributes of the object (hg, hl, ...) are not modelled. *)
From Coq Require Import Reals.
From Verif Require Import Model.Profile.
Open Scope R_scope.

(** u, v, w, x, y of the object (l.75-85), and the five numbers of a phase with its size parameter (arguments of l.130-133) *)
Record rpar := mkRP { rp_u : R; rp_v : R; rp_w : R; rp_x : R; rp_y : R }.
Record rphase := mkRPh { ph_igsize : R; ph_u : R; ph_v : R; ph_w : R; ph_x : R; ph_y : R }.
(** the eight numbers returned (l.157) *)
Record rout := mkRO { ro_hpv : R; ro_eta : R; ro_hg : R; ro_hl : R; ro_ag : R; ro_bg : R; ro_al : R; ro_bl : R }.
(** l.86-95 calc_hg: the square under the root *)
Definition item_hg_sq (r : rpar) (p : rphase) (t_th ic_th : R) : R :=
  let u := rp_u r + ph_u p in let v := rp_v r + ph_v p in let w := rp_w r + ph_w p in
  u * t_th ^ 2 + v * t_th + w + ph_igsize p * ic_th ^ 2.
(** l.97-103 calc_hl *)
Definition item_hl (r : rpar) (p : rphase) (t_th ic_th : R) : R := (rp_x r + ph_x p) * t_th + (rp_y r + ph_y p) * ic_th.
(** l.105-123 calc_hpveta: the fifth power of the width *)
Definition item_hpv5 (hg hl : R) : R :=
  let hg_2 := hg ^ 2 in let hl_2 := hl ^ 2 in let hg_3 := hg_2 * hg in let hl_3 := hl_2 * hl in
  let hg_4 := hg_3 * hg in let hl_4 := hl_3 * hl in let hg_5 := hg_4 * hg in let hl_5 := hl_4 * hl in
  let c_2 := 269269/100000 in let c_3 := 242843/100000 in let c_4 := 447163/100000 in let c_5 := 7842/100000 in
  hg_5 + c_2 * hg_4 * hl + c_3 * hg_3 * hl_2 + c_4 * hg_2 * hl_3 + c_5 * hg * hl_4 + hl_5.
Definition item_eta (hl hpv : R) : R := let hh := hl * 1 / hpv in 136603/100000 * hh - 47719/100000 * hh ^ 2 + 11116/100000 * hh ^ 3.
(** l.74-84 calc_tancos, l.125-157 calc_agbg, calc_albl, calc_resolution; tth in degrees.  The root of a negative number, a fractional power of a
    negative number and a division by zero are no number. *)
Definition calc_resolution (r : rpar) (p : rphase) (tth : R) : option rout :=
  let th := 5/10 * tth * PI / 180 in let t_th := tan th in let ic_th := 1 / cos th in
  let sq := item_hg_sq r p t_th ic_th in
  if Rlt_dec sq 0 then None else
  let hg := sqrt sq in let hl := item_hl r p t_th ic_th in let h5 := item_hpv5 hg hl in
  if Rle_dec h5 0 then None else
  let hpv := Rpower h5 (2/10) in
  Some (mkRO hpv (item_eta hl hpv) hg hl (2 / hpv * sqrt (ln 2 / PI)) (4 * ln 2 / hpv ^ 2) (2 / (PI * hpv)) (4 / hpv ^ 2)).
(** procedure_rhochi/rhochi_pd.py l.355-356: the parameters of the fit for a phase *)
Definition fit_width (r : rpar) (p : rphase) : width := mkW (rp_u r + ph_u p) (rp_v r + ph_v p) (rp_w r + ph_w p) (ph_igsize p).
Definition fit_x (r : rpar) (p : rphase) : R := rp_x r + ph_x p.
Definition fit_y (r : rpar) (p : rphase) : R := rp_y r + ph_y p.
