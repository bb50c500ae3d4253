(** Model of cryspy/A_functions_base/integrated_intensity_powder_diffraction.py for one reflection (and, in the 2d
    functions, one value of alpha): array axes are element-wise.  Floats are reals; a complex number is two reals.
    The arguments of all functions are read from one environment [e]: [e (Fn Re)] is f_nucl.real, [e (Sg X1 X2 Im)] is
    tensor_sigma[1].imag (row-major order, l.10-12), [e (Fm X3 Re)] is f_m_perp[2].real, and so on.  A returned dictionary
    maps an argument to its derivative; an array entry such as dder["tensor_sigma_real"] is seen element by element.
    A Python value None stored in a dictionary (l.477-480, l.523-526) carries no number and is modelled as an absent
    entry. *)
From Coq Require Import Reals Bool.
From Verif Require Import Spec.Lin3.
Open Scope R_scope.

Inductive part := Re | Im.
Inductive var := Fn (p : part) | Sg (i j : ix) (p : part) | Fm (i : ix) (p : part) | Pol | Flip | Field | Alpha.
Definition env := var -> R.
Definition pdict := var -> option R.
Definition empty : pdict := fun _ => None.
Definition when (b : bool) (d : pdict) : pdict := if b then d else empty.
(** several [if flag: dder[...] = ...] statements writing different keys *)
Definition also (d1 d2 : pdict) : pdict := fun v => match d1 v with Some x => Some x | None => d2 v end.
(** dder["f_nucl_real"], dder["f_nucl_imag"] *)
Definition fn_entries (re im : R) : pdict :=
  fun v => match v with Fn Re => Some re | Fn Im => Some im | _ => None end.
(** dder["tensor_sigma_real"] = numpy.stack([9 elements]), dder["tensor_sigma_imag"] likewise *)
Definition sg_entries (re im : M3 R) : pdict :=
  fun v => match v with Sg i j Re => Some (mget re i j) | Sg i j Im => Some (mget im i j) | _ => None end.
(** dder["f_m_perp_real"], dder["f_m_perp_imag"] *)
Definition fm_entries (re im : V3 R) : pdict :=
  fun v => match v with Fm i Re => Some (vget re i) | Fm i Im => Some (vget im i) | _ => None end.
Definition one_entry (w : var -> bool) (x : R) : pdict := fun v => if w v then Some x else None.
Definition is_pol v := match v with Pol => true | _ => false end.
Definition is_flip v := match v with Flip => true | _ => false end.
(** numpy.square(numpy.abs(z)) *)
Definition abs_sq (re im : R) : R := Rsqr re + Rsqr im.
(** [d[key]] used in an arithmetic expression; the keys asked for are present whenever the flag of the caller is set *)
Definition at_ (d : pdict) (v : var) : R := match d v with Some x => x | None => 0 end.

(** l.6-34 calc_m_sq_sin_sq_para *)
Definition calc_m_sq_sin_sq_para (flag : bool) (e : env) : R * pdict :=
  let p_1 := (5/10) * (abs_sq (e (Sg X1 X1 Re)) (e (Sg X1 X1 Im)) + abs_sq (e (Sg X2 X2 Re)) (e (Sg X2 X2 Im))) +
             abs_sq (e (Sg X1 X2 Re)) (e (Sg X1 X2 Im)) in
  (p_1, when flag (sg_entries
    (mkM (e (Sg X1 X1 Re)) (2 * e (Sg X1 X2 Re)) 0 0 (e (Sg X2 X2 Re)) 0 0 0 0)
    (mkM (e (Sg X1 X1 Im)) (2 * e (Sg X1 X2 Im)) 0 0 (e (Sg X2 X2 Im)) 0 0 0 0))).
(** l.37-60 calc_m_sq_cos_sq_para *)
Definition calc_m_sq_cos_sq_para (flag : bool) (e : env) : R * pdict :=
  let p_2 := abs_sq (e (Sg X1 X3 Re)) (e (Sg X1 X3 Im)) + abs_sq (e (Sg X2 X3 Re)) (e (Sg X2 X3 Im)) in
  (p_2, when flag (sg_entries
    (mkM 0 0 (2 * e (Sg X1 X3 Re)) 0 0 (2 * e (Sg X2 X3 Re)) 0 0 0)
    (mkM 0 0 (2 * e (Sg X1 X3 Im)) 0 0 (2 * e (Sg X2 X3 Im)) 0 0 0))).
(** l.63-90 calc_cross_term_para *)
Definition calc_cross_term_para (flag_f_nucl flag_sigma : bool) (e : env) : R * pdict :=
  let p_3 := e (Fn Re) * (e (Sg X1 X1 Re) + e (Sg X2 X2 Re)) + e (Fn Im) * (e (Sg X1 X1 Im) + e (Sg X2 X2 Im)) in
  (p_3, also (when flag_f_nucl (fn_entries (e (Sg X1 X1 Re) + e (Sg X2 X2 Re)) (e (Sg X1 X1 Im) + e (Sg X2 X2 Im))))
             (when flag_sigma (sg_entries (mkM (e (Fn Re)) 0 0 0 (e (Fn Re)) 0 0 0 0) (mkM (e (Fn Im)) 0 0 0 (e (Fn Im)) 0 0 0 0)))).
(** l.93-123 calc_chiral_term_cos_sin_sq_para *)
Definition calc_chiral_term_cos_sin_sq_para (flag : bool) (e : env) : R * pdict :=
  let p_4 := e (Sg X2 X1 Re) * e (Sg X1 X1 Im) - e (Sg X2 X1 Im) * e (Sg X1 X1 Re) +
             e (Sg X2 X2 Re) * e (Sg X1 X2 Im) - e (Sg X2 X2 Im) * e (Sg X1 X2 Re) in
  (p_4, when flag (sg_entries
    (mkM (- e (Sg X2 X1 Im)) (- e (Sg X2 X2 Im)) 0 (e (Sg X1 X1 Im)) (e (Sg X1 X2 Im)) 0 0 0 0)
    (mkM (e (Sg X2 X1 Re)) (e (Sg X2 X2 Re)) 0 (- e (Sg X1 X1 Re)) (- e (Sg X1 X2 Re)) 0 0 0 0))).
(** l.126-149 calc_chiral_term_cos_cube_para *)
Definition calc_chiral_term_cos_cube_para (flag : bool) (e : env) : R * pdict :=
  let p_5 := 2 * (e (Sg X2 X3 Re) * e (Sg X1 X3 Im) - e (Sg X2 X3 Im) * e (Sg X1 X3 Re)) in
  (p_5, when flag (sg_entries
    (mkM 0 0 (- 2 * e (Sg X2 X3 Im)) 0 0 (2 * e (Sg X1 X3 Im)) 0 0 0)
    (mkM 0 0 (2 * e (Sg X2 X3 Re)) 0 0 (- 2 * e (Sg X1 X3 Re)) 0 0 0))).
(** l.152-170 calc_cross_term_ordered *)
Definition calc_cross_term_ordered (flag_f_nucl flag_f_m_perp : bool) (e : env) : R * pdict :=
  let o_1 := 2 * (e (Fn Re) * e (Fm X3 Re) + e (Fn Im) * e (Fm X3 Im)) in
  (o_1, also (when flag_f_nucl (fn_entries (2 * e (Fm X3 Re)) (2 * e (Fm X3 Im))))
             (when flag_f_m_perp (fm_entries (mkV 0 0 (2 * e (Fn Re))) (mkV 0 0 (2 * e (Fn Im)))))).
(** l.173-191 calc_chiral_term_ordered *)
Definition calc_chiral_term_ordered (flag : bool) (e : env) : R * pdict :=
  let o_2 := 2 * (e (Fm X2 Re) * e (Fm X1 Im) - e (Fm X2 Im) * e (Fm X1 Re)) in
  (o_2, when flag (fm_entries (mkV (- 2 * e (Fm X2 Im)) (2 * e (Fm X1 Im)) 0) (mkV (2 * e (Fm X2 Re)) (- 2 * e (Fm X1 Re)) 0))).
(** l.194-232 calc_m_sq_mix; l.227: the derivative for f_m_perp_y.imag uses sigma_13 *)
Definition calc_m_sq_mix (flag_sigma flag_f_m_perp : bool) (e : env) : R * pdict :=
  let m_1 := 2 * (e (Sg X1 X3 Re) * e (Fm X1 Re) + e (Sg X1 X3 Im) * e (Fm X1 Im) +
                  e (Sg X2 X3 Re) * e (Fm X2 Re) + e (Sg X2 X3 Im) * e (Fm X2 Im)) in
  (m_1, also
    (when flag_sigma (sg_entries
      (mkM 0 0 (2 * e (Fm X1 Re)) 0 0 (2 * e (Fm X2 Re)) 0 0 0)
      (mkM 0 0 (2 * e (Fm X1 Im)) 0 0 (2 * e (Fm X2 Im)) 0 0 0)))
    (when flag_f_m_perp (fm_entries
      (mkV (2 * e (Sg X1 X3 Re)) (2 * e (Sg X2 X3 Re)) 0) (mkV (2 * e (Sg X1 X3 Im)) (2 * e (Sg X1 X3 Im)) 0)))).
(** l.235-271 calc_chiral_term_sin_sq_mix *)
Definition calc_chiral_term_sin_sq_mix (flag_sigma flag_f_m_perp : bool) (e : env) : R * pdict :=
  let m_2 := e (Sg X1 X2 Re) * e (Fm X3 Im) - e (Sg X1 X2 Im) * e (Fm X3 Re) +
             e (Sg X2 X1 Im) * e (Fm X3 Re) - e (Sg X2 X1 Re) * e (Fm X3 Im) in
  (m_2, also
    (when flag_sigma (sg_entries
      (mkM 0 (e (Fm X3 Im)) 0 (- e (Fm X3 Im)) 0 0 0 0 0)
      (mkM 0 (- e (Fm X3 Re)) 0 (e (Fm X3 Re)) 0 0 0 0 0)))
    (when flag_f_m_perp (fm_entries
      (mkV 0 0 (- e (Sg X1 X2 Im) + e (Sg X2 X1 Im))) (mkV 0 0 (e (Sg X1 X2 Re) + e (Sg X2 X1 Re)))))).
(** l.274-313 calc_chiral_term_cos_sq_mix *)
Definition calc_chiral_term_cos_sq_mix (flag_sigma flag_f_m_perp : bool) (e : env) : R * pdict :=
  let m_3 := 2 * (e (Sg X2 X3 Re) * e (Fm X1 Im) - e (Sg X2 X3 Im) * e (Fm X1 Re) +
                  e (Sg X1 X3 Im) * e (Fm X2 Re) - e (Sg X1 X3 Re) * e (Fm X2 Im)) in
  (m_3, also
    (when flag_sigma (sg_entries
      (mkM 0 0 (- e (Fm X2 Im)) 0 0 (e (Fm X1 Im)) 0 0 0)
      (mkM 0 0 (e (Fm X2 Re)) 0 0 (- e (Fm X1 Re)) 0 0 0)))
    (when flag_f_m_perp (fm_entries
      (mkV (- 2 * e (Sg X2 X3 Im)) (2 * e (Sg X1 X3 Im)) 0) (mkV (2 * e (Sg X2 X3 Re)) (- 2 * e (Sg X1 X3 Re)) 0)))).

(** Flags of the intensity functions. *)
Record pflags := mkPF { pf_fn : bool; pf_fm : bool; pf_sg : bool; pf_pol : bool; pf_flip : bool; pf_field : bool }.

(** l.316-352 calc_powder_iint_1d_para: (iint_plus, iint_minus, dder_plus, dder_minus) *)
Definition calc_powder_iint_1d_para (f : pflags) (e : env) : R * R * pdict * pdict :=
  let p_u := e Pol in let p_d := e Pol * (2 * e Flip - 1) in
  let f_nucl_sq := abs_sq (e (Fn Re)) (e (Fn Im)) in
  let '(p_1, dder_p_1) := calc_m_sq_sin_sq_para (pf_sg f) e in
  let '(p_3, dder_p_3) := calc_cross_term_para (pf_fn f) (pf_sg f) e in
  let magnetic_field := e Field in let magnetic_field_sq := Rsqr magnetic_field in
  let iint_plus := f_nucl_sq + magnetic_field_sq * p_1 + p_u * magnetic_field * p_3 in
  let iint_minus := f_nucl_sq + magnetic_field_sq * p_1 - p_d * magnetic_field * p_3 in
  let sg (s : R) : pdict := fun v => match v with
    Sg _ _ _ => Some (magnetic_field_sq * at_ dder_p_1 v + s * magnetic_field * at_ dder_p_3 v) | _ => None end in
  (iint_plus, iint_minus,
   also (when (pf_pol f) (one_entry is_pol (magnetic_field * p_3)))
  (also (when (pf_fn f) (fn_entries (2 * e (Fn Re) + p_u * magnetic_field * at_ dder_p_3 (Fn Re))
                                    (2 * e (Fn Im) + p_u * magnetic_field * at_ dder_p_3 (Fn Im))))
        (when (pf_sg f) (sg p_u))),
   also (when (pf_pol f) (one_entry is_pol (- 1 * magnetic_field * p_3 * (2 * e Flip - 1))))
  (also (when (pf_flip f) (one_entry is_flip (- 2 * magnetic_field * p_3 * e Pol)))
  (also (when (pf_fn f) (fn_entries (2 * e (Fn Re) - p_d * magnetic_field * at_ dder_p_3 (Fn Re))
                                    (2 * e (Fn Im) - p_d * magnetic_field * at_ dder_p_3 (Fn Im))))
        (when (pf_sg f) (sg (- p_d)))))).
(** l.355-374 calc_powder_iint_1d_ordered *)
Definition fm_sq (e : env) : R :=
  abs_sq (e (Fm X1 Re)) (e (Fm X1 Im)) + abs_sq (e (Fm X2 Re)) (e (Fm X2 Im)) + abs_sq (e (Fm X3 Re)) (e (Fm X3 Im)).
Definition calc_powder_iint_1d_ordered (flag_f_nucl flag_f_m_perp : bool) (e : env) : R * pdict :=
  (abs_sq (e (Fn Re)) (e (Fn Im)) + fm_sq e,
   also (when flag_f_nucl (fn_entries (2 * e (Fn Re)) (2 * e (Fn Im))))
        (when flag_f_m_perp (fm_entries (mkV (2 * e (Fm X1 Re)) (2 * e (Fm X2 Re)) (2 * e (Fm X3 Re)))
                                        (mkV (2 * e (Fm X1 Im)) (2 * e (Fm X2 Im)) (2 * e (Fm X3 Im)))))).
(** l.377-425 calc_powder_iint_1d_mix; None: KeyError (l.420 dder_minus_para["flippe"], l.422-423
    dder_plus_para["magnetic_field"]).  The entry f_nucl_imag is not copied (l.403-405).  The keys "f_m_perp_ordered_..." name
    the argument f_m_perp. *)
Definition calc_powder_iint_1d_mix (f : pflags) (e : env) : option (R * R * pdict * pdict) :=
  let p_u := e Pol in let p_d := e Pol * (2 * e Flip - 1) in let magnetic_field := e Field in
  let '(iint_plus_para, iint_minus_para, dder_plus_para, dder_minus_para) := calc_powder_iint_1d_para f e in
  let '(m_2, dder_m_2) := calc_chiral_term_sin_sq_mix (pf_sg f) (pf_fm f) e in
  let iint_plus := iint_plus_para + fm_sq e + p_u * magnetic_field * m_2 in
  let iint_minus := iint_minus_para + fm_sq e + p_d * magnetic_field * m_2 in
  if pf_flip f || pf_field f then None else
  let fn (d : pdict) : pdict := fun v => match v with Fn Re => d v | _ => None end in
  let fm (s : R) : pdict := fun v => match v with Fm _ _ => Some (2 * e v + s * magnetic_field * at_ dder_m_2 v) | _ => None end in
  let sg (d : pdict) (s : R) : pdict := fun v => match v with
    Sg _ _ _ => Some (at_ d v + s * magnetic_field * at_ dder_m_2 v) | _ => None end in
  Some (iint_plus, iint_minus,
   also (when (pf_fn f) (fn dder_plus_para)) (also (when (pf_fm f) (fm p_u)) (also (when (pf_sg f) (sg dder_plus_para p_u))
        (when (pf_pol f) (one_entry is_pol (at_ dder_plus_para Pol + magnetic_field * m_2))))),
   also (when (pf_fn f) (fn dder_minus_para)) (also (when (pf_fm f) (fm p_d)) (also (when (pf_sg f) (sg dder_minus_para p_d))
        (when (pf_pol f) (one_entry is_pol (at_ dder_minus_para Pol + magnetic_field * m_2 * (2 * e Flip - 1))))))).
(** l.428-481 calc_powder_iint_2d_para *)
Definition calc_powder_iint_2d_para (f : pflags) (e : env) : R * R * pdict * pdict :=
  let p_u := e Pol in let p_d := e Pol * (2 * e Flip - 1) in
  let s_a_sq := Rsqr (sin (e Alpha)) in let c_a := cos (e Alpha) in
  let f_nucl_sq := abs_sq (e (Fn Re)) (e (Fn Im)) in
  let '(p_1, dder_p_1) := calc_m_sq_sin_sq_para (pf_sg f) e in
  let '(p_2, dder_p_2) := calc_m_sq_cos_sq_para (pf_sg f) e in
  let '(p_3, dder_p_3) := calc_cross_term_para (pf_fn f) (pf_sg f) e in
  let '(p_4, dder_p_4) := calc_chiral_term_cos_sin_sq_para (pf_sg f) e in
  let '(p_5, dder_p_5) := calc_chiral_term_cos_cube_para (pf_sg f) e in
  let magnetic_field := e Field in let magnetic_field_sq := Rsqr magnetic_field in
  let iint_plus := (f_nucl_sq + magnetic_field_sq * p_2) +
    (magnetic_field_sq * p_1 - magnetic_field_sq * p_2 + p_u * magnetic_field * p_3) * s_a_sq +
    (p_u * magnetic_field_sq) * ((p_4 - p_5) * s_a_sq + p_5) * c_a in
  let iint_minus := (f_nucl_sq + magnetic_field_sq * p_2) +
    (magnetic_field_sq * p_1 - magnetic_field_sq * p_2 - p_d * magnetic_field * p_3) * s_a_sq -
    (p_d * magnetic_field_sq) * ((p_4 - p_5) * s_a_sq + p_5) * c_a in
  let pol_plus := magnetic_field * p_3 * s_a_sq + magnetic_field_sq * ((p_4 - p_5) * s_a_sq + p_5) * c_a in
  (iint_plus, iint_minus,
   also (when (pf_pol f) (one_entry is_pol pol_plus))
        (when (pf_fn f) (fn_entries (2 * e (Fn Re) + p_u * magnetic_field * s_a_sq * at_ dder_p_3 (Fn Re))
                                    (2 * e (Fn Im) + p_u * magnetic_field * s_a_sq * at_ dder_p_3 (Fn Im)))),
   also (when (pf_pol f) (one_entry is_pol (- (2 * e Flip - 1) * pol_plus)))
  (also (when (pf_flip f) (one_entry is_flip (- 2 * e Pol * pol_plus)))
        (when (pf_fn f) (fn_entries (2 * e (Fn Re) - p_d * magnetic_field * s_a_sq * at_ dder_p_3 (Fn Re))
                                    (2 * e (Fn Im) - p_d * magnetic_field * s_a_sq * at_ dder_p_3 (Fn Im)))))).
(** l.484-527 calc_powder_iint_2d_ordered *)
Definition calc_powder_iint_2d_ordered (f : pflags) (e : env) : R * R * pdict * pdict :=
  let p_u := e Pol in let p_d := e Pol * (2 * e Flip - 1) in let c_a := cos (e Alpha) in
  let f_nucl_sq := abs_sq (e (Fn Re)) (e (Fn Im)) in let f_m_perp_sq := fm_sq e in
  let '(o_1, dder_o_1) := calc_cross_term_ordered (pf_fn f) (pf_fm f) e in
  let '(o_2, dder_o_2) := calc_chiral_term_ordered (pf_fm f) e in
  let iint_plus := (f_nucl_sq + f_m_perp_sq) + p_u * (o_1 + o_2) * c_a in
  let iint_minus := (f_nucl_sq + f_m_perp_sq) - p_d * (o_1 + o_2) * c_a in
  let fn := when (pf_fn f) (fn_entries (2 * e (Fn Re)) (2 * e (Fn Im))) in
  (iint_plus, iint_minus,
   also (when (pf_pol f) (one_entry is_pol ((o_1 + o_2) * c_a))) fn,
   also (when (pf_pol f) (one_entry is_pol (- (2 * e Flip - 1) * ((o_1 + o_2) * c_a))))
  (also (when (pf_flip f) (one_entry is_flip (- e Pol * (o_1 + o_2) * c_a))) fn)).
(** l.530-592 calc_powder_iint_2d_mix; both dictionaries are empty *)
Definition calc_powder_iint_2d_mix (e : env) : R * R :=
  let p_u := e Pol in let p_d := e Pol * (2 * e Flip - 1) in
  let s_a_sq := Rsqr (sin (e Alpha)) in let c_a := cos (e Alpha) in
  let f_nucl_sq := abs_sq (e (Fn Re)) (e (Fn Im)) in
  let p_1 := fst (calc_m_sq_sin_sq_para false e) in let p_2 := fst (calc_m_sq_cos_sq_para false e) in
  let p_3 := fst (calc_cross_term_para false false e) in let p_4 := fst (calc_chiral_term_cos_sin_sq_para false e) in
  let p_5 := fst (calc_chiral_term_cos_cube_para false e) in
  let magnetic_field := e Field in let magnetic_field_sq := Rsqr magnetic_field in
  let f_m_perp_sq := fm_sq e in
  let o_1 := fst (calc_cross_term_ordered false false e) in let o_2 := fst (calc_chiral_term_ordered false e) in
  let m_1 := fst (calc_m_sq_mix false false e) in let m_2 := fst (calc_chiral_term_sin_sq_mix false false e) in
  let m_3 := fst (calc_chiral_term_cos_sq_mix false false e) in
  let iint_plus := (f_nucl_sq + magnetic_field_sq * p_2 + f_m_perp_sq) + p_u * magnetic_field * m_3 +
    (magnetic_field_sq * p_1 - magnetic_field_sq * p_2 + p_u * magnetic_field * p_3 + p_u * magnetic_field * m_2 - p_u * magnetic_field * m_3) * s_a_sq +
    (p_u * magnetic_field_sq) * ((p_4 - p_5) * s_a_sq + p_5) * c_a + (p_u * o_1 + p_u * o_2 + magnetic_field * m_1) * c_a in
  let iint_minus := (f_nucl_sq + magnetic_field_sq * p_2 + f_m_perp_sq) - p_d * magnetic_field * m_3 +
    (magnetic_field_sq * p_1 - magnetic_field_sq * p_2 - p_d * magnetic_field * p_3 - p_d * magnetic_field * m_2 - p_d * magnetic_field * m_3) * s_a_sq -
    (p_d * magnetic_field_sq) * ((p_4 - p_5) * s_a_sq + p_5) * c_a + (- p_d * o_1 - p_d * o_2 + magnetic_field * m_1) * c_a in
  (iint_plus, iint_minus).
