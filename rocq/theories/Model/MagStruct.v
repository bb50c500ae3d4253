(** Model of the magnetic structure factors: /repo/cryspy/A_functions_base/structure_factor.py
    l.31-71 (calc_f_m_perp_by_sft), l.140-146 (calc_pr5), l.205-262 (calc_f_by_f_asym_a_pr on tensors),
    l.282-312 (calc_sft_ccs_asym_a_by_pr), l.899-1066 (calc_sft_ccs), l.1189-1312 (calc_f_m_perp_ordered),
    l.1382-1429 (calc_bulk_susceptibility), and local_susceptibility.py l.198-205 (calc_m_r_inv_m).
    Same conventions as Model/StructFactor: floats are reals, complex numbers are Coquelicot's C, arrays are nested lists;
    a tensor array [9, hkl] is the list over hkl of its 9 elements. *)
From Coq Require Import Reals ZArith List Bool.
From Coquelicot Require Import Complex.
From Verif Require Import Spec.Lin3 Spec.Cell Spec.Symm Model.MatrixOps Model.UnitCell Model.Symmetry Model.AtomFactors Model.StructFactor.
Import ListNotations.
Open Scope list_scope.
Open Scope R_scope.

(** Arrays of 9 or 3 elements given element by element. *)
Definition m_tab {A} (f : ix -> ix -> A) : M3 A :=
  mkM (f X1 X1) (f X1 X2) (f X1 X3) (f X2 X1) (f X2 X2) (f X2 X3) (f X3 X1) (f X3 X2) (f X3 X3).
Definition v_tab {A} (f : ix -> A) : V3 A := mkV (f X1) (f X2) (f X3).
(** symm_elems[4:13] as floats. *)
Definition rot9 (e : Op) : M3 R := m_tab (fun i j => IZR (mget (e_r e) i j)).

(** local_susceptibility.py l.198-205 calc_m_r_inv_m (= calc_pr5), one symmetry element: M R M^-1.
    Simplification: symm_elems[4:, :] is symm_elems[4:13, :], as calc_sft_ccs passes 13 rows. *)
Definition calc_m_r_inv_m (uc : U6 R) (e : Op) : M3 R := calc_m1_m2_inv_m1 (calc_m_m uc) (rot9 e).

(** One paramagnetic atom: fract_xyz, occupancy, susceptibility, sc_chi (6 rows of 6), b_iso, beta, lande_factor, kappa, j0, j2. *)
Record para := mkP { pa_xyz : V3 R; pa_occ : R; pa_chi : Q6 R; pa_sc : Q6 (Q6 R); pa_biso : R; pa_beta : Q6 R;
  pa_lande : R; pa_kappa : R; pa_j0 : jpar; pa_j2 : jpar }.

(** l.296: mas_constr = (0.2695*atom_para_sc_chi * atom_para_susceptibility[na, :, :]).sum(axis=1). *)
Definition dot6 (k : R) (row chi : Q6 R) : R :=
  k * q_11 row * q_11 chi + k * q_22 row * q_22 chi + k * q_33 row * q_33 chi + k * q_12 row * q_12 chi + k * q_13 row * q_13 chi + k * q_23 row * q_23 chi.
Definition mas_constr (k : R) (sc : Q6 (Q6 R)) (chi : Q6 R) : Q6 R :=
  mkQ (dot6 k (q_11 sc) chi) (dot6 k (q_22 sc) chi) (dot6 k (q_33 sc) chi) (dot6 k (q_12 sc) chi) (dot6 k (q_13 sc) chi) (dot6 k (q_23 sc) chi).
(** l.298: hh for one symmetry element (theta is None). *)
Definition hh_of (pr_5 : M3 R) (sc : Q6 (Q6 R)) (chi : Q6 R) : M3 R := calc_m_q_inv_m pr_5 (mas_constr (2695 / 10000) sc chi).
(** l.282-306 calc_sft_ccs_asym_a_by_pr (value), one reflection and one atom: lists over the symmetry elements. *)
Definition calc_sft_asym_a (mult occ : R) (pr_2 pr_1 : list C) (dwf : list R) (hh : list (M3 R)) : M3 C :=
  m_tab (fun i j => div_n (sum_c (map (fun q : C * (C * (R * M3 R)) =>
      let '(p2, (p1, (w, t))) := q in
      Cmult (Cmult p2 (Cmult (Cmult p1 (RtoC w)) (RtoC (mult * occ)))) (RtoC (mget t i j)))
    (combine pr_2 (combine pr_1 (combine dwf hh))))) (length pr_2)).
(** l.205-239 calc_f_by_f_asym_a_pr on a tensor, one reflection: lists over the atoms. *)
Definition calc_t_by_t_asym (t : list (M3 C)) (ff : list R) (pr_3 : C) (centro : bool) (pr_4 : C) : M3 C :=
  m_tab (fun i j => calc_f_by_f_asym (map (fun x => mget x i j) t) (map RtoC ff) pr_3 centro pr_4).

(** Arrays of calc_sft_ccs. *)
Definition para0 : para := mkP (mkV 0 0 0) 0 q_zero (mkQ q_zero q_zero q_zero q_zero q_zero q_zero) 0 q_zero 0 0 (mkJ 0 0 0 0 0 0 0) (mkJ 0 0 0 0 0 0 0).
(** l.931-944 *)
Definition p_mult_arr (full : list Op) (atoms : list para) : list nat :=
  map (fun a => calc_multiplicity full (get_atom_symm_elem (pa_xyz a))) atoms.
(** l.951 *)
Definition p_pr1_arr (hkls : list (V3 Z)) (s : symmetry) (atoms : list para) : list (list (list C)) :=
  map (fun h => map (fun e => map (fun a => calc_pr1 h e (pa_xyz a)) atoms) (s_red s)) hkls.
(** l.989 *)
Definition pr5_arr (s : symmetry) (uc : U6 R) : list (M3 R) := map (calc_m_r_inv_m uc) (s_red s).
(** l.1001-1006 *)
Definition ff_arr (only : bool) (sthovl : list R) (atoms : list para) : list (list R) :=
  map (fun st => map (fun a => calc_form_factor only st (pa_lande a) (pa_kappa a) (pa_j0 a) (pa_j2 a)) atoms) sthovl.
(** l.1015-1018 *)
Definition p_dwf_arr (hkls : list (V3 Z)) (sthovl : list R) (s : symmetry) (atoms : list para) : list (list (list R)) :=
  map (fun q => map (fun e => map (fun a => dwf_call (fst q) (snd q) e (pa_biso a) (pa_beta a)) atoms) (s_red s)) (combine hkls sthovl).
(** l.1034-1039 *)
Definition sft_asym_arr (mult : list nat) (dwf : list (list (list R))) (atoms : list para)
    (pr_1 : list (list (list C))) (pr_2 : list (list C)) (pr_5 : list (M3 R)) : list (list (M3 C)) :=
  map (fun q : list C * (list (list C) * list (list R)) =>
    map (fun j => let a := nth j atoms para0 in
           calc_sft_asym_a (INR (nth j mult 0%nat)) (pa_occ a) (fst q) (col j (RtoC 0) (fst (snd q))) (col j 0 (snd (snd q)))
             (map (fun m => hh_of m (pa_sc a) (pa_chi a)) pr_5)) (seq 0 (length atoms)))
    (combine pr_2 (combine pr_1 dwf)).
(** l.1048 *)
Definition sft_arr (asym : list (list (M3 C))) (ff : list (list R)) (pr_3 : list C) (s : symmetry) (pr_4 : list C) : list (M3 C) :=
  map (fun q : list (M3 C) * (list R * (C * C)) => calc_t_by_t_asym (fst q) (fst (snd q)) (fst (snd (snd q))) (s_centro s) (snd (snd (snd q))))
      (combine asym (combine ff (combine pr_3 pr_4))).

(** l.899-1066 calc_sft_ccs without stored data (an empty dictionary).  With dict_in_out=None, l.996 raises TypeError (below). *)
Definition calc_sft_ccs (only : bool) (hkls : list (V3 Z)) (s : symmetry) (uc : U6 R) (atoms : list para) : list (M3 C) :=
  let mult := p_mult_arr (full_of s) atoms in
  let pr_1 := p_pr1_arr hkls s atoms in
  let pr_2 := pr2_arr hkls s in
  let pr_3 := pr3_arr hkls s in
  let pr_4 := pr4_arr hkls s in
  let sthovl := sthovl_arr hkls uc in
  let pr_5 := pr5_arr s uc in
  let ff := ff_arr only sthovl atoms in
  let dwf := p_dwf_arr hkls sthovl s atoms in
  sft_arr (sft_asym_arr mult dwf atoms pr_1 pr_2 pr_5) ff pr_3 s pr_4.

(** * The dictionary dict_in_out *)
Record mcache := mkMC { d_hkl : option (list (V3 Z)); d_full : option (list Op); d_mult : option (list nat);
  d_pr1 : option (list (list (list C))); d_pr2 : option (list (list C)); d_pr3 : option (list C); d_pr4 : option (list C);
  d_sthovl : option (list R); d_pr5 : option (list (M3 R)); d_only : option bool; d_ff : option (list (list R));
  d_dwf : option (list (list (list R))); d_asym : option (list (list (M3 C))); d_sft : option (list (M3 C)) }.
Definition only_hkl (h : list (V3 Z)) : mcache :=
  mkMC (Some h) None None None None None None None None None None None None None.
(** flags of unit_cell_parameters, fract_xyz, occupancy, susceptibility, b_iso, beta, lande_factor, kappa. *)
Record mflags := mkMF { g_uc : bool; g_xyz : bool; g_occ : bool; g_chi : bool; g_biso : bool; g_beta : bool; g_lande : bool; g_kappa : bool }.
(** l.899-1066 calc_sft_ccs with a dictionary (l.919-922: cleared when its reflections are others, whatever the use flag). *)
Definition calc_sft_ccs_dict (use : bool) (fl : mflags) (only : bool) (d : mcache) (hkls : list (V3 Z)) (s : symmetry) (uc : U6 R)
    (atoms : list para) : list (M3 C) * mcache :=
  let d := match d_hkl d with
           | Some h => if hkl_dec h hkls then d else only_hkl hkls
           | None => d end in
  let full := fetch true (d_full d) (full_of s) in
  let mult := fetch use (d_mult d) (p_mult_arr full atoms) in
  let full' := if use then match d_mult d with Some _ => d_full d | None => Some full end else Some full in
  let pr_1 := fetch (use && negb (g_xyz fl)) (d_pr1 d) (p_pr1_arr hkls s atoms) in
  let pr_2 := fetch use (d_pr2 d) (pr2_arr hkls s) in
  let pr_3 := fetch use (d_pr3 d) (pr3_arr hkls s) in
  let pr_4 := fetch use (d_pr4 d) (pr4_arr hkls s) in
  let sthovl := fetch (use && negb (g_uc fl)) (d_sthovl d) (sthovl_arr hkls uc) in
  let pr_5 := fetch (use && negb (g_uc fl)) (d_pr5 d) (pr5_arr s uc) in
  let flag_ff := g_uc fl || g_lande fl || g_kappa fl in
  let flag_hh := match d_only d with Some o => Bool.eqb only o | None => true end in
  let ff := fetch (use && negb flag_ff && flag_hh) (d_ff d) (ff_arr only sthovl atoms) in
  let flag_dwf := g_uc fl || g_biso fl || g_beta fl in
  let dwf := fetch (use && negb flag_dwf) (d_dwf d) (p_dwf_arr hkls sthovl s atoms) in
  let flag_debye_waller := g_biso fl || g_beta fl in
  let flag_asym := flag_ff || flag_debye_waller || g_occ fl || g_chi fl || g_xyz fl || g_uc fl in
  let asym := fetch (use && negb flag_asym) (d_asym d) (sft_asym_arr mult dwf atoms pr_1 pr_2 pr_5) in
  let sft := fetch (use && negb flag_asym) (d_sft d) (sft_arr asym ff pr_3 s pr_4) in
  (sft, mkMC (d_hkl d) full' (Some mult) (Some pr_1) (Some pr_2) (Some pr_3) (Some pr_4) (Some sthovl) (Some pr_5) (Some only)
          (Some ff) (Some dwf) (Some asym) (Some sft)).
(** l.996: dict_in_out["flag_only_orbital"] = ... with dict_in_out = None (TypeError, modelled as None). *)
Definition calc_sft_ccs_call (only : bool) (dict : option mcache) (use : bool) (fl : mflags) (hkls : list (V3 Z)) (s : symmetry) (uc : U6 R)
    (atoms : list para) : option (list (M3 C)) :=
  match dict with None => None | Some d => Some (fst (calc_sft_ccs_dict use fl only d hkls s uc atoms)) end.
(** l.818-821, l.886: calc_sft_ccs_by_dictionary takes flag_only_orbital (and index_hkl) from the dictionary itself. *)
Definition calc_sft_ccs_by_dictionary (use : bool) (fl : mflags) (d : mcache) (hkls : list (V3 Z)) (s : symmetry) (uc : U6 R) (atoms : list para) :=
  calc_sft_ccs_dict use fl (match d_only d with Some o => o | None => false end) d hkls s uc atoms.
(** A user's dict_in_out["flag_only_orbital"] = o. *)
Definition set_only (o : bool) (d : mcache) : mcache :=
  mkMC (d_hkl d) (d_full d) (d_mult d) (d_pr1 d) (d_pr2 d) (d_pr3 d) (d_pr4 d) (d_sthovl d) (d_pr5 d) (Some o) (d_ff d) (d_dwf d) (d_asym d) (d_sft d).

(** * Derivative over the susceptibility: l.308-311, l.242-251, l.1061-1065 *)
(** l.309: 0.2695*(dder_hh["q"]*sc_chi).sum(axis=1): the derivative of hh over the element kl of the susceptibility. *)
Definition dder_hh_2 (pr_5 : M3 R) (sc : Q6 (Q6 R)) (chi : Q6 R) (k l : ix) : M3 R :=
  let q := calc_m_q_inv_m_dder_q pr_5 (mas_constr (2695 / 10000) sc chi) in
  m_tab (fun i j => let d := mget q i j in
    2695 / 10000 * (q_11 d * qget (q_11 sc) k l + q_22 d * qget (q_22 sc) k l + q_33 d * qget (q_33 sc) k l
      + q_12 d * qget (q_12 sc) k l + q_13 d * qget (q_13 sc) k l + q_23 d * qget (q_23 sc) k l)).
(** l.310 *)
Definition sft_asym_a_dder (mult occ : R) (pr_2 pr_1 : list C) (dwf : list R) (dhh : list (M3 R)) : M3 C :=
  calc_sft_asym_a mult occ pr_2 pr_1 dwf dhh.
(** l.245-251: the factors f_asym_a_real and f_asym_a_imag for one reflection and one atom. *)
Definition dder_real (ff : R) (pr_3 : C) (centro : bool) (pr_4 : C) : C :=
  if centro then Cmult (Cmult (RtoC (5 / 10)) (Cplus pr_3 (Cmult pr_4 (Cconj pr_3)))) (RtoC ff) else Cmult pr_3 (RtoC ff).
Definition dder_imag (ff : R) (pr_3 : C) (centro : bool) (pr_4 : C) : C :=
  if centro then Cmult (Cmult (Cmult (RtoC (5 / 10)) Ci) (Cminus pr_3 (Cmult pr_4 (Cconj pr_3)))) (RtoC ff) else Cmult (Cmult pr_3 (RtoC ff)) Ci.
(** l.1062-1065 for one reflection, one atom and one element of its susceptibility: [d] is dder_sft_ccs_asym. *)
Definition sft_dder (ff : R) (pr_3 : C) (centro : bool) (pr_4 : C) (d : C) : C :=
  Cplus (Cmult (dder_real ff pr_3 centro pr_4) d) (Cmult (dder_imag ff pr_3 centro pr_4) d).

(** dder["atom_para_susceptibility"] of calc_sft_ccs for one reflection, the element ij of the tensor, the atom [a] and the
    element kl of its susceptibility. *)
Definition calc_sft_ccs_dder (only : bool) (h : V3 Z) (s : symmetry) (uc : U6 R) (a : para) (k l i j : ix) : C :=
  let st := calc_sthovl (hkl_real h) uc in
  let d := sft_asym_a_dder (INR (calc_multiplicity (full_of s) (get_atom_symm_elem (pa_xyz a)))) (pa_occ a)
     (map (calc_pr2 h) (s_red s)) (map (fun e => calc_pr1 h e (pa_xyz a)) (s_red s))
     (map (fun e => dwf_call h st e (pa_biso a) (pa_beta a)) (s_red s))
     (map (fun e => dder_hh_2 (calc_m_r_inv_m uc e) (pa_sc a) (pa_chi a) k l) (s_red s)) in
  sft_dder (calc_form_factor only st (pa_lande a) (pa_kappa a) (pa_j0 a) (pa_j2 a)) (calc_pr3 h (s_tr s)) (s_centro s) (calc_pr4 h (cp_arg s)) (mget d i j).
(** procedure_rhochi/rhochi_diffrn.py looks the derivative up under the key "mag_atom_susceptibility"; calc_sft_ccs stores it
    under "atom_para_susceptibility". *)

(** * Perpendicular component *)
(** matrix_operations.py l.668-678 calc_m_v and l.115-119 calc_vector_product_v1_v2_v1 with a complex second argument. *)
Definition c_dot3 (r : V3 R) (v : V3 C) : C :=
  Cplus (Cplus (Cmult (RtoC (v_1 r)) (v_1 v)) (Cmult (RtoC (v_2 r)) (v_2 v))) (Cmult (RtoC (v_3 r)) (v_3 v)).
Definition c_m_v (m : M3 C) (v : V3 R) : V3 C :=
  mkV (Cplus (Cplus (Cmult (m_11 m) (RtoC (v_1 v))) (Cmult (m_12 m) (RtoC (v_2 v)))) (Cmult (m_13 m) (RtoC (v_3 v))))
      (Cplus (Cplus (Cmult (m_21 m) (RtoC (v_1 v))) (Cmult (m_22 m) (RtoC (v_2 v)))) (Cmult (m_23 m) (RtoC (v_3 v))))
      (Cplus (Cplus (Cmult (m_31 m) (RtoC (v_1 v))) (Cmult (m_32 m) (RtoC (v_2 v)))) (Cmult (m_33 m) (RtoC (v_3 v)))).
Definition c_v1_v2_v1 (q : V3 R) (v : V3 C) : V3 C :=
  let vv := calc_vv_as_v1_v2_v1 q in mkV (c_dot3 (v_1 vv) v) (c_dot3 (v_2 vv) v) (c_dot3 (v_3 vv) v).
(** l.31-71 calc_f_m_perp_by_sft (value), one reflection; l.70: with flag_eq_ccs it reads the key "eq_css", which does not exist. *)
Definition calc_f_m_perp (sft : M3 C) (field eq_ccs : V3 R) : V3 C := c_v1_v2_v1 eq_ccs (c_m_v sft field).
Definition calc_f_m_perp_call (sft : M3 C) (field eq_ccs : V3 R) (flag_eq_ccs : bool) : py_result (V3 C) :=
  if flag_eq_ccs then KeyError else Ok (calc_f_m_perp sft field eq_ccs).

(** * Ordered moments: l.1189-1312 calc_f_m_perp_ordered without stored data *)
Record moment := mkMo { mo_xyz : V3 R; mo_occ : R; mo_m : V3 R; mo_biso : R; mo_beta : Q6 R; mo_lande : R; mo_kappa : R; mo_j0 : jpar; mo_j2 : jpar }.
(** l.1272-1284 moment_ccs for one element (operation, theta) of full_mcif_elems and one atom. *)
Definition moment_ccs (uc : U6 R) (et : Op * Z) (m : V3 R) : V3 R :=
  let r_direct := rot9 (fst et) in
  let rm := calc_m_v r_direct m in
  let rm_ccs := calc_m_v (calc_m_m_norm uc) rm in
  let k := IZR (snd et) * calc_det_m r_direct in
  mkV (2695 / 10000 * v_1 rm_ccs * k) (2695 / 10000 * v_2 rm_ccs * k) (2695 / 10000 * v_3 rm_ccs * k).
(** l.1286-1289 f_m for one reflection. *)
Definition f_m_ordered (only : bool) (h : V3 Z) (els : list (Op * Z)) (uc : U6 R) (atoms : list moment) : V3 C :=
  let st := calc_sthovl (hkl_real h) uc in
  v_tab (fun i => div_n (sum_c (map (fun et => Cmult (calc_pr2 h (fst et)) (sum_c (map (fun a =>
      let mult := INR (calc_multiplicity (map fst els) (get_atom_symm_elem (mo_xyz a))) in
      let hh_2 := calc_form_factor only st (mo_lande a) (mo_kappa a) (mo_j0 a) (mo_j2 a) * (mult * mo_occ a) in
      let hh_3 := Cmult (Cmult (calc_pr1 h (fst et) (mo_xyz a)) (RtoC (dwf_call h st (fst et) (mo_biso a) (mo_beta a)))) (RtoC hh_2) in
      Cmult hh_3 (RtoC (vget (moment_ccs uc et (mo_m a)) i))) atoms))) els)) (length els)).
(** l.1290-1299 *)
Definition calc_f_m_perp_ordered (only : bool) (hkls : list (V3 Z)) (els : list (Op * Z)) (uc : U6 R) (atoms : list moment) : list (V3 C) :=
  map (fun h => c_v1_v2_v1 (calc_eq_ccs (hkl_real h) uc) (f_m_ordered only h els uc atoms)) hkls.

(** * Bulk susceptibility: l.1382-1429 calc_bulk_susceptibility without stored data *)
Definition r_sum (l : list R) : R := fold_right Rplus 0 l.
Definition calc_bulk (s : symmetry) (uc : U6 R) (atoms : list para) : M3 R :=
  m_tab (fun i j => r_sum (map (fun e => r_sum (map (fun a =>
     INR (calc_multiplicity (full_of s) (get_atom_symm_elem (pa_xyz a))) * pa_occ a
       * mget (calc_m_q_inv_m (calc_m_r_inv_m uc e) (mas_constr 1 (pa_sc a) (pa_chi a))) i j) atoms)) (s_red s)) / INR (length (s_red s))).
