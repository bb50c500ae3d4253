(** Model of cryspy/A_functions_base/matrix_operations.py.

    Each function is the scalar kernel of the numpy code: the first axis of an array of shape
    (9, ...), (6, ...) or (3, ...) is a record, the remaining (broadcast) axes are not modelled since
    every formula acts column by column.  Real dtype; floats are real numbers.
    The arithmetic below is a literal transcription of the assignments of the source lines cited. *)
From Coq Require Import Reals List.
From Verif Require Import Spec.Lin3.
Import ListNotations.
Open Scope R_scope.

(** matrix_operations.py l.18-34 transpose_m (value). *)
Definition transpose_m (m : M3 R) : M3 R :=
  let '(mkM m_11 m_12 m_13 m_21 m_22 m_23 m_31 m_32 m_33) := m in
  let res := (mkM m_11 m_21 m_31 m_12 m_22 m_32 m_13 m_23 m_33) in
  res.

(** matrix_operations.py l.36-47 calc_norm_v (value, real dtype): sqrt of the sum of |v_i|^2. *)
Definition calc_norm_v (v : V3 R) : R :=
  sqrt (Rsqr (Rabs (v_1 v)) + Rsqr (Rabs (v_2 v)) + Rsqr (Rabs (v_3 v))).

(** matrix_operations.py l.49-66 calc_unity_v (value, real dtype).  numpy.isclose(norm, 0.) is
    |norm - 0| <= 1e-8 + 1e-5*|0|, i.e. norm <= 1e-8 since a norm is non-negative. *)
Definition isclose0 (x : R) : bool := if Rle_dec (Rabs x) (1 / 100000000) then true else false.
Definition calc_unity_v (v : V3 R) : V3 R :=
  let norm := calc_norm_v v in
  let flag_0 := isclose0 norm in
  let norm_inv := 1 / (if flag_0 then 1 else norm) in
  mkV (v_1 v * norm_inv) (v_2 v * norm_inv) (v_3 v * norm_inv).

(** matrix_operations.py l.68-112 calc_vv_as_v1_v2_v1 (value): stack of three rows. *)
Definition calc_vv_as_v1_v2_v1 (v1 : V3 R) : V3 (V3 R) :=
  let '(mkV v1_1 v1_2 v1_3) := v1 in
  let v1_1_sq := Rsqr v1_1 in
  let v1_2_sq := Rsqr v1_2 in
  let v1_3_sq := Rsqr v1_3 in
  let vv := (mkV (mkV (v1_3_sq + v1_2_sq) ((- v1_1) * v1_2) ((- v1_1) * v1_3)) (mkV ((- v1_2) * v1_1) (v1_1_sq + v1_3_sq) ((- v1_2) * v1_3)) (mkV ((- v1_3) * v1_1) ((- v1_3) * v1_2) (v1_2_sq + v1_1_sq))) in
  vv.

(** matrix_operations.py l.83-110: dder["v1"] of calc_vv_as_v1_v2_v1. *)
Definition calc_vv_as_v1_v2_v1_dder_v1 (v1 : V3 R) : V3 (V3 (V3 R)) :=
  let '(mkV v1_1 v1_2 v1_3) := v1 in
  let zeros := 0 in
  let dd_11_123 := (mkV zeros (2 * v1_2) (2 * v1_3)) in
  let dd_12_123 := (mkV (- v1_2) (- v1_1) zeros) in
  let dd_13_123 := (mkV (- v1_3) zeros (- v1_1)) in
  let dd_21_123 := (mkV (- v1_2) (- v1_1) zeros) in
  let dd_22_123 := (mkV (2 * v1_1) zeros (2 * v1_3)) in
  let dd_23_123 := (mkV zeros (- v1_3) (- v1_2)) in
  let dd_31_123 := (mkV (- v1_3) zeros (- v1_1)) in
  let dd_32_123 := (mkV zeros (- v1_3) (- v1_2)) in
  let dd_33_123 := (mkV (2 * v1_1) (2 * v1_2) zeros) in
  mkV (mkV dd_11_123 dd_12_123 dd_13_123) (mkV dd_21_123 dd_22_123 dd_23_123)
      (mkV dd_31_123 dd_32_123 dd_33_123).

(** matrix_operations.py l.115-119 calc_vector_product_v1_v2_v1 (value):
    (vv*expand_dims(v2, axis=0)).sum(axis=1). *)
Definition row_dot (r v : V3 R) : R := v_1 r * v_1 v + v_2 r * v_2 v + v_3 r * v_3 v.
Definition calc_vector_product_v1_v2_v1 (v1 v2 : V3 R) : V3 R :=
  let vv := calc_vv_as_v1_v2_v1 v1 in
  mkV (row_dot (v_1 vv) v2) (row_dot (v_2 vv) v2) (row_dot (v_3 vv) v2).

(** matrix_operations.py l.132-138: dder["v2"] is vv itself (rows = output, columns = v2). *)
Definition calc_vector_product_v1_v2_v1_dder_v2 (v1 v2 : V3 R) : V3 (V3 R) :=
  calc_vv_as_v1_v2_v1 v1.

(** matrix_operations.py l.142-164 calc_vector_product_v1_v2 (value). *)
Definition calc_vector_product_v1_v2 (v1 v2 : V3 R) : V3 R :=
  let '(mkV v1_1 v1_2 v1_3) := v1 in
  let '(mkV v2_1 v2_2 v2_3) := v2 in
  let o_1 := v1_2 * v2_3 - v1_3 * v2_2 in
  let o_2 := v1_3 * v2_1 - v1_1 * v2_3 in
  let o_3 := v1_1 * v2_2 - v1_2 * v2_1 in
  let res := (mkV o_1 o_2 o_3) in
  res.

(** matrix_operations.py l.166-194 calc_m_q_mt (value). *)
Definition calc_m_q_mt (m : M3 R) (q : Q6 R) : Q6 R :=
  let '(mkM m_11 m_12 m_13 m_21 m_22 m_23 m_31 m_32 m_33) := m in
  let '(mkQ q_11 q_22 q_33 q_12 q_13 q_23) := q in
  let o_11 := m_11 * (m_11 * q_11 + m_12 * q_12 + m_13 * q_13) + m_12 * (m_11 * q_12 + m_12 * q_22 + m_13 * q_23) + m_13 * (m_11 * q_13 + m_12 * q_23 + m_13 * q_33) in
  let o_22 := m_21 * (m_21 * q_11 + m_22 * q_12 + m_23 * q_13) + m_22 * (m_21 * q_12 + m_22 * q_22 + m_23 * q_23) + m_23 * (m_21 * q_13 + m_22 * q_23 + m_23 * q_33) in
  let o_33 := m_31 * (m_31 * q_11 + m_32 * q_12 + m_33 * q_13) + m_32 * (m_31 * q_12 + m_32 * q_22 + m_33 * q_23) + m_33 * (m_31 * q_13 + m_32 * q_23 + m_33 * q_33) in
  let o_12 := m_21 * (m_11 * q_11 + m_12 * q_12 + m_13 * q_13) + m_22 * (m_11 * q_12 + m_12 * q_22 + m_13 * q_23) + m_23 * (m_11 * q_13 + m_12 * q_23 + m_13 * q_33) in
  let o_13 := m_31 * (m_11 * q_11 + m_12 * q_12 + m_13 * q_13) + m_32 * (m_11 * q_12 + m_12 * q_22 + m_13 * q_23) + m_33 * (m_11 * q_13 + m_12 * q_23 + m_13 * q_33) in
  let o_23 := m_31 * (m_21 * q_11 + m_22 * q_12 + m_23 * q_13) + m_32 * (m_21 * q_12 + m_22 * q_22 + m_23 * q_23) + m_33 * (m_21 * q_13 + m_22 * q_23 + m_23 * q_33) in
  let o_ij := (mkQ o_11 o_22 o_33 o_12 o_13 o_23) in
  o_ij.

(** matrix_operations.py l.196-251 calc_mt_q_m (value). *)
Definition calc_mt_q_m (m : M3 R) (q : Q6 R) : Q6 R :=
  let '(mkM m_11 m_12 m_13 m_21 m_22 m_23 m_31 m_32 m_33) := m in
  let '(mkQ q_11 q_22 q_33 q_12 q_13 q_23) := q in
  let qo_11 := m_11 * (m_11 * q_11 + m_21 * q_12 + m_31 * q_13) + m_21 * (m_11 * q_12 + m_21 * q_22 + m_31 * q_23) + m_31 * (m_11 * q_13 + m_21 * q_23 + m_31 * q_33) in
  let qo_22 := m_12 * (m_12 * q_11 + m_22 * q_12 + m_32 * q_13) + m_22 * (m_12 * q_12 + m_22 * q_22 + m_32 * q_23) + m_32 * (m_12 * q_13 + m_22 * q_23 + m_32 * q_33) in
  let qo_33 := m_13 * (m_13 * q_11 + m_23 * q_12 + m_33 * q_13) + m_23 * (m_13 * q_12 + m_23 * q_22 + m_33 * q_23) + m_33 * (m_13 * q_13 + m_23 * q_23 + m_33 * q_33) in
  let qo_12 := m_12 * (m_11 * q_11 + m_21 * q_12 + m_31 * q_13) + m_22 * (m_11 * q_12 + m_21 * q_22 + m_31 * q_23) + m_32 * (m_11 * q_13 + m_21 * q_23 + m_31 * q_33) in
  let qo_13 := m_13 * (m_11 * q_11 + m_21 * q_12 + m_31 * q_13) + m_23 * (m_11 * q_12 + m_21 * q_22 + m_31 * q_23) + m_33 * (m_11 * q_13 + m_21 * q_23 + m_31 * q_33) in
  let qo_23 := m_13 * (m_12 * q_11 + m_22 * q_12 + m_32 * q_13) + m_23 * (m_12 * q_12 + m_22 * q_22 + m_32 * q_23) + m_33 * (m_12 * q_13 + m_22 * q_23 + m_32 * q_33) in
  let qo := (mkQ qo_11 qo_22 qo_33 qo_12 qo_13 qo_23) in
  qo.

(** matrix_operations.py l.220-234: dder["m"] of calc_mt_q_m (outer index: output element). *)
Definition calc_mt_q_m_dder_m (m : M3 R) (q : Q6 R) : Q6 (M3 R) :=
  let '(mkM m_11 m_12 m_13 m_21 m_22 m_23 m_31 m_32 m_33) := m in
  let '(mkQ q_11 q_22 q_33 q_12 q_13 q_23) := q in
  let zero := 0 in
  let hh := (mkQ (mkM (2 * (m_11 * q_11 + m_21 * q_12 + m_31 * q_13)) zero zero (2 * (m_11 * q_12 + m_21 * q_22 + m_31 * q_23)) zero zero (2 * (m_11 * q_13 + m_21 * q_23 + m_31 * q_33)) zero zero) (mkM zero (2 * (m_12 * q_11 + m_22 * q_12 + m_32 * q_13)) zero zero (2 * (m_12 * q_12 + m_22 * q_22 + m_32 * q_23)) zero zero (2 * (m_12 * q_13 + m_22 * q_23 + m_32 * q_33)) zero) (mkM zero zero (2 * (m_13 * q_11 + m_23 * q_12 + m_33 * q_13)) zero zero (2 * (m_13 * q_12 + m_23 * q_22 + m_33 * q_23)) zero zero (2 * (m_13 * q_13 + m_23 * q_23 + m_33 * q_33))) (mkM (m_12 * q_11 + m_22 * q_12 + m_32 * q_13) (m_11 * q_11 + m_21 * q_12 + m_31 * q_13) zero (m_12 * q_12 + m_22 * q_22 + m_32 * q_23) (m_11 * q_12 + m_21 * q_22 + m_31 * q_23) zero (m_12 * q_13 + m_22 * q_23 + m_32 * q_33) (m_11 * q_13 + m_21 * q_23 + m_31 * q_33) zero) (mkM (m_13 * q_11 + m_23 * q_12 + m_33 * q_13) zero (m_11 * q_11 + m_21 * q_12 + m_31 * q_13) (m_13 * q_12 + m_23 * q_22 + m_33 * q_23) zero (m_11 * q_12 + m_21 * q_22 + m_31 * q_23) (m_13 * q_13 + m_23 * q_23 + m_33 * q_33) zero (m_11 * q_13 + m_21 * q_23 + m_31 * q_33)) (mkM zero (m_13 * q_11 + m_23 * q_12 + m_33 * q_13) (m_12 * q_11 + m_22 * q_12 + m_32 * q_13) zero (m_13 * q_12 + m_23 * q_22 + m_33 * q_23) (m_12 * q_12 + m_22 * q_22 + m_32 * q_23) zero (m_13 * q_13 + m_23 * q_23 + m_33 * q_33) (m_12 * q_13 + m_22 * q_23 + m_32 * q_33))) in
  hh.

(** matrix_operations.py l.235-249: dder["q"] of calc_mt_q_m. *)
Definition calc_mt_q_m_dder_q (m : M3 R) (q : Q6 R) : Q6 (Q6 R) :=
  let '(mkM m_11 m_12 m_13 m_21 m_22 m_23 m_31 m_32 m_33) := m in
  let oq := 1 in
  let hh := (mkQ (mkQ (m_11 * m_11 * oq) (m_21 * m_21 * oq) (m_31 * m_31 * oq) ((m_11 * m_21 + m_21 * m_11) * oq) ((m_11 * m_31 + m_31 * m_11) * oq) ((m_21 * m_31 + m_31 * m_21) * oq)) (mkQ (m_12 * m_12 * oq) (m_22 * m_22 * oq) (m_32 * m_32 * oq) ((m_12 * m_22 + m_22 * m_12) * oq) ((m_12 * m_32 + m_32 * m_12) * oq) ((m_22 * m_32 + m_32 * m_22) * oq)) (mkQ (m_13 * m_13 * oq) (m_23 * m_23 * oq) (m_33 * m_33 * oq) ((m_13 * m_23 + m_23 * m_13) * oq) ((m_13 * m_33 + m_33 * m_13) * oq) ((m_23 * m_33 + m_33 * m_23) * oq)) (mkQ (m_12 * m_11 * oq) (m_22 * m_21 * oq) (m_32 * m_31 * oq) ((m_12 * m_21 + m_22 * m_11) * oq) ((m_12 * m_31 + m_32 * m_11) * oq) ((m_22 * m_31 + m_32 * m_21) * oq)) (mkQ (m_13 * m_11 * oq) (m_23 * m_21 * oq) (m_33 * m_31 * oq) ((m_13 * m_21 + m_23 * m_11) * oq) ((m_13 * m_31 + m_33 * m_11) * oq) ((m_23 * m_31 + m_33 * m_21) * oq)) (mkQ (m_13 * m_12 * oq) (m_23 * m_22 * oq) (m_33 * m_32 * oq) ((m_13 * m_22 + m_23 * m_12) * oq) ((m_13 * m_32 + m_33 * m_12) * oq) ((m_23 * m_32 + m_33 * m_22) * oq))) in
  hh.

(** matrix_operations.py l.253-283 calc_m1_m2 (value). *)
Definition calc_m1_m2 (m1 m2 : M3 R) : M3 R :=
  let '(mkM m1_11 m1_12 m1_13 m1_21 m1_22 m1_23 m1_31 m1_32 m1_33) := m1 in
  let '(mkM m2_11 m2_12 m2_13 m2_21 m2_22 m2_23 m2_31 m2_32 m2_33) := m2 in
  let o_11 := m1_11 * m2_11 + m1_12 * m2_21 + m1_13 * m2_31 in
  let o_12 := m1_11 * m2_12 + m1_12 * m2_22 + m1_13 * m2_32 in
  let o_13 := m1_11 * m2_13 + m1_12 * m2_23 + m1_13 * m2_33 in
  let o_21 := m1_21 * m2_11 + m1_22 * m2_21 + m1_23 * m2_31 in
  let o_22 := m1_21 * m2_12 + m1_22 * m2_22 + m1_23 * m2_32 in
  let o_23 := m1_21 * m2_13 + m1_22 * m2_23 + m1_23 * m2_33 in
  let o_31 := m1_31 * m2_11 + m1_32 * m2_21 + m1_33 * m2_31 in
  let o_32 := m1_31 * m2_12 + m1_32 * m2_22 + m1_33 * m2_32 in
  let o_33 := m1_31 * m2_13 + m1_32 * m2_23 + m1_33 * m2_33 in
  let o_ij := (mkM o_11 o_12 o_13 o_21 o_22 o_23 o_31 o_32 o_33) in
  o_ij.

(** matrix_operations.py l.285-312 calc_q1_q2_q1 (value). *)
Definition calc_q1_q2_q1 (q1 q2 : Q6 R) : Q6 R :=
  let '(mkQ q1_11 q1_22 q1_33 q1_12 q1_13 q1_23) := q1 in
  let '(mkQ q2_11 q2_22 q2_33 q2_12 q2_13 q2_23) := q2 in
  let o_11 := q1_11 * (q1_11 * q2_11 + q1_12 * q2_12 + q1_13 * q2_13) + q1_12 * (q1_11 * q2_12 + q1_12 * q2_22 + q1_13 * q2_23) + q1_13 * (q1_11 * q2_13 + q1_12 * q2_23 + q1_13 * q2_33) in
  let o_22 := q1_12 * (q1_12 * q2_11 + q1_22 * q2_12 + q1_23 * q2_13) + q1_22 * (q1_12 * q2_12 + q1_22 * q2_22 + q1_23 * q2_23) + q1_23 * (q1_12 * q2_13 + q1_22 * q2_23 + q1_23 * q2_33) in
  let o_33 := q1_13 * (q1_13 * q2_11 + q1_23 * q2_12 + q1_33 * q2_13) + q1_23 * (q1_13 * q2_12 + q1_23 * q2_22 + q1_33 * q2_23) + q1_33 * (q1_13 * q2_13 + q1_23 * q2_23 + q1_33 * q2_33) in
  let o_12 := q1_12 * (q1_11 * q2_11 + q1_12 * q2_12 + q1_13 * q2_13) + q1_22 * (q1_11 * q2_12 + q1_12 * q2_22 + q1_13 * q2_23) + q1_23 * (q1_11 * q2_13 + q1_12 * q2_23 + q1_13 * q2_33) in
  let o_13 := q1_13 * (q1_11 * q2_11 + q1_12 * q2_12 + q1_13 * q2_13) + q1_23 * (q1_11 * q2_12 + q1_12 * q2_22 + q1_13 * q2_23) + q1_33 * (q1_11 * q2_13 + q1_12 * q2_23 + q1_13 * q2_33) in
  let o_23 := q1_13 * (q1_12 * q2_11 + q1_22 * q2_12 + q1_23 * q2_13) + q1_23 * (q1_12 * q2_12 + q1_22 * q2_22 + q1_23 * q2_23) + q1_33 * (q1_12 * q2_13 + q1_22 * q2_23 + q1_23 * q2_33) in
  let o_ij := (mkQ o_11 o_22 o_33 o_12 o_13 o_23) in
  o_ij.

(** matrix_operations.py l.720-727 calc_det_m (value). *)
Definition calc_det_m (m : M3 R) : R :=
  let '(mkM m_11 m_12 m_13 m_21 m_22 m_23 m_31 m_32 m_33) := m in
  let det := m_11 * m_22 * m_33 - m_11 * m_23 * m_32 - m_12 * m_21 * m_33 + m_12 * m_23 * m_31 + m_13 * m_21 * m_32 - m_13 * m_22 * m_31 in
  det.

(** matrix_operations.py l.731-734: the stack [hh] of calc_det_m that is meant to be dder["m"]. *)
Definition calc_det_m_hh (m : M3 R) : M3 R :=
  let '(mkM m_11 m_12 m_13 m_21 m_22 m_23 m_31 m_32 m_33) := m in
  let hh := (mkM (m_22 * m_33 - m_23 * m_32) ((- m_21) * m_33 + m_23 * m_31) (m_21 * m_32 - m_22 * m_31) ((- m_12) * m_33 + m_13 * m_32) (m_11 * m_33 - m_13 * m_31) ((- m_11) * m_32 + m_12 * m_31) (m_12 * m_23 - m_13 * m_22) (m_11 * m_23 + m_13 * m_21) (m_11 * m_22 - m_12 * m_21)) in
  hh.

(** matrix_operations.py l.735: `m.type` does not exist on numpy arrays (the attribute is `dtype`), so
    with flag_m=True the call raises AttributeError before any derivative is returned. *)
Inductive py_result (A : Type) := Ok (a : A) | AttributeError | NameError | KeyError.
Arguments Ok {A}. Arguments AttributeError {A}. Arguments NameError {A}. Arguments KeyError {A}.
Definition calc_det_m_call (m : M3 R) (flag_m : bool) : py_result (R * option (M3 R)) :=
  if flag_m then AttributeError else Ok (calc_det_m m, None).

(** matrix_operations.py l.743-769 calc_inv_m (value).  eps = 1e-12. *)
Definition calc_inv_m (m : M3 R) : M3 R :=
  let eps := 1 / 1000000000000 in
  let det := calc_det_m m in
  let inv_det := if Req_EM_T det 1 then 1 else if Rlt_dec (Rabs det) eps then 0 else 1 / det in
  let '(mkM m_11 m_12 m_13 m_21 m_22 m_23 m_31 m_32 m_33) := m in
  let inv_m_11 := (m_22 * m_33 - m_23 * m_32) * inv_det in
  let inv_m_12 := (- (m_12 * m_33 - m_13 * m_32)) * inv_det in
  let inv_m_13 := (m_12 * m_23 - m_13 * m_22) * inv_det in
  let inv_m_21 := (- (m_21 * m_33 - m_23 * m_31)) * inv_det in
  let inv_m_22 := (m_11 * m_33 - m_13 * m_31) * inv_det in
  let inv_m_23 := (- (m_11 * m_23 - m_13 * m_21)) * inv_det in
  let inv_m_31 := (m_21 * m_32 - m_22 * m_31) * inv_det in
  let inv_m_32 := (- (m_11 * m_32 - m_12 * m_31)) * inv_det in
  let inv_m_33 := (m_11 * m_22 - m_12 * m_21) * inv_det in
  let inv_m_ij := (mkM inv_m_11 inv_m_12 inv_m_13 inv_m_21 inv_m_22 inv_m_23 inv_m_31 inv_m_32 inv_m_33) in
  inv_m_ij.

(** matrix_operations.py l.314-340 calc_m_q_inv_m (value); division by det as in the code. *)
Definition calc_m_q_inv_m (m : M3 R) (q : Q6 R) : M3 R :=
  let det := calc_det_m m in
  let '(mkM m_11 m_12 m_13 m_21 m_22 m_23 m_31 m_32 m_33) := m in
  let '(mkQ q_11 q_22 q_33 q_12 q_13 q_23) := q in
  let o_11 := ((m_21 * m_32 - m_22 * m_31) * (q_13 * m_11 + q_23 * m_12 + q_33 * m_13) - (m_21 * m_33 - m_23 * m_31) * (q_12 * m_11 + q_22 * m_12 + q_23 * m_13) + (m_22 * m_33 - m_23 * m_32) * (q_11 * m_11 + q_12 * m_12 + q_13 * m_13)) / det in
  let o_12 := ((- (m_11 * m_32 - m_12 * m_31)) * (q_13 * m_11 + q_23 * m_12 + q_33 * m_13) + (m_11 * m_33 - m_13 * m_31) * (q_12 * m_11 + q_22 * m_12 + q_23 * m_13) - (m_12 * m_33 - m_13 * m_32) * (q_11 * m_11 + q_12 * m_12 + q_13 * m_13)) / det in
  let o_13 := ((m_11 * m_22 - m_12 * m_21) * (q_13 * m_11 + q_23 * m_12 + q_33 * m_13) - (m_11 * m_23 - m_13 * m_21) * (q_12 * m_11 + q_22 * m_12 + q_23 * m_13) + (m_12 * m_23 - m_13 * m_22) * (q_11 * m_11 + q_12 * m_12 + q_13 * m_13)) / det in
  let o_21 := ((m_21 * m_32 - m_22 * m_31) * (q_13 * m_21 + q_23 * m_22 + q_33 * m_23) - (m_21 * m_33 - m_23 * m_31) * (q_12 * m_21 + q_22 * m_22 + q_23 * m_23) + (m_22 * m_33 - m_23 * m_32) * (q_11 * m_21 + q_12 * m_22 + q_13 * m_23)) / det in
  let o_22 := ((- (m_11 * m_32 - m_12 * m_31)) * (q_13 * m_21 + q_23 * m_22 + q_33 * m_23) + (m_11 * m_33 - m_13 * m_31) * (q_12 * m_21 + q_22 * m_22 + q_23 * m_23) - (m_12 * m_33 - m_13 * m_32) * (q_11 * m_21 + q_12 * m_22 + q_13 * m_23)) / det in
  let o_23 := ((m_11 * m_22 - m_12 * m_21) * (q_13 * m_21 + q_23 * m_22 + q_33 * m_23) - (m_11 * m_23 - m_13 * m_21) * (q_12 * m_21 + q_22 * m_22 + q_23 * m_23) + (m_12 * m_23 - m_13 * m_22) * (q_11 * m_21 + q_12 * m_22 + q_13 * m_23)) / det in
  let o_31 := ((m_21 * m_32 - m_22 * m_31) * (q_13 * m_31 + q_23 * m_32 + q_33 * m_33) - (m_21 * m_33 - m_23 * m_31) * (q_12 * m_31 + q_22 * m_32 + q_23 * m_33) + (m_22 * m_33 - m_23 * m_32) * (q_11 * m_31 + q_12 * m_32 + q_13 * m_33)) / det in
  let o_32 := ((- (m_11 * m_32 - m_12 * m_31)) * (q_13 * m_31 + q_23 * m_32 + q_33 * m_33) + (m_11 * m_33 - m_13 * m_31) * (q_12 * m_31 + q_22 * m_32 + q_23 * m_33) - (m_12 * m_33 - m_13 * m_32) * (q_11 * m_31 + q_12 * m_32 + q_13 * m_33)) / det in
  let o_33 := ((m_11 * m_22 - m_12 * m_21) * (q_13 * m_31 + q_23 * m_32 + q_33 * m_33) - (m_11 * m_23 - m_13 * m_21) * (q_12 * m_31 + q_22 * m_32 + q_23 * m_33) + (m_12 * m_23 - m_13 * m_22) * (q_11 * m_31 + q_12 * m_32 + q_13 * m_33)) / det in
  let o_ij := (mkM o_11 o_12 o_13 o_21 o_22 o_23 o_31 o_32 o_33) in
  o_ij.

(** matrix_operations.py l.344-355: dder["q"] of calc_m_q_inv_m (oq = 1/det; note the terms of the last
    column that are not multiplied by oq). *)
Definition calc_m_q_inv_m_dder_q (m : M3 R) (q : Q6 R) : M3 (Q6 R) :=
  let det := calc_det_m m in
  let '(mkM m_11 m_12 m_13 m_21 m_22 m_23 m_31 m_32 m_33) := m in
  let oq := 1 / det in
  let dder_q := (mkM (mkQ ((m_22 * m_33 - m_23 * m_32) * m_11 * oq) ((- (m_21 * m_33 - m_23 * m_31)) * m_12 * oq) ((m_21 * m_32 - m_22 * m_31) * m_13 * oq) ((- (m_21 * m_33 - m_23 * m_31)) * m_11 * oq + (m_22 * m_33 - m_23 * m_32) * m_12 * oq) ((m_21 * m_32 - m_22 * m_31) * m_11 * oq + (m_22 * m_33 - m_23 * m_32) * m_13 * oq) ((m_21 * m_32 - m_22 * m_31) * m_12 - (m_21 * m_33 - m_23 * m_31) * m_13 * oq)) (mkQ ((- (m_12 * m_33 - m_13 * m_32)) * m_11 * oq) ((m_11 * m_33 - m_13 * m_31) * m_12 * oq) ((- (m_11 * m_32 - m_12 * m_31)) * m_13 * oq) ((m_11 * m_33 - m_13 * m_31) * m_11 * oq - (m_12 * m_33 - m_13 * m_32) * m_12 * oq) ((- (m_11 * m_32 - m_12 * m_31)) * m_11 * oq - (m_12 * m_33 - m_13 * m_32) * m_13 * oq) ((- (m_11 * m_32 - m_12 * m_31)) * m_12 + (m_11 * m_33 - m_13 * m_31) * m_13 * oq)) (mkQ ((m_12 * m_23 - m_13 * m_22) * m_11 * oq) ((- (m_11 * m_23 - m_13 * m_21)) * m_12 * oq) ((m_11 * m_22 - m_12 * m_21) * m_13 * oq) ((- (m_11 * m_23 - m_13 * m_21)) * m_11 * oq + (m_12 * m_23 - m_13 * m_22) * m_12 * oq) ((m_11 * m_22 - m_12 * m_21) * m_11 * oq + (m_12 * m_23 - m_13 * m_22) * m_13 * oq) ((m_11 * m_22 - m_12 * m_21) * m_12 - (m_11 * m_23 - m_13 * m_21) * m_13 * oq)) (mkQ ((m_22 * m_33 - m_23 * m_32) * m_21 * oq) ((- (m_21 * m_33 - m_23 * m_31)) * m_22 * oq) ((m_21 * m_32 - m_22 * m_31) * m_23 * oq) ((- (m_21 * m_33 - m_23 * m_31)) * m_21 * oq + (m_22 * m_33 - m_23 * m_32) * m_22 * oq) ((m_21 * m_32 - m_22 * m_31) * m_21 * oq + (m_22 * m_33 - m_23 * m_32) * m_23 * oq) ((m_21 * m_32 - m_22 * m_31) * m_22 - (m_21 * m_33 - m_23 * m_31) * m_23 * oq)) (mkQ ((- (m_12 * m_33 - m_13 * m_32)) * m_21 * oq) ((m_11 * m_33 - m_13 * m_31) * m_22 * oq) ((- (m_11 * m_32 - m_12 * m_31)) * m_23 * oq) ((m_11 * m_33 - m_13 * m_31) * m_21 * oq - (m_12 * m_33 - m_13 * m_32) * m_22 * oq) ((- (m_11 * m_32 - m_12 * m_31)) * m_21 * oq - (m_12 * m_33 - m_13 * m_32) * m_23 * oq) ((- (m_11 * m_32 - m_12 * m_31)) * m_22 + (m_11 * m_33 - m_13 * m_31) * m_23 * oq)) (mkQ ((m_12 * m_23 - m_13 * m_22) * m_21 * oq) ((- (m_11 * m_23 - m_13 * m_21)) * m_22 * oq) ((m_11 * m_22 - m_12 * m_21) * m_23 * oq) ((- (m_11 * m_23 - m_13 * m_21)) * m_21 * oq + (m_12 * m_23 - m_13 * m_22) * m_22 * oq) ((m_11 * m_22 - m_12 * m_21) * m_21 * oq + (m_12 * m_23 - m_13 * m_22) * m_23 * oq) ((m_11 * m_22 - m_12 * m_21) * m_22 - (m_11 * m_23 - m_13 * m_21) * m_23 * oq)) (mkQ ((m_22 * m_33 - m_23 * m_32) * m_31 * oq) ((- (m_21 * m_33 - m_23 * m_31)) * m_32 * oq) ((m_21 * m_32 - m_22 * m_31) * m_33 * oq) ((- (m_21 * m_33 - m_23 * m_31)) * m_31 * oq + (m_22 * m_33 - m_23 * m_32) * m_32 * oq) ((m_21 * m_32 - m_22 * m_31) * m_31 * oq + (m_22 * m_33 - m_23 * m_32) * m_33 * oq) ((m_21 * m_32 - m_22 * m_31) * m_32 - (m_21 * m_33 - m_23 * m_31) * m_33 * oq)) (mkQ ((- (m_12 * m_33 - m_13 * m_32)) * m_31 * oq) ((m_11 * m_33 - m_13 * m_31) * m_32 * oq) ((- (m_11 * m_32 - m_12 * m_31)) * m_33 * oq) ((m_11 * m_33 - m_13 * m_31) * m_31 * oq - (m_12 * m_33 - m_13 * m_32) * m_32 * oq) ((- (m_11 * m_32 - m_12 * m_31)) * m_31 * oq - (m_12 * m_33 - m_13 * m_32) * m_33 * oq) ((- (m_11 * m_32 - m_12 * m_31)) * m_32 + (m_11 * m_33 - m_13 * m_31) * m_33 * oq)) (mkQ ((m_12 * m_23 - m_13 * m_22) * m_31 * oq) ((- (m_11 * m_23 - m_13 * m_21)) * m_32 * oq) ((m_11 * m_22 - m_12 * m_21) * m_33 * oq) ((- (m_11 * m_23 - m_13 * m_21)) * m_31 * oq + (m_12 * m_23 - m_13 * m_22) * m_32 * oq) ((m_11 * m_22 - m_12 * m_21) * m_31 * oq + (m_12 * m_23 - m_13 * m_22) * m_33 * oq) ((m_11 * m_22 - m_12 * m_21) * m_32 - (m_11 * m_23 - m_13 * m_21) * m_33 * oq))) in
  dder_q.

(** matrix_operations.py l.365-388 calc_mt_m (value). *)
Definition calc_mt_m (m : M3 R) : Q6 R :=
  let '(mkM m_11 m_12 m_13 m_21 m_22 m_23 m_31 m_32 m_33) := m in
  let q_11 := Rsqr m_11 + Rsqr m_21 + Rsqr m_31 in
  let q_22 := Rsqr m_12 + Rsqr m_22 + Rsqr m_32 in
  let q_33 := Rsqr m_13 + Rsqr m_23 + Rsqr m_33 in
  let q_12 := m_11 * m_12 + m_21 * m_22 + m_31 * m_32 in
  let q_13 := m_11 * m_13 + m_21 * m_23 + m_31 * m_33 in
  let q_23 := m_12 * m_13 + m_22 * m_23 + m_32 * m_33 in
  let q_ij := (mkQ q_11 q_22 q_33 q_12 q_13 q_23) in
  q_ij.

(** matrix_operations.py l.390-406 calc_q_sq (value). *)
Definition calc_q_sq (q : Q6 R) : Q6 R :=
  let '(mkQ q_11 q_22 q_33 q_12 q_13 q_23) := q in
  let qo_11 := Rsqr q_11 + Rsqr q_12 + Rsqr q_13 in
  let qo_22 := Rsqr q_12 + Rsqr q_22 + Rsqr q_23 in
  let qo_33 := Rsqr q_13 + Rsqr q_23 + Rsqr q_33 in
  let qo_12 := q_11 * q_12 + q_12 * q_22 + q_13 * q_23 in
  let qo_13 := q_11 * q_13 + q_12 * q_23 + q_13 * q_33 in
  let qo_23 := q_12 * q_13 + q_22 * q_23 + q_23 * q_33 in
  let qo := (mkQ qo_11 qo_22 qo_33 qo_12 qo_13 qo_23) in
  qo.

(** matrix_operations.py l.408-420: dder["q"] of calc_q_sq. *)
Definition calc_q_sq_dder_q (q : Q6 R) : Q6 (Q6 R) :=
  let '(mkQ q_11 q_22 q_33 q_12 q_13 q_23) := q in
  let zero := 0 in
  let dder_11 := (mkQ (2 * q_11) zero zero (2 * q_12) (2 * q_13) zero) in
  let dder_22 := (mkQ zero (2 * q_22) zero (2 * q_12) zero (2 * q_23)) in
  let dder_33 := (mkQ zero zero (2 * q_33) zero (2 * q_13) (2 * q_23)) in
  let dder_12 := (mkQ q_12 q_12 zero (q_11 + q_22) q_23 q_13) in
  let dder_13 := (mkQ q_13 zero q_13 q_23 (q_11 + q_33) q_12) in
  let dder_23 := (mkQ zero q_23 q_23 q_13 q_12 (q_22 + q_33)) in
  mkQ dder_11 dder_22 dder_33 dder_12 dder_13 dder_23.

(** matrix_operations.py l.424-447 calc_m_sq (value). *)
Definition calc_m_sq (m : M3 R) : M3 R :=
  let '(mkM m_11 m_12 m_13 m_21 m_22 m_23 m_31 m_32 m_33) := m in
  let mo_11 := Rsqr m_11 + m_12 * m_21 + m_13 * m_31 in
  let mo_22 := m_12 * m_21 + Rsqr m_22 + m_23 * m_32 in
  let mo_33 := m_13 * m_31 + m_23 * m_32 + Rsqr m_33 in
  let mo_12 := m_11 * m_12 + m_12 * m_22 + m_13 * m_32 in
  let mo_13 := m_11 * m_13 + m_12 * m_23 + m_13 * m_33 in
  let mo_23 := m_13 * m_21 + m_22 * m_23 + m_23 * m_33 in
  let mo_21 := m_11 * m_21 + m_21 * m_22 + m_23 * m_31 in
  let mo_31 := m_11 * m_31 + m_21 * m_32 + m_33 * m_33 in
  let mo_32 := m_12 * m_31 + m_22 * m_32 + m_32 * m_33 in
  let mo := (mkM mo_11 mo_12 mo_13 mo_21 mo_22 mo_23 mo_31 mo_32 mo_33) in
  mo.

(** matrix_operations.py l.449-464: dder["m"] of calc_m_sq. *)
Definition calc_m_sq_dder_m (m : M3 R) : M3 (M3 R) :=
  let '(mkM m_11 m_12 m_13 m_21 m_22 m_23 m_31 m_32 m_33) := m in
  let zero := 0 in
  let dder_11 := (mkM (2 * m_11) m_21 m_31 m_12 zero zero m_13 zero zero) in
  let dder_12 := (mkM m_12 (m_11 + m_22) m_32 zero m_12 zero zero m_13 zero) in
  let dder_13 := (mkM m_13 m_23 (m_11 + m_33) zero zero m_12 zero zero m_13) in
  let dder_21 := (mkM m_21 zero zero (m_11 + m_22) m_21 m_31 m_23 zero zero) in
  let dder_22 := (mkM zero m_21 zero m_12 (2 * m_22) m_32 zero m_23 zero) in
  let dder_23 := (mkM zero zero m_21 m_13 m_23 (m_22 + m_33) zero zero m_23) in
  let dder_31 := (mkM m_31 zero zero m_32 zero zero (m_11 + m_33) m_21 m_31) in
  let dder_32 := (mkM zero m_31 zero zero m_32 zero m_12 (m_22 + m_33) m_32) in
  let dder_33 := (mkM zero zero m_31 zero zero m_32 m_13 m_23 (2 * m_33)) in
  mkM dder_11 dder_12 dder_13 dder_21 dder_22 dder_23 dder_31 dder_32 dder_33.

(** matrix_operations.py l.468-515 calc_m1_m2_inv_m1 (value). *)
Definition calc_m1_m2_inv_m1 (m1 m2 : M3 R) : M3 R :=
  let '(mkM m1_11 m1_12 m1_13 m1_21 m1_22 m1_23 m1_31 m1_32 m1_33) := m1 in
  let '(mkM m2_11 m2_12 m2_13 m2_21 m2_22 m2_23 m2_31 m2_32 m2_33) := m2 in
  let det := m1_11 * m1_22 * m1_33 - m1_11 * m1_23 * m1_32 - m1_12 * m1_21 * m1_33 + m1_12 * m1_23 * m1_31 + m1_13 * m1_21 * m1_32 - m1_13 * m1_22 * m1_31 in
  let m1_m2_inv_m1_11 := ((m1_21 * m1_32 - m1_22 * m1_31) * (m1_11 * m2_13 + m1_12 * m2_23 + m1_13 * m2_33) - (m1_21 * m1_33 - m1_23 * m1_31) * (m1_11 * m2_12 + m1_12 * m2_22 + m1_13 * m2_32) + (m1_22 * m1_33 - m1_23 * m1_32) * (m1_11 * m2_11 + m1_12 * m2_21 + m1_13 * m2_31)) / det in
  let m1_m2_inv_m1_12 := ((- (m1_11 * m1_32 - m1_12 * m1_31)) * (m1_11 * m2_13 + m1_12 * m2_23 + m1_13 * m2_33) + (m1_11 * m1_33 - m1_13 * m1_31) * (m1_11 * m2_12 + m1_12 * m2_22 + m1_13 * m2_32) - (m1_12 * m1_33 - m1_13 * m1_32) * (m1_11 * m2_11 + m1_12 * m2_21 + m1_13 * m2_31)) / det in
  let m1_m2_inv_m1_13 := ((m1_11 * m1_22 - m1_12 * m1_21) * (m1_11 * m2_13 + m1_12 * m2_23 + m1_13 * m2_33) - (m1_11 * m1_23 - m1_13 * m1_21) * (m1_11 * m2_12 + m1_12 * m2_22 + m1_13 * m2_32) + (m1_12 * m1_23 - m1_13 * m1_22) * (m1_11 * m2_11 + m1_12 * m2_21 + m1_13 * m2_31)) / det in
  let m1_m2_inv_m1_21 := ((m1_21 * m1_32 - m1_22 * m1_31) * (m1_21 * m2_13 + m1_22 * m2_23 + m1_23 * m2_33) - (m1_21 * m1_33 - m1_23 * m1_31) * (m1_21 * m2_12 + m1_22 * m2_22 + m1_23 * m2_32) + (m1_22 * m1_33 - m1_23 * m1_32) * (m1_21 * m2_11 + m1_22 * m2_21 + m1_23 * m2_31)) / det in
  let m1_m2_inv_m1_22 := ((- (m1_11 * m1_32 - m1_12 * m1_31)) * (m1_21 * m2_13 + m1_22 * m2_23 + m1_23 * m2_33) + (m1_11 * m1_33 - m1_13 * m1_31) * (m1_21 * m2_12 + m1_22 * m2_22 + m1_23 * m2_32) - (m1_12 * m1_33 - m1_13 * m1_32) * (m1_21 * m2_11 + m1_22 * m2_21 + m1_23 * m2_31)) / det in
  let m1_m2_inv_m1_23 := ((m1_11 * m1_22 - m1_12 * m1_21) * (m1_21 * m2_13 + m1_22 * m2_23 + m1_23 * m2_33) - (m1_11 * m1_23 - m1_13 * m1_21) * (m1_21 * m2_12 + m1_22 * m2_22 + m1_23 * m2_32) + (m1_12 * m1_23 - m1_13 * m1_22) * (m1_21 * m2_11 + m1_22 * m2_21 + m1_23 * m2_31)) / det in
  let m1_m2_inv_m1_31 := ((m1_21 * m1_32 - m1_22 * m1_31) * (m1_31 * m2_13 + m1_32 * m2_23 + m1_33 * m2_33) - (m1_21 * m1_33 - m1_23 * m1_31) * (m1_31 * m2_12 + m1_32 * m2_22 + m1_33 * m2_32) + (m1_22 * m1_33 - m1_23 * m1_32) * (m1_31 * m2_11 + m1_32 * m2_21 + m1_33 * m2_31)) / det in
  let m1_m2_inv_m1_32 := ((- (m1_11 * m1_32 - m1_12 * m1_31)) * (m1_31 * m2_13 + m1_32 * m2_23 + m1_33 * m2_33) + (m1_11 * m1_33 - m1_13 * m1_31) * (m1_31 * m2_12 + m1_32 * m2_22 + m1_33 * m2_32) - (m1_12 * m1_33 - m1_13 * m1_32) * (m1_31 * m2_11 + m1_32 * m2_21 + m1_33 * m2_31)) / det in
  let m1_m2_inv_m1_33 := ((m1_11 * m1_22 - m1_12 * m1_21) * (m1_31 * m2_13 + m1_32 * m2_23 + m1_33 * m2_33) - (m1_11 * m1_23 - m1_13 * m1_21) * (m1_31 * m2_12 + m1_32 * m2_22 + m1_33 * m2_32) + (m1_12 * m1_23 - m1_13 * m1_22) * (m1_31 * m2_11 + m1_32 * m2_21 + m1_33 * m2_31)) / det in
  let m1_m2_inv_m1 := (mkM m1_m2_inv_m1_11 m1_m2_inv_m1_12 m1_m2_inv_m1_13 m1_m2_inv_m1_21 m1_m2_inv_m1_22 m1_m2_inv_m1_23 m1_m2_inv_m1_31 m1_m2_inv_m1_32 m1_m2_inv_m1_33) in
  m1_m2_inv_m1.

(** matrix_operations.py l.517-564 calc_m1_m2_m1t (value). *)
Definition calc_m1_m2_m1t (m1 m2 : M3 R) : M3 R :=
  let '(mkM m1_11 m1_12 m1_13 m1_21 m1_22 m1_23 m1_31 m1_32 m1_33) := m1 in
  let '(mkM m2_11 m2_12 m2_13 m2_21 m2_22 m2_23 m2_31 m2_32 m2_33) := m2 in
  let m1_m2_m1t_11 := m1_11 * (m1_11 * m2_11 + m1_12 * m2_21 + m1_13 * m2_31) + m1_12 * (m1_11 * m2_12 + m1_12 * m2_22 + m1_13 * m2_32) + m1_13 * (m1_11 * m2_13 + m1_12 * m2_23 + m1_13 * m2_33) in
  let m1_m2_m1t_12 := m1_21 * (m1_11 * m2_11 + m1_12 * m2_21 + m1_13 * m2_31) + m1_22 * (m1_11 * m2_12 + m1_12 * m2_22 + m1_13 * m2_32) + m1_23 * (m1_11 * m2_13 + m1_12 * m2_23 + m1_13 * m2_33) in
  let m1_m2_m1t_13 := m1_31 * (m1_11 * m2_11 + m1_12 * m2_21 + m1_13 * m2_31) + m1_32 * (m1_11 * m2_12 + m1_12 * m2_22 + m1_13 * m2_32) + m1_33 * (m1_11 * m2_13 + m1_12 * m2_23 + m1_13 * m2_33) in
  let m1_m2_m1t_21 := m1_11 * (m1_21 * m2_11 + m1_22 * m2_21 + m1_23 * m2_31) + m1_12 * (m1_21 * m2_12 + m1_22 * m2_22 + m1_23 * m2_32) + m1_13 * (m1_21 * m2_13 + m1_22 * m2_23 + m1_23 * m2_33) in
  let m1_m2_m1t_22 := m1_21 * (m1_21 * m2_11 + m1_22 * m2_21 + m1_23 * m2_31) + m1_22 * (m1_21 * m2_12 + m1_22 * m2_22 + m1_23 * m2_32) + m1_23 * (m1_21 * m2_13 + m1_22 * m2_23 + m1_23 * m2_33) in
  let m1_m2_m1t_23 := m1_31 * (m1_21 * m2_11 + m1_22 * m2_21 + m1_23 * m2_31) + m1_32 * (m1_21 * m2_12 + m1_22 * m2_22 + m1_23 * m2_32) + m1_33 * (m1_21 * m2_13 + m1_22 * m2_23 + m1_23 * m2_33) in
  let m1_m2_m1t_31 := m1_11 * (m1_31 * m2_11 + m1_32 * m2_21 + m1_33 * m2_31) + m1_12 * (m1_31 * m2_12 + m1_32 * m2_22 + m1_33 * m2_32) + m1_13 * (m1_31 * m2_13 + m1_32 * m2_23 + m1_33 * m2_33) in
  let m1_m2_m1t_32 := m1_21 * (m1_31 * m2_11 + m1_32 * m2_21 + m1_33 * m2_31) + m1_22 * (m1_31 * m2_12 + m1_32 * m2_22 + m1_33 * m2_32) + m1_23 * (m1_31 * m2_13 + m1_32 * m2_23 + m1_33 * m2_33) in
  let m1_m2_m1t_33 := m1_31 * (m1_31 * m2_11 + m1_32 * m2_21 + m1_33 * m2_31) + m1_32 * (m1_31 * m2_12 + m1_32 * m2_22 + m1_33 * m2_32) + m1_33 * (m1_31 * m2_13 + m1_32 * m2_23 + m1_33 * m2_33) in
  let m1_m2_m1t := (mkM m1_m2_m1t_11 m1_m2_m1t_12 m1_m2_m1t_13 m1_m2_m1t_21 m1_m2_m1t_22 m1_m2_m1t_23 m1_m2_m1t_31 m1_m2_m1t_32 m1_m2_m1t_33) in
  m1_m2_m1t.

(** matrix_operations.py l.566-574 calc_vt_m_v (value). *)
Definition calc_vt_m_v (m : M3 R) (v : V3 R) : R :=
  let '(mkM m_11 m_12 m_13 m_21 m_22 m_23 m_31 m_32 m_33) := m in
  let '(mkV v_1 v_2 v_3) := v in
  let res := m_11 * v_1 * v_1 + m_22 * v_2 * v_2 + m_33 * v_3 * v_3 + (m_12 + m_21) * v_1 * v_2 + (m_13 + m_31) * v_1 * v_3 + (m_23 + m_32) * v_2 * v_3 in
  res.

(** matrix_operations.py l.576-589: dder["m"], dder["v"] of calc_vt_m_v. *)
Definition calc_vt_m_v_dder_m (m : M3 R) (v : V3 R) : M3 R :=
  let '(mkV v_1 v_2 v_3) := v in
  mkM (v_1*v_1) (v_1*v_2) (v_1*v_3) (v_2*v_1) (v_2*v_2) (v_2*v_3) (v_3*v_1) (v_3*v_2) (v_3*v_3).
Definition calc_vt_m_v_dder_v (m : M3 R) (v : V3 R) : V3 R :=
  let '(mkM m_11 m_12 m_13 m_21 m_22 m_23 m_31 m_32 m_33) := m in
  let '(mkV v_1 v_2 v_3) := v in
  mkV (2*m_11*v_1+(m_12+m_21)*v_2+(m_13+m_31)*v_3)
      (2*m_22*v_2+(m_12+m_21)*v_1+(m_23+m_32)*v_3)
      (2*m_33*v_3+(m_13+m_31)*v_1+(m_23+m_32)*v_2).

(** matrix_operations.py l.592-600 calc_vt_q_v (value). *)
Definition calc_vt_q_v (q : Q6 R) (v : V3 R) : R :=
  let '(mkQ q_11 q_22 q_33 q_12 q_13 q_23) := q in
  let '(mkV v_1 v_2 v_3) := v in
  let res := q_11 * v_1 * v_1 + q_22 * v_2 * v_2 + q_33 * v_3 * v_3 + 2 * q_12 * v_1 * v_2 + 2 * q_13 * v_1 * v_3 + 2 * q_23 * v_2 * v_3 in
  res.
(** matrix_operations.py l.601-608: with flag_q=True the undefined name m_12 raises NameError. *)
Definition calc_vt_q_v_call (q : Q6 R) (v : V3 R) (flag_q : bool) : py_result R :=
  if flag_q then NameError else Ok (calc_vt_q_v q v).
(** matrix_operations.py l.609-614: dder["v"] of calc_vt_q_v. *)
Definition calc_vt_q_v_dder_v (q : Q6 R) (v : V3 R) : V3 R :=
  let '(mkQ q_11 q_22 q_33 q_12 q_13 q_23) := q in
  let '(mkV v_1 v_2 v_3) := v in
  mkV (2*q_11*v_1+(q_12+q_12)*v_2+(q_13+q_13)*v_3)
      (2*q_22*v_2+(q_12+q_12)*v_1+(q_23+q_23)*v_3)
      (2*q_33*v_3+(q_13+q_13)*v_1+(q_23+q_23)*v_2).

(** matrix_operations.py l.617-626 calc_q_v (value). *)
Definition calc_q_v (q : Q6 R) (v : V3 R) : V3 R :=
  let '(mkQ q_11 q_22 q_33 q_12 q_13 q_23) := q in
  let '(mkV v_1 v_2 v_3) := v in
  let o_1 := q_11 * v_1 + q_12 * v_2 + q_13 * v_3 in
  let o_2 := q_12 * v_1 + q_22 * v_2 + q_23 * v_3 in
  let o_3 := q_13 * v_1 + q_23 * v_2 + q_33 * v_3 in
  let res := (mkV o_1 o_2 o_3) in
  res.
(** matrix_operations.py l.641-646: dder["q"] of calc_q_v, real dtype (np_ol = ones, np_zl = zeros). *)
Definition calc_q_v_dder_q (q : Q6 R) (v : V3 R) : V3 (Q6 R) :=
  let '(mkV v_1 v_2 v_3) := v in
  mkV (mkQ (v_1*1) 0 0 (v_2*1) (v_3*1) 0)
      (mkQ 0 (v_2*1) 0 (v_1*0) 0 (v_3*0))
      (mkQ 0 0 (v_3*1) 0 (v_1*0) (v_2*0)).
(** matrix_operations.py l.659-664: dder["v"] of calc_q_v, real dtype. *)
Definition calc_q_v_dder_v (q : Q6 R) (v : V3 R) : V3 (V3 R) :=
  let '(mkQ q_11 q_22 q_33 q_12 q_13 q_23) := q in
  mkV (mkV q_11 q_12 q_13) (mkV q_12 q_22 q_23) (mkV q_13 q_23 q_33).

(** matrix_operations.py l.668-678 calc_m_v (value). *)
Definition calc_m_v (m : M3 R) (v : V3 R) : V3 R :=
  let '(mkM m_11 m_12 m_13 m_21 m_22 m_23 m_31 m_32 m_33) := m in
  let '(mkV v_1 v_2 v_3) := v in
  let o_1 := m_11 * v_1 + m_12 * v_2 + m_13 * v_3 in
  let o_2 := m_21 * v_1 + m_22 * v_2 + m_23 * v_3 in
  let o_3 := m_31 * v_1 + m_32 * v_2 + m_33 * v_3 in
  let res := (mkV o_1 o_2 o_3) in
  res.
(** matrix_operations.py l.693-698 (dder["m"], real dtype) and l.711-716 (dder["v"], real dtype). *)
Definition calc_m_v_dder_m (m : M3 R) (v : V3 R) : V3 (M3 R) :=
  let '(mkV v_1 v_2 v_3) := v in
  mkV (mkM (v_1*1) (v_2*1) (v_3*1) (1*0) (1*0) (1*0) (1*0) (1*0) (1*0))
      (mkM (1*0) (1*0) (1*0) (v_1*1) (v_2*1) (v_3*1) (1*0) (1*0) (1*0))
      (mkM (1*0) (1*0) (1*0) (1*0) (1*0) (1*0) (v_1*1) (v_2*1) (v_3*1)).
Definition calc_m_v_dder_v (m : M3 R) (v : V3 R) : V3 (V3 R) :=
  let '(mkM m_11 m_12 m_13 m_21 m_22 m_23 m_31 m_32 m_33) := m in
  mkV (mkV m_11 m_12 m_13) (mkV m_21 m_22 m_23) (mkV m_31 m_32 m_33).

(** matrix_operations.py l.39-46: dder["v"] of calc_norm_v, real dtype. *)
Definition calc_norm_v_dder_v (v : V3 R) : V3 R :=
  let norm := calc_norm_v v in
  let flag_0 := isclose0 norm in
  let norm_inv := 1 / (if flag_0 then 1 else norm) in
  if flag_0 then mkV 1 1 1 else mkV (v_1 v * norm_inv) (v_2 v * norm_inv) (v_3 v * norm_inv).

(** matrix_operations.py l.55-65: dder["v"] of calc_unity_v, real dtype, one column:
    delta_ij/norm - expand_dims(dder_norm["v"], axis=0)/square(norm), rows = output index. *)
Definition calc_unity_v_dder_v (v : V3 R) : V3 (V3 R) :=
  let norm := calc_norm_v v in
  let d := calc_norm_v_dder_v v in
  let row i := mkV (delta i X1 / norm - v_1 d / Rsqr norm)
                   (delta i X2 / norm - v_2 d / Rsqr norm)
                   (delta i X3 / norm - v_3 d / Rsqr norm) in
  mkV (row X1) (row X2) (row X3).

(** matrix_operations.py l.868-891 calc_mm_as_m_q_inv_m: 9x6 operator (rows: output element). *)
Definition calc_mm_as_m_q_inv_m (m : M3 R) : M3 (Q6 R) :=
  let '(mkM r_11 r_12 r_13 r_21 r_22 r_23 r_31 r_32 r_33) := m in
  let det_r :=
    r_11*r_22*r_33 - r_11*r_23*r_32  - r_12*r_21*r_33 + r_12*r_23*r_31  + r_13*r_21*r_32 - r_13*r_22*r_31 in
  let mm := (mkM (mkQ (r_11 * (r_22 * r_33 - r_23 * r_32)) (r_12 * ((- r_21) * r_33 + r_23 * r_31)) (r_13 * (r_21 * r_32 - r_22 * r_31)) (r_11 * ((- r_21) * r_33 + r_23 * r_31) + r_12 * (r_22 * r_33 - r_23 * r_32)) (r_11 * (r_21 * r_32 - r_22 * r_31) + r_13 * (r_22 * r_33 - r_23 * r_32)) (r_12 * (r_21 * r_32 - r_22 * r_31) + r_13 * ((- r_21) * r_33 + r_23 * r_31))) (mkQ (r_11 * ((- r_12) * r_33 + r_13 * r_32)) (r_12 * (r_11 * r_33 - r_13 * r_31)) (r_13 * ((- r_11) * r_32 + r_12 * r_31)) (r_11 * (r_11 * r_33 - r_13 * r_31) + r_12 * ((- r_12) * r_33 + r_13 * r_32)) (r_11 * ((- r_11) * r_32 + r_12 * r_31) + r_13 * ((- r_12) * r_33 + r_13 * r_32)) (r_12 * ((- r_11) * r_32 + r_12 * r_31) + r_13 * (r_11 * r_33 - r_13 * r_31))) (mkQ (r_11 * (r_12 * r_23 - r_13 * r_22)) (r_12 * ((- r_11) * r_23 + r_13 * r_21)) (r_13 * (r_11 * r_22 - r_12 * r_21)) (r_11 * ((- r_11) * r_23 + r_13 * r_21) + r_12 * (r_12 * r_23 - r_13 * r_22)) (r_11 * (r_11 * r_22 - r_12 * r_21) + r_13 * (r_12 * r_23 - r_13 * r_22)) (r_12 * (r_11 * r_22 - r_12 * r_21) + r_13 * ((- r_11) * r_23 + r_13 * r_21))) (mkQ (r_21 * (r_22 * r_33 - r_23 * r_32)) (r_22 * ((- r_21) * r_33 + r_23 * r_31)) (r_23 * (r_21 * r_32 - r_22 * r_31)) (r_21 * ((- r_21) * r_33 + r_23 * r_31) + r_22 * (r_22 * r_33 - r_23 * r_32)) (r_21 * (r_21 * r_32 - r_22 * r_31) + r_23 * (r_22 * r_33 - r_23 * r_32)) (r_22 * (r_21 * r_32 - r_22 * r_31) + r_23 * ((- r_21) * r_33 + r_23 * r_31))) (mkQ (r_21 * ((- r_12) * r_33 + r_13 * r_32)) (r_22 * (r_11 * r_33 - r_13 * r_31)) (r_23 * ((- r_11) * r_32 + r_12 * r_31)) (r_21 * (r_11 * r_33 - r_13 * r_31) + r_22 * ((- r_12) * r_33 + r_13 * r_32)) (r_21 * ((- r_11) * r_32 + r_12 * r_31) + r_23 * ((- r_12) * r_33 + r_13 * r_32)) (r_22 * ((- r_11) * r_32 + r_12 * r_31) + r_23 * (r_11 * r_33 - r_13 * r_31))) (mkQ (r_21 * (r_12 * r_23 - r_13 * r_22)) (r_22 * ((- r_11) * r_23 + r_13 * r_21)) (r_23 * (r_11 * r_22 - r_12 * r_21)) (r_21 * ((- r_11) * r_23 + r_13 * r_21) + r_22 * (r_12 * r_23 - r_13 * r_22)) (r_21 * (r_11 * r_22 - r_12 * r_21) + r_23 * (r_12 * r_23 - r_13 * r_22)) (r_22 * (r_11 * r_22 - r_12 * r_21) + r_23 * ((- r_11) * r_23 + r_13 * r_21))) (mkQ (r_31 * (r_22 * r_33 - r_23 * r_32)) (r_32 * ((- r_21) * r_33 + r_23 * r_31)) (r_33 * (r_21 * r_32 - r_22 * r_31)) (r_31 * ((- r_21) * r_33 + r_23 * r_31) + r_32 * (r_22 * r_33 - r_23 * r_32)) (r_31 * (r_21 * r_32 - r_22 * r_31) + r_33 * (r_22 * r_33 - r_23 * r_32)) (r_32 * (r_21 * r_32 - r_22 * r_31) + r_33 * ((- r_21) * r_33 + r_23 * r_31))) (mkQ (r_31 * ((- r_12) * r_33 + r_13 * r_32)) (r_32 * (r_11 * r_33 - r_13 * r_31)) (r_33 * ((- r_11) * r_32 + r_12 * r_31)) (r_31 * (r_11 * r_33 - r_13 * r_31) + r_32 * ((- r_12) * r_33 + r_13 * r_32)) (r_31 * ((- r_11) * r_32 + r_12 * r_31) + r_33 * ((- r_12) * r_33 + r_13 * r_32)) (r_32 * ((- r_11) * r_32 + r_12 * r_31) + r_33 * (r_11 * r_33 - r_13 * r_31))) (mkQ (r_31 * (r_12 * r_23 - r_13 * r_22)) (r_32 * ((- r_11) * r_23 + r_13 * r_21)) (r_33 * (r_11 * r_22 - r_12 * r_21)) (r_31 * ((- r_11) * r_23 + r_13 * r_21) + r_32 * (r_12 * r_23 - r_13 * r_22)) (r_31 * (r_11 * r_22 - r_12 * r_21) + r_33 * (r_12 * r_23 - r_13 * r_22)) (r_32 * (r_11 * r_22 - r_12 * r_21) + r_33 * ((- r_11) * r_23 + r_13 * r_21)))) in
  let dv r := let '(mkQ a b c d e f) := r in mkQ (a/det_r) (b/det_r) (c/det_r) (d/det_r) (e/det_r) (f/det_r) in
  let '(mkM a b c d e f g h i) := mm in
  mkM (dv a) (dv b) (dv c) (dv d) (dv e) (dv f) (dv g) (dv h) (dv i).

(** matrix_operations.py l.893-916 calc_mm_as_m1_m2_inv_m1: 9x9 operator (rows: output element). *)
Definition calc_mm_as_m1_m2_inv_m1 (m1 : M3 R) : M3 (M3 R) :=
  let '(mkM r_11 r_12 r_13 r_21 r_22 r_23 r_31 r_32 r_33) := m1 in
  let det_r :=
    r_11*r_22*r_33 - r_11*r_23*r_32  - r_12*r_21*r_33 + r_12*r_23*r_31  + r_13*r_21*r_32 - r_13*r_22*r_31 in
  let mm := (mkM (mkM (r_11 * (r_22 * r_33 - r_23 * r_32)) (r_11 * ((- r_21) * r_33 + r_23 * r_31)) (r_11 * (r_21 * r_32 - r_22 * r_31)) (r_12 * (r_22 * r_33 - r_23 * r_32)) (r_12 * ((- r_21) * r_33 + r_23 * r_31)) (r_12 * (r_21 * r_32 - r_22 * r_31)) (r_13 * (r_22 * r_33 - r_23 * r_32)) (r_13 * ((- r_21) * r_33 + r_23 * r_31)) (r_13 * (r_21 * r_32 - r_22 * r_31))) (mkM (r_11 * ((- r_12) * r_33 + r_13 * r_32)) (r_11 * (r_11 * r_33 - r_13 * r_31)) (r_11 * ((- r_11) * r_32 + r_12 * r_31)) (r_12 * ((- r_12) * r_33 + r_13 * r_32)) (r_12 * (r_11 * r_33 - r_13 * r_31)) (r_12 * ((- r_11) * r_32 + r_12 * r_31)) (r_13 * ((- r_12) * r_33 + r_13 * r_32)) (r_13 * (r_11 * r_33 - r_13 * r_31)) (r_13 * ((- r_11) * r_32 + r_12 * r_31))) (mkM (r_11 * (r_12 * r_23 - r_13 * r_22)) (r_11 * ((- r_11) * r_23 + r_13 * r_21)) (r_11 * (r_11 * r_22 - r_12 * r_21)) (r_12 * (r_12 * r_23 - r_13 * r_22)) (r_12 * ((- r_11) * r_23 + r_13 * r_21)) (r_12 * (r_11 * r_22 - r_12 * r_21)) (r_13 * (r_12 * r_23 - r_13 * r_22)) (r_13 * ((- r_11) * r_23 + r_13 * r_21)) (r_13 * (r_11 * r_22 - r_12 * r_21))) (mkM (r_21 * (r_22 * r_33 - r_23 * r_32)) (r_21 * ((- r_21) * r_33 + r_23 * r_31)) (r_21 * (r_21 * r_32 - r_22 * r_31)) (r_22 * (r_22 * r_33 - r_23 * r_32)) (r_22 * ((- r_21) * r_33 + r_23 * r_31)) (r_22 * (r_21 * r_32 - r_22 * r_31)) (r_23 * (r_22 * r_33 - r_23 * r_32)) (r_23 * ((- r_21) * r_33 + r_23 * r_31)) (r_23 * (r_21 * r_32 - r_22 * r_31))) (mkM (r_21 * ((- r_12) * r_33 + r_13 * r_32)) (r_21 * (r_11 * r_33 - r_13 * r_31)) (r_21 * ((- r_11) * r_32 + r_12 * r_31)) (r_22 * ((- r_12) * r_33 + r_13 * r_32)) (r_22 * (r_11 * r_33 - r_13 * r_31)) (r_22 * ((- r_11) * r_32 + r_12 * r_31)) (r_23 * ((- r_12) * r_33 + r_13 * r_32)) (r_23 * (r_11 * r_33 - r_13 * r_31)) (r_23 * ((- r_11) * r_32 + r_12 * r_31))) (mkM (r_21 * (r_12 * r_23 - r_13 * r_22)) (r_21 * ((- r_11) * r_23 + r_13 * r_21)) (r_21 * (r_11 * r_22 - r_12 * r_21)) (r_22 * (r_12 * r_23 - r_13 * r_22)) (r_22 * ((- r_11) * r_23 + r_13 * r_21)) (r_22 * (r_11 * r_22 - r_12 * r_21)) (r_23 * (r_12 * r_23 - r_13 * r_22)) (r_23 * ((- r_11) * r_23 + r_13 * r_21)) (r_23 * (r_11 * r_22 - r_12 * r_21))) (mkM (r_31 * (r_22 * r_33 - r_23 * r_32)) (r_31 * ((- r_21) * r_33 + r_23 * r_31)) (r_31 * (r_21 * r_32 - r_22 * r_31)) (r_32 * (r_22 * r_33 - r_23 * r_32)) (r_32 * ((- r_21) * r_33 + r_23 * r_31)) (r_32 * (r_21 * r_32 - r_22 * r_31)) (r_33 * (r_22 * r_33 - r_23 * r_32)) (r_33 * ((- r_21) * r_33 + r_23 * r_31)) (r_33 * (r_21 * r_32 - r_22 * r_31))) (mkM (r_31 * ((- r_12) * r_33 + r_13 * r_32)) (r_31 * (r_11 * r_33 - r_13 * r_31)) (r_31 * ((- r_11) * r_32 + r_12 * r_31)) (r_32 * ((- r_12) * r_33 + r_13 * r_32)) (r_32 * (r_11 * r_33 - r_13 * r_31)) (r_32 * ((- r_11) * r_32 + r_12 * r_31)) (r_33 * ((- r_12) * r_33 + r_13 * r_32)) (r_33 * (r_11 * r_33 - r_13 * r_31)) (r_33 * ((- r_11) * r_32 + r_12 * r_31))) (mkM (r_31 * (r_12 * r_23 - r_13 * r_22)) (r_31 * ((- r_11) * r_23 + r_13 * r_21)) (r_31 * (r_11 * r_22 - r_12 * r_21)) (r_32 * (r_12 * r_23 - r_13 * r_22)) (r_32 * ((- r_11) * r_23 + r_13 * r_21)) (r_32 * (r_11 * r_22 - r_12 * r_21)) (r_33 * (r_12 * r_23 - r_13 * r_22)) (r_33 * ((- r_11) * r_23 + r_13 * r_21)) (r_33 * (r_11 * r_22 - r_12 * r_21)))) in
  let dv r := let '(mkM a b c d e f g h i) := r in
     mkM (a/det_r) (b/det_r) (c/det_r) (d/det_r) (e/det_r) (f/det_r) (g/det_r) (h/det_r) (i/det_r) in
  let '(mkM a b c d e f g h i) := mm in
  mkM (dv a) (dv b) (dv c) (dv d) (dv e) (dv f) (dv g) (dv h) (dv i).
