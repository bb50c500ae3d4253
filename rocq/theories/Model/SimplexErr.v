(** Model of /repo/cryspy/A_functions_base/function_1_error_simplex.py l.11-99 error_estimation_simplex and of its use in
    /repo/cryspy/procedure_mempy/mempy_by_dictionary.py l.591-605.
    Floating point numbers are real numbers; arrays are index functions, [n] = k - 1 is the number of parameters.  [vertex_chi_sq_h] is not
    used by the code.  The result of numpy.linalg.inv is an argument (LAPACK is not modelled; its contract is Spec.LinN.is_inverse). *)
From Coq Require Import Reals List Arith.
From Verif Require Import Spec.LinN.
Import ListNotations.
Open Scope R_scope.

Section Simplex.
Variable n : nat.
Variable vertex_vector_h : nat -> vec.
Variable func : vec -> R.
(** l.31, l.34-37 *)
Definition max_radius : vec := fun j => fold_left (fun m i => Rmax m (Rabs (vertex_vector_h i j - vertex_vector_h 0%nat j))) (seq 1 n) 0.
(** l.32-33, l.39-42 *)
Definition vertex_vector (i : nat) : vec := fun j =>
  vertex_vector_h 0%nat j + (if (match i with O => false | S i => Nat.eqb i j end) then max_radius j else 0).
(** l.44-49: at the vertices given, not at those just made *)
Definition vertex_chi_sq (i : nat) : R := func (vertex_vector_h i).
Definition chi_sq_0 : R := vertex_chi_sq 0.
(** l.58-65 *)
Definition m_chi_sq_0i (i : nat) : R := func (fun j => 5 / 10 * (vertex_vector_h 0%nat j + vertex_vector (S i) j)).
Definition m_q : mat := fun i j => vertex_vector (S i) j - vertex_vector_h 0%nat j.
(** l.69-74 *)
Definition v_a : vec := fun i => 4 * m_chi_sq_0i i - vertex_chi_sq (S i) - 3 * chi_sq_0.
(** l.76-86: j > i is computed, the other triangle copied *)
Definition b_off (i j : nat) : R := 2 * (func (fun l => 5 / 10 * (vertex_vector (S i) l + vertex_vector (S j) l)) + chi_sq_0 - m_chi_sq_0i i - m_chi_sq_0i j).
Definition m_b : mat := fun i j =>
  if Nat.eqb i j then 2 * (vertex_chi_sq (S i) + chi_sq_0 - 2 * m_chi_sq_0i i) else if Nat.ltb i j then b_off i j else b_off j i.
(** l.88-93, l.99; [m_ib]: numpy.linalg.inv(m_b) *)
Definition error_estimation_simplex (m_ib : mat) : mat * vec :=
  let m_qib := mulmm n m_q m_ib in
  let v_qiba := mulmv n m_qib v_a in
  let m_qibqt := mulmm n m_qib (transpose m_q) in
  (fun i j => 2 * chi_sq_0 * m_qibqt i j, fun i => Rabs (v_qiba i)).
(** mempy_by_dictionary.py l.593-604: the uncertainty reported for a parameter, for [number] reflections *)
Definition simplex_sigma (m_ib : mat) (number : R) (i : nat) : R :=
  let '(m_error, dist_hh) := error_estimation_simplex m_ib in Rmax (sqrt (Rabs (m_error i i) * 1 / number)) (dist_hh i).
End Simplex.
