(** Independent specification vocabulary: 3-vectors, 3x3 matrices and symmetric tensors seen through
    indices.  Nothing here comes from the code, except the order in which elements are stored
    (9 elements row-major; 6 elements 11,22,33,12,13,23), which is the convention stated in
    cryspy/A_functions_base/matrix_operations.py l.5-6. *)
From Coq Require Import Reals List.
Import ListNotations.
Open Scope R_scope.

Record V3 (A : Type) := mkV { v_1 : A; v_2 : A; v_3 : A }.
Record M3 (A : Type) := mkM
  { m_11 : A; m_12 : A; m_13 : A; m_21 : A; m_22 : A; m_23 : A; m_31 : A; m_32 : A; m_33 : A }.
Record Q6 (A : Type) := mkQ { q_11 : A; q_22 : A; q_33 : A; q_12 : A; q_13 : A; q_23 : A }.
Arguments mkV {A}. Arguments mkM {A}. Arguments mkQ {A}.
Arguments v_1 {A}. Arguments v_2 {A}. Arguments v_3 {A}.
Arguments m_11 {A}. Arguments m_12 {A}. Arguments m_13 {A}.
Arguments m_21 {A}. Arguments m_22 {A}. Arguments m_23 {A}.
Arguments m_31 {A}. Arguments m_32 {A}. Arguments m_33 {A}.
Arguments q_11 {A}. Arguments q_22 {A}. Arguments q_33 {A}.
Arguments q_12 {A}. Arguments q_13 {A}. Arguments q_23 {A}.

(** Index 1, 2 or 3. *)
Inductive ix := X1 | X2 | X3.

Definition vget {A} (v : V3 A) (i : ix) : A :=
  match i with X1 => v_1 v | X2 => v_2 v | X3 => v_3 v end.
Definition mget {A} (m : M3 A) (i j : ix) : A :=
  match i, j with
  | X1, X1 => m_11 m | X1, X2 => m_12 m | X1, X3 => m_13 m
  | X2, X1 => m_21 m | X2, X2 => m_22 m | X2, X3 => m_23 m
  | X3, X1 => m_31 m | X3, X2 => m_32 m | X3, X3 => m_33 m
  end.
(** Element (i,j) of the symmetric matrix stored with 6 numbers. *)
Definition qget {A} (q : Q6 A) (i j : ix) : A :=
  match i, j with
  | X1, X1 => q_11 q | X2, X2 => q_22 q | X3, X3 => q_33 q
  | X1, X2 => q_12 q | X2, X1 => q_12 q
  | X1, X3 => q_13 q | X3, X1 => q_13 q
  | X2, X3 => q_23 q | X3, X2 => q_23 q
  end.

Definition sum3 (f : ix -> R) : R := f X1 + f X2 + f X3.
Definition delta (i j : ix) : R :=
  match i, j with X1, X1 => 1 | X2, X2 => 1 | X3, X3 => 1 | _, _ => 0 end.

(** Replacing one element (used to speak about partial derivatives). *)
Definition vset {A} (v : V3 A) (i : ix) (x : A) : V3 A :=
  match i with
  | X1 => mkV x (v_2 v) (v_3 v) | X2 => mkV (v_1 v) x (v_3 v) | X3 => mkV (v_1 v) (v_2 v) x
  end.
Definition mset {A} (m : M3 A) (i j : ix) (x : A) : M3 A :=
  let '(mkM a11 a12 a13 a21 a22 a23 a31 a32 a33) := m in
  match i, j with
  | X1, X1 => mkM x a12 a13 a21 a22 a23 a31 a32 a33
  | X1, X2 => mkM a11 x a13 a21 a22 a23 a31 a32 a33
  | X1, X3 => mkM a11 a12 x a21 a22 a23 a31 a32 a33
  | X2, X1 => mkM a11 a12 a13 x a22 a23 a31 a32 a33
  | X2, X2 => mkM a11 a12 a13 a21 x a23 a31 a32 a33
  | X2, X3 => mkM a11 a12 a13 a21 a22 x a31 a32 a33
  | X3, X1 => mkM a11 a12 a13 a21 a22 a23 x a32 a33
  | X3, X2 => mkM a11 a12 a13 a21 a22 a23 a31 x a33
  | X3, X3 => mkM a11 a12 a13 a21 a22 a23 a31 a32 x
  end.
(** Setting the stored element of a quadratic form that represents (i,j) and (j,i). *)
Definition qset {A} (q : Q6 A) (i j : ix) (x : A) : Q6 A :=
  let '(mkQ a11 a22 a33 a12 a13 a23) := q in
  match i, j with
  | X1, X1 => mkQ x a22 a33 a12 a13 a23
  | X2, X2 => mkQ a11 x a33 a12 a13 a23
  | X3, X3 => mkQ a11 a22 x a12 a13 a23
  | X1, X2 => mkQ a11 a22 a33 x a13 a23 | X2, X1 => mkQ a11 a22 a33 x a13 a23
  | X1, X3 => mkQ a11 a22 a33 a12 x a23 | X3, X1 => mkQ a11 a22 a33 a12 x a23
  | X2, X3 => mkQ a11 a22 a33 a12 a13 x | X3, X2 => mkQ a11 a22 a33 a12 a13 x
  end.

(** Index-level meaning of the usual operations: [is_mul A B C] says C = A B, etc. *)
Definition is_mul (a b c : ix -> ix -> R) : Prop :=
  forall i j, c i j = sum3 (fun k => a i k * b k j).
Definition is_inverse (a b : ix -> ix -> R) : Prop :=
  (forall i j, sum3 (fun k => a i k * b k j) = delta i j) /\
  (forall i j, sum3 (fun k => b i k * a k j) = delta i j).
Definition dot (a b : ix -> R) : R := sum3 (fun i => a i * b i).
Definition det3 (a : ix -> ix -> R) : R :=
  a X1 X1 * (a X2 X2 * a X3 X3 - a X2 X3 * a X3 X2)
  - a X1 X2 * (a X2 X1 * a X3 X3 - a X2 X3 * a X3 X1)
  + a X1 X3 * (a X2 X1 * a X3 X2 - a X2 X2 * a X3 X1).
Definition tr3 (a : ix -> ix -> R) : R := sum3 (fun i => a i i).
Definition identity_mat : ix -> ix -> R := delta.

(** Applying a linear operator row to a tensor stored with 6 or 9 numbers (numpy: row . column). *)
Definition q_row_dot (r q : Q6 R) : R :=
  q_11 r * q_11 q + q_22 r * q_22 q + q_33 r * q_33 q + q_12 r * q_12 q + q_13 r * q_13 q + q_23 r * q_23 q.
Definition m_row_dot (r m : M3 R) : R :=
  sum3 (fun i => sum3 (fun j => mget r i j * mget m i j)).
