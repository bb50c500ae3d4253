(** C106: uncertainties estimated from the last simplex of a minimisation. *)
From Coq Require Import Reals List Arith.
From Verif Require Import Spec.LinN Spec.SimplexSpec Model.SimplexErr Proofs.SimplexErrP.
Open Scope R_scope.

(** For a quadratic function of any number of parameters, c + g.d + d h d with d the distance from the first vertex, the elements outside
    the diagonal of the matrix inverted are right for every simplex. *)
Theorem C106_off_diagonal : forall n vs c g h func i j, quadratic n (vs 0%nat) c g h func -> (forall k l, h k l = h l k) -> (i < n)%nat -> (j < n)%nat -> i <> j ->
  m_b n vs func i j = h i j * max_radius n vs i * max_radius n vs j.
Proof. exact off_diagonal. Qed.
Print Assumptions C106_off_diagonal.
(** When the other vertices lie above the first one on the axes: the error matrix is 2 c times the inverse of h, and the distance to the
    minimum reported is twice the distance to the minimum. *)
Theorem C106_error_matrix_partial : forall n vs c g h hi func r m_ib, quadratic n (vs 0%nat) c g h func -> (forall k l, h k l = h l k) -> on_axes n vs r -> is_inverse n h hi ->
  is_inverse n (m_b n vs func) m_ib -> forall i, (i < n)%nat ->
  (forall j, (j < n)%nat -> fst (error_estimation_simplex n vs func m_ib) i j = 2 * c * hi i j) /\
  snd (error_estimation_simplex n vs func m_ib) i = Rabs (mulmv n hi g i) /\
  forall x, (forall j, (j < n)%nat -> 2 * mulmv n h (fun k => x k - vs 0%nat k) j + g j = 0) -> snd (error_estimation_simplex n vs func m_ib) i = 2 * Rabs (x i - vs 0%nat i).
Proof. exact axes_result. Qed.
Print Assumptions C106_error_matrix_partial.
(** The uncertainty reported when the first vertex is the minimum. *)
Theorem C106_sigma_partial : forall n vs c g h hi func r m_ib number i, quadratic n (vs 0%nat) c g h func -> (forall k l, h k l = h l k) -> on_axes n vs r -> is_inverse n h hi ->
  is_inverse n (m_b n vs func) m_ib -> (i < n)%nat -> (forall j, (j < n)%nat -> g j = 0) -> 0 <= c -> 0 <= hi i i -> 0 < number ->
  simplex_sigma n vs func m_ib number i = sqrt (2 * c * hi i i / number).
Proof. exact axes_sigma. Qed.
Print Assumptions C106_sigma_partial.
Example C106_met : exists n vs c g h hi func r m_ib, n = 2%nat /\ quadratic n (vs 0%nat) c g h func /\ (forall k l, h k l = h l k) /\ on_axes n vs r /\ is_inverse n h hi /\ is_inverse n (m_b n vs func) m_ib /\ g 0%nat <> 0.
Proof. exact axes_met. Qed.
Print Assumptions C106_sigma_partial.
(** For other simplices the function values at the vertices given are combined with vertices moved to the axes.  1 + x^2 + y^2 with the
    first vertex at the minimum: 2/3 is reported where 2 is right; *)
Theorem C106_error_matrix_refuted : exists (vs : nat -> vec) (func : vec -> R) (m_ib : mat),
  (forall p, func p = 1 + p 0%nat * p 0%nat + p 1%nat * p 1%nat) /\ (forall k, vs 0%nat k = 0) /\ (forall p, func (vs 0%nat) <= func p) /\
  vs 1%nat 0%nat * vs 2%nat 1%nat - vs 1%nat 1%nat * vs 2%nat 0%nat <> 0 /\ is_inverse 2 (m_b 2 vs func) m_ib /\
  fst (error_estimation_simplex 2 vs func m_ib) 0%nat 0%nat = 2 / 3.
Proof. exact simplex_refuted. Qed.
Print Assumptions C106_error_matrix_refuted.
(** 10 + x + x^2 with the second vertex below the first: a negative variance (20 is right). *)
Theorem C106_negative_refuted : exists (vs : nat -> vec) (func : vec -> R) (m_ib : mat),
  (forall p, func p = 10 + p 0%nat + p 0%nat * p 0%nat) /\ vs 0%nat 0%nat = 0 /\ vs 1%nat 0%nat = -1 /\ is_inverse 1 (m_b 1 vs func) m_ib /\
  fst (error_estimation_simplex 1 vs func m_ib) 0%nat 0%nat = -20 / 3.
Proof. exact simplex_negative. Qed.
Print Assumptions C106_negative_refuted.
