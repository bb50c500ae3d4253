(** Property theorems C60, C66: inverse Hessian, correlation matrix, reported errors. *)
From Coq Require Import Reals Lra Lia List Arith String.
From Verif Require Import Spec.LinN Spec.Hess Spec.Refinement Model.Hessian Proofs.LinNP Proofs.HessianP.
Import ListNotations.
Open Scope R_scope.

(** sigma^2 is the diagonal; the correlation matrix is symmetric with unit diagonal and the matrix is recovered from it,
    for matrices of any size with positive diagonal; for positive semidefinite matrices the coefficients lie in [-1,1]. *)
Theorem C60_sigma_squared : forall h i, 0 <= h i i -> hess_sigma h i * hess_sigma h i = h i i.
Proof. exact sigma_sq_pos. Qed.
Print Assumptions C60_sigma_squared.
Theorem C60_unit_diagonal : forall h i, 0 < h i i -> hess_corr h i i = 1.
Proof. exact corr_diag. Qed.
Print Assumptions C60_unit_diagonal.
Theorem C60_symmetric : forall n h, symmetric n h -> symmetric n (hess_corr h).
Proof. exact corr_sym. Qed.
Print Assumptions C60_symmetric.
Theorem C60_matrix_recovered : forall h i j, h i i <> 0 -> h j j <> 0 -> hess_corr h i j * hess_sigma h i * hess_sigma h j = h i j.
Proof. exact corr_back. Qed.
Print Assumptions C60_matrix_recovered.
Theorem C60_bounded : forall n h i j, symmetric n h -> psd_n n h -> (i < n)%nat -> (j < n)%nat -> 0 < h i i -> 0 < h j j ->
  -1 <= hess_corr h i j <= 1.
Proof. exact corr_bound. Qed.
Print Assumptions C60_bounded.
(** A negative diagonal element (not a minimum) is not detected: its "correlation with itself" is -1. *)
Theorem C60_negative_diagonal : forall h i, h i i < 0 -> hess_corr h i i = -1.
Proof. exact corr_diag_neg. Qed.
Print Assumptions C60_negative_diagonal.
(** form_inversed_hessian sorts the labels and keeps every number with its label(s), *)
Theorem C60_labels_sorted_and_kept : forall lab o, h_label o = Some lab ->
  exists lab', h_label (form_inversed_hessian o) = Some lab' /\
  (forall k, (S k < List.length lab')%nat -> String.leb (nth k lab' EmptyString) (nth (S k) lab' EmptyString) = true) /\
  (forall m, h_matrix o = Some m -> exists m', h_matrix (form_inversed_hessian o) = Some m' /\
     forall x y v, entry_of lab m x y v <-> entry_of lab' m' x y v) /\
  (forall m, h_corr o = Some m -> exists m', h_corr (form_inversed_hessian o) = Some m' /\
     forall x y v, entry_of lab m x y v <-> entry_of lab' m' x y v) /\
  (forall s, h_sigma o = Some s -> exists s', h_sigma (form_inversed_hessian o) = Some s' /\
     forall x v, value_of lab s x v <-> value_of lab' s' x v).
Proof. exact form_entries. Qed.
Print Assumptions C60_labels_sorted_and_kept.
(** and rebuilds the matrix from labels, correlation matrix and sigmas. *)
Theorem C60_matrix_from_correlation : forall lab h n, List.length lab = n -> (forall i, (i < n)%nat -> h i i <> 0) ->
  exists m', h_matrix (form_inversed_hessian (mkH (Some lab) None (Some (hess_corr h)) (Some (hess_sigma h)))) = Some m' /\
    forall x y v, entry_of lab h x y v <-> entry_of (take_labels (argsort lab) lab) m' x y v.
Proof. exact form_from_correlation. Qed.
Print Assumptions C60_matrix_from_correlation.
(** The text has ten decimals: the variance read back is within 1e-10, so sigmas below 7e-6 are lost. *)
Theorem C60_text_variance : forall m s t lab, text_of (form_inversed_hessian (mkH (Some lab) (Some m) None None)) = Some t ->
  h_sigma (form_object t) = Some s -> forall k, (k < List.length lab)%nat ->
  exists i, (i < List.length lab)%nat /\ (0 <= m i i -> Rabs (s k * s k - m i i) <= 1 / 10 ^ 10).
Proof. exact text_sigma_close. Qed.
Print Assumptions C60_text_variance.
Theorem C60_text_sigma_refuted : exists lab m, hess_sigma m 0%nat > 0 /\
  exists t, text_of (form_inversed_hessian (mkH (Some lab) (Some m) None None)) = Some t /\
  exists s, h_sigma (form_object t) = Some s /\ s 0%nat = 0.
Proof. exact text_loses_small_sigma. Qed.
Print Assumptions C60_text_sigma_refuted.
(** estimate_inversed_hessian_matrix: symmetric for every function; exact for quadratic functions of any number of
    parameters. *)
Theorem C60_estimate_symmetric : forall func n p0, symmetric n (hess_matrix func n p0).
Proof. exact hess_symmetric. Qed.
Print Assumptions C60_estimate_symmetric.
Theorem C60_estimate_quadratic : forall inv n c g a p0 b d, symmetric n a -> inv_ok inv ->
  (forall i j, (i < n)%nat -> (j < n)%nat -> hess_matrix (quadratic n c g a) n p0 i j = a i j) /\
  (estimate_inversed_hessian_matrix inv (quadratic n c g a) n p0 = (Some b, d) -> is_inverse n a b).
Proof. exact estimate_quadratic. Qed.
Print Assumptions C60_estimate_quadratic.
(** The second result (first derivatives) is always zero. *)
Theorem C60_gradient_refuted : forall inv, exists n c g a p0, symmetric n a /\ (0 < n)%nat /\
  (forall t, quadratic n c g a (fun _ => t) = t) /\ snd (estimate_inversed_hessian_matrix inv (quadratic n c g a) n p0) 0%nat <> 1.
Proof. exact gradient_zero. Qed.
Print Assumptions C60_gradient_refuted.
Example C60_case : let h := fun i j => if Nat.eq_dec i j then 4 else 1 in
  symmetric 2 h /\ psd_n 2 h /\ 0 < h 0%nat 0%nat /\ argsort ["b"; "a"]%string = [1; 0]%nat.
Proof.
  split; [|split; [|split; [cbn; lra|reflexivity]]].
  - intros i j _ _. cbn. destruct (Nat.eq_dec i j); destruct (Nat.eq_dec j i); congruence.
  - intros v. cbn. assert (H := Rle_0_sqr (v 0%nat + v 1%nat)). assert (H1 := Rle_0_sqr (v 0%nat)). assert (H2 := Rle_0_sqr (v 1%nat)). unfold Rsqr in *. lra.
Qed.

(** C66. At the minimum of a quadratic chi-square with Hessian [a], the error reported for parameter i is
    sqrt of the diagonal of the inverse Hessian; the smallest increase of chi-square over all shifts which move parameter
    i by the reported error is 1/2, not 1 (the definition of a standard uncertainty): errors are too small by sqrt 2. *)
Theorem C66_increase_of_chi_square : forall n c a p v, symmetric n a ->
  quadratic n c (fun k => - sumn n (fun j => a k j * p j)) a (fun k => p k + v k)
  - quadratic n c (fun k => - sumn n (fun j => a k j * p j)) a p = / 2 * sumn n (fun i => sumn n (fun j => v i * a i j * v j)).
Proof. exact quadratic_shift. Qed.
Print Assumptions C66_increase_of_chi_square.
Theorem C66_one_sigma_refuted : forall n a b i, symmetric n a -> psd_n n a -> is_inverse n a b -> (i < n)%nat -> 0 < b i i ->
  (exists v : vec, v i = hess_sigma b i /\ / 2 * sumn n (fun i => sumn n (fun j => v i * a i j * v j)) = / 2) /\
  (forall v : vec, v i = hess_sigma b i -> / 2 <= / 2 * sumn n (fun i => sumn n (fun j => v i * a i j * v j))).
Proof. exact half_increase. Qed.
Print Assumptions C66_one_sigma_refuted.
Example C66_case : let a := fun i j => if Nat.eq_dec i j then 2 else 0 in let b := fun i j => if Nat.eq_dec i j then / 2 else 0 in
  symmetric 1 a /\ psd_n 1 a /\ is_inverse 1 a b /\ 0 < b 0%nat 0%nat.
Proof.
  split; [|split; [|split]].
  - intros i j I J. replace i with 0%nat by lia. replace j with 0%nat by lia. reflexivity.
  - intros v. cbn. assert (H := Rle_0_sqr (v 0%nat)). unfold Rsqr in H. lra.
  - intros i j I J. replace i with 0%nat by lia. replace j with 0%nat by lia. unfold mulmm, delta. cbn. lra.
  - cbn. lra.
Qed.
