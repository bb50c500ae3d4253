(** Property theorems C51-C53, C56, C65 (rhochi_by_dictionary.py, constraints from marks). *)
From Coq Require Import Reals Lra List Arith Ascii String.
From Verif Require Import Spec.LinN Model.Refine Spec.Refinement Proofs.RefineP Proofs.RefineP2 Proofs.RefineP3.
Import ListNotations.
Open Scope R_scope.

(** The shifted step satisfies all the constraints: Q (delta + shift) = 0, for any numbers of parameters and constraints. *)
Theorem C51_hamilton_step : forall inv n m delta_p hess q shift, inv_ok inv ->
  calc_shift_p_by_constraints_hamilton inv n m delta_p hess q = Some shift ->
  forall i, (i < m)%nat -> mulmv n q (fun j => delta_p j + shift j) i = 0.
Proof. exact hamilton. Qed.
Print Assumptions C51_hamilton_step.
(** One iteration with constraints leaves the value of every constraint of the dictionary unchanged (so satisfied
    constraints stay satisfied), whatever the order of the parameters. *)
Theorem C51_iteration_keeps_constraints : forall inv lc e s d s', inv_ok inv -> NoDup (e_names e) ->
  (forall c, In c lc -> NoDup (map snd c)) ->
  one_iteration inv (Some lc) e s = Some (d, s') -> forall c, In c lc -> cval s' c = cval s c.
Proof. exact iteration_constraints. Qed.
Print Assumptions C51_iteration_keeps_constraints.
(** The step is not the best one: H is used where Hamilton's formula has its inverse.  There are steps satisfying the
    constraints with a smaller value of the quadratic model of chi-square. *)
Theorem C51_step_optimal_refuted : exists inv lc e s d s' p, inv_ok inv /\ one_iteration inv (Some lc) e s = Some (d, s') /\ NoDup (e_names e) /\
  (forall c, In c lc -> cval (add_steps 1 (e_names e) 0 p (fun _ => 0)) c = 0) /\ qmodel e p < qmodel e d.
Proof. exact ham_not_optimal. Qed.
Print Assumptions C51_step_optimal_refuted.
Example C51_case : inv_ok inv12 /\ exists d s', one_iteration inv12 (Some [[(1, wa); (-1, wb)]]) e_ham (fun _ => 0) = Some (d, s') /\ d 0%nat = 2/3.
Proof. split; [exact inv12_ok|]. destruct ham_run as (d & s' & E & D & _). exists d, s'. auto. Qed.

(** For every chi-square function, step and number of iterations: the result is not worse than the start, *)
Theorem C52_not_worse : forall C inv lc (ev : bool -> C -> store -> chi_out * C) fuel empty s r,
  lsq inv lc ev fuel empty s = Some r -> e_chi (l_out r) <= e_chi (fst (ev false empty s)).
Proof. exact (fun C inv lc ev fuel empty s r => lsq_not_worse inv lc ev fuel empty s r). Qed.
Print Assumptions C52_not_worse.
(** the returned values (chi-square, derivatives, names) were evaluated at exactly the store that is left behind, *)
Theorem C52_store_consistent : forall C inv lc (ev : bool -> C -> store -> chi_out * C) fuel empty s r,
  lsq inv lc ev fuel empty s = Some r -> exists b c, l_out r = fst (ev b c (l_store r)).
Proof. exact (fun C inv lc ev fuel empty s r E => proj1 (lsq_spec inv lc ev fuel empty s r E)). Qed.
Print Assumptions C52_store_consistent.
(** and, when the evaluation does not depend on the cache, a changed store means a strictly smaller chi-square. *)
Theorem C52_strict_progress : forall C inv lc (ev : bool -> C -> store -> chi_out * C) (f : store -> chi_out) fuel empty s r,
  (forall b c x, fst (ev b c x) = f x) -> lsq inv lc ev fuel empty s = Some r ->
  l_out r = f (l_store r) /\ e_chi (f (l_store r)) <= e_chi (f s) /\ (l_store r <> s -> e_chi (f (l_store r)) < e_chi (f s)).
Proof. exact (fun C inv lc ev f fuel empty s r => lsq_pure inv lc ev f fuel empty s r). Qed.
Print Assumptions C52_strict_progress.
Theorem C52_fixed_parameters : forall C inv lc (ev : bool -> C -> store -> chi_out * C) fuel empty s r w,
  (forall b c x, ~ In w (e_names (fst (ev b c x)))) -> lsq inv lc ev fuel empty s = Some r -> l_store r w = s w.
Proof. exact (fun C inv lc ev fuel empty s r w => lsq_fixed inv lc ev fuel empty s r w). Qed.
Print Assumptions C52_fixed_parameters.
Theorem C52_constraints_kept : forall C inv lc (ev : bool -> C -> store -> chi_out * C) fuel empty s r, inv_ok inv ->
  (forall b c x, NoDup (e_names (fst (ev b c x)))) -> (forall c, In c lc -> NoDup (map snd c)) ->
  lsq inv (Some lc) ev fuel empty s = Some r -> forall c, In c lc -> cval (l_store r) c = cval s c.
Proof. exact (fun C inv lc ev fuel empty s r => lsq_constraints inv lc ev fuel empty s r). Qed.
Print Assumptions C52_constraints_kept.
(** The returned dictionary of calculated data, however, is the object the rejected last trial wrote to: as soon as one
    step was accepted it holds the data of the rejected point. *)
Theorem C52_returned_data_of_rejected_point : forall C inv lc (ev : bool -> C -> store -> chi_out * C) fuel empty s r,
  lsq inv lc ev fuel empty s = Some r -> l_store r <> s ->
  exists c, l_dict r = snd (ev true c (add_steps 1 (e_names (l_out r)) 0 (l_delta r) (l_store r))).
Proof. exact (fun C inv lc ev fuel empty s r => lsq_dict inv lc ev fuel empty s r). Qed.
Print Assumptions C52_returned_data_of_rejected_point.
(** [ev3] records in the dictionary the value of the parameter; the run ends with parameter 1 and data of parameter 2. *)
Theorem C52_returned_data_refuted : exists r, lsq inv12 None ev3 5 None (fun _ => 0) = Some r /\ l_store r wa = 1 /\ l_dict r = Some 2.
Proof. exact lsq_dict_bad. Qed.
Print Assumptions C52_returned_data_refuted.

(** Constraints made from marks hold at every evaluation: parameters with the same label are equal up to the signs in
    their marks.  [labels] is the set of labels in any order, [p] the point the minimiser tries. *)
Theorem C53_marked_parameters_tied : forall labels vars names p s s', NoDup labels -> NoDup (map snd vars) -> NoDup names ->
  (forall m n, In (m, n) vars -> rstrip_pm m <> EmptyString -> In (rstrip_pm m) labels) ->
  tempfunc_store (mark_constraints labels vars) names p s = Some s' ->
  forall m1 n1 m2 n2, In (m1, n1) vars -> In (m2, n2) vars -> rstrip_pm m1 = rstrip_pm m2 -> rstrip_pm m1 <> EmptyString ->
  msign m1 * s' n1 = msign m2 * s' n2.
Proof. exact marks_hold. Qed.
Print Assumptions C53_marked_parameters_tied.
(** General two-term constraints: right when the coefficients have equal modulus, *)
Theorem C53_equal_moduli_partial : forall lc names p s s', NoDup names -> NoDup (names_fixed lc) -> tempfunc_store lc names p s = Some s' ->
  forall c0 f c1 g, In ((c0, f), (c1, g)) lc -> c0 <> 0 -> c0 ^ 2 = c1 ^ 2 -> c0 * s' f + c1 * s' g = 0.
Proof. exact residual_zero. Qed.
Print Assumptions C53_equal_moduli_partial.
(** in general the residual is this (the code divides the coefficients the wrong way round), *)
Theorem C53_residual_partial : forall lc names p s s', NoDup names -> NoDup (names_fixed lc) -> tempfunc_store lc names p s = Some s' ->
  forall c0 f c1 g, In ((c0, f), (c1, g)) lc -> c0 <> 0 -> c0 * s' f + c1 * s' g = (c0 ^ 2 - c1 ^ 2) / c0 * s' f.
Proof. exact tempfunc_residual. Qed.
Print Assumptions C53_residual_partial.
Theorem C53_general_refuted : exists lc names p s s' c0 f c1 g, NoDup names /\ NoDup (names_fixed lc) /\ tempfunc_store lc names p s = Some s' /\
  In ((c0, f), (c1, g)) lc /\ c0 <> 0 /\ c1 <> 0 /\ c0 * s' f + c1 * s' g <> 0.
Proof. exact constraint_bad. Qed.
Print Assumptions C53_general_refuted.
(** and the evaluation does not fail when the first names are free refined parameters. *)
Theorem C53_evaluation_succeeds : forall lc names p s, List.length p = List.length (names_free lc names) ->
  (forall c0 f c1 g, In ((c0, f), (c1, g)) lc -> In f names /\ ~ In f (names_fixed lc)) -> exists s', tempfunc_store lc names p s = Some s'.
Proof. exact tempfunc_ok. Qed.
Print Assumptions C53_evaluation_succeeds.
Example C53_case : exists s', tempfunc_store (mark_constraints ["x"%string] [("x"%string, wa); ("x-"%string, wb)]) [wa; wb] [3] (fun _ => 0) = Some s' /\ s' wa = 3.
Proof.
  destruct (tempfunc_ok (mark_constraints ["x"%string] [("x"%string, wa); ("x-"%string, wb)]) [wa; wb] [3] (fun _ => 0)) as (s' & E).
  - reflexivity.
  - intros c0 f c1 g [H|[]]. injection H as <- <- <- <-. split; [left; reflexivity|]. intros [H|[]]; discriminate.
  - exists s'. split; [exact E|]. injection E as <-. reflexivity.
Qed.

(** Total chi-square, number of points, gradient and Hessian; [names] is the set of all names in any order. *)
Theorem C56_assembly : forall names exps, (forall e w, In e exps -> In w (e_names e) -> In w names) ->
  let t := assemble names exps in
  e_chi t = suml e_chi exps /\ e_n t = list_sum (map e_n exps) /\ e_names t = names /\
  forall a b, In a names -> In b names ->
    e_der t (pos names a) = suml (fun e => sumn (List.length (e_names e)) (fun i => named (e_names e) i a * e_der e i)) exps /\
    e_dder t (pos names a) (pos names b) =
      suml (fun e => sumn (List.length (e_names e)) (fun i => sumn (List.length (e_names e)) (fun j => named (e_names e) i a * named (e_names e) j b * e_dder e i j))) exps.
Proof. exact assemble_spec. Qed.
Print Assumptions C56_assembly.
Example C56_case : let e1 := mkE 1 2 (fun _ => 1) (fun _ _ => 1) [wa] in let e2 := mkE 3 4 (fun _ => 2) (fun i j => if Nat.eq_dec i j then 5 else 7) [wb; wa] in
  forall e w, In e [e1; e2] -> In w (e_names e) -> In w [wa; wb].
Proof. intros e1 e2 e w [<-|[<-|[]]]; cbn; intuition. Qed.

(** What remains in the dictionary after the minimisation is the last point the minimiser tried, *)
Theorem C65_last_point_remains : forall lc names pts p s s' t, List.length p = List.length (names_free lc names) ->
  minimise_store lc names (pts ++ [p]) s = Some s' -> tempfunc_store lc names p s = Some t -> s' = t.
Proof. exact minimise_last. Qed.
Print Assumptions C65_last_point_remains.
(** which need not be the best one: the final chi-square can be worse than the best one found. *)
Theorem C65_best_point_refuted : exists (chi : store -> R) names pts best s s' t, In best pts /\
  minimise_store [] names pts s = Some s' /\ tempfunc_store [] names best s = Some t /\
  (forall q u, In q pts -> tempfunc_store [] names q s = Some u -> chi t <= chi u) /\ chi t < chi s'.
Proof. exact best_lost. Qed.
Print Assumptions C65_best_point_refuted.
Example C65_case : exists s', minimise_store [] [wa] ([[0]] ++ [[1]]) (fun _ => 5) = Some s' /\ s' wa = 1.
Proof. eexists. split; [reflexivity|]. reflexivity. Qed.
