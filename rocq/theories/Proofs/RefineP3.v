From Coq Require Import Reals Lra Lia List Arith Ascii String Bool FunctionalExtensionality.
From Verif Require Import Spec.LinN Proofs.LinNP Model.Refine Spec.Refinement Proofs.RefineP Proofs.RefineP2.
Import ListNotations.
Open Scope R_scope.

(** an inverse for sizes one and two *)
Definition inv12 (n : nat) (a : mat) : option mat :=
  match n with
  | 1%nat => if Req_EM_T (a 0%nat 0%nat) 0 then None else Some (fun _ _ => / a 0%nat 0%nat)
  | 2%nat => let det := a 0%nat 0%nat * a 1%nat 1%nat - a 0%nat 1%nat * a 1%nat 0%nat in
    if Req_EM_T det 0 then None else
    Some (fun i j => match i, j with O, O => a 1%nat 1%nat / det | O, _ => - a 0%nat 1%nat / det | _, O => - a 1%nat 0%nat / det | _, _ => a 0%nat 0%nat / det end)
  | _ => None
  end.
Lemma inv12_ok : inv_ok inv12.
Proof.
  intros n a b. destruct n as [|[|[|n]]]; cbn; try discriminate.
  - destruct (Req_EM_T (a 0%nat 0%nat) 0) as [|N]; [discriminate|]. intros [= <-] i j I J. assert (i = O) by lia. assert (j = O) by lia. subst. unfold mulmm, delta; cbn. split; field; exact N.
  - destruct (Req_EM_T _ 0) as [|N]; [discriminate|]. intros [= <-] i j I J. unfold mulmm, delta.
    destruct i as [|[|i]]; [| |lia]; (destruct j as [|[|j]]; [| |lia]); cbn; split; field; exact N.
Qed.
Definition wa : way := ("a"%string, "p"%string, [0%nat]).
Definition wb : way := ("a"%string, "p"%string, [1%nat]).
Definition diag12 : mat := fun i j => match i, j with O, O => 1 | O, _ => 0 | _, O => 0 | _, _ => 2 end.
Definition e_ham : chi_out := mkE 0 0 (fun i => match i with O => -1 | _ => 0 end) diag12 [wa; wb].
Lemma wab : NoDup [wa; wb].
Proof. constructor; [intros [H|[]]; discriminate|]. constructor; [intros []|constructor]. Qed.
Lemma ham_run : exists d s', one_iteration inv12 (Some [[(1, wa); (-1, wb)]]) e_ham (fun _ => 0) = Some (d, s') /\ d 0%nat = 2/3 /\ d 1%nat = 2/3.
Proof.
  unfold one_iteration, e_ham. cbn [e_names e_dder e_der List.length].
  unfold inv12 at 1. cbn [diag12]. destruct (Req_EM_T _ 0) as [E|_]; [exfalso; lra|].
  unfold form_matrix_q, fill_row. cbn [index_of].
  repeat (destruct (way_eq_dec _ _) as [?E|?N]; try congruence; try discriminate; cbn [option_map]).
  unfold calc_shift_p_by_constraints_hamilton, inv12. 
  assert (A : mulmm 2 (mulmm 2 (mat_of_rows [upd_row (upd_row (fun _ => 0) 0 1) 1 (-1)]) diag12) (transpose (mat_of_rows [upd_row (upd_row (fun _ => 0) 0 1) 1 (-1)])) 0%nat 0%nat = 3).
  { unfold mulmm, transpose, mat_of_rows, upd_row, diag12. cbn. lra. }
  destruct (Req_EM_T _ 0) as [Z|_]; [exfalso; rewrite A in Z; lra|]. do 2 eexists. split; [reflexivity|].
  rewrite A. unfold mulmv, mulvm, mulmm, transpose, mat_of_rows, upd_row, diag12. cbn. split; field.
Qed.
Lemma ham_not_optimal : exists inv lc e s d s' p, inv_ok inv /\ one_iteration inv (Some lc) e s = Some (d, s') /\ NoDup (e_names e) /\
  (forall c, In c lc -> cval (add_steps 1 (e_names e) 0 p (fun _ => 0)) c = 0) /\ qmodel e p < qmodel e d.
Proof.
  destruct ham_run as (d & s' & E & D0 & D1). exists inv12, [[(1, wa); (-1, wb)]], e_ham, (fun _ => 0), d, s', (fun _ => 1/3).
  split; [exact inv12_ok|]. split; [exact E|]. split; [exact wab|]. split.
  - intros c [<-|[]]. unfold cval. cbn [suml fst snd]. rewrite !add_steps_spec. cbn [e_names e_ham occ'].
    repeat (destruct (way_eq_dec _ _) as [?E|?N]; try congruence; try discriminate). lra.
  - unfold qmodel, e_ham. cbn. rewrite D0, D1. unfold diag12. lra.
Qed.

(** ** which data the returned dictionary holds *)
Section Loop.
Context {C : Type} (inv : nat -> mat -> option mat) (lc : option (list constr)) (ev : bool -> C -> store -> chi_out * C).
Lemma loop_dict fuel : forall e d s c1 c2 same r, lsq_loop inv lc ev fuel e d s c1 c2 same = Some r ->
  forall sp, s = add_steps 1 (e_names e) 0 d sp ->
  (same = false /\ l_store r = sp /\ l_dict r = c1) \/
  (exists c, l_dict r = snd (ev true c (add_steps 1 (e_names (l_out r)) 0 (l_delta r) (l_store r)))).
Proof.
  induction fuel as [|fuel IH]; intros e d s c1 c2 same r E sp Hs; cbn in E; [discriminate|].
  destruct (ev true c2 s) as [e2 c2'] eqn:Ev. destruct (one_iteration inv lc e2 s) as [[d2 s2]|] eqn:It; [|discriminate].
  assert (S2 := iteration_shape _ _ _ _ _ _ It). destruct (Rlt_dec (e_chi e2) (e_chi e)) as [L|L].
  - destruct (IH _ _ _ _ _ _ _ E s S2) as [(A & _)|A]; [discriminate|]. right. exact A.
  - injection E as <-. cbn. rewrite S2, undo, Hs, undo. destruct same; [right|left; auto]. exists c2. rewrite <- Hs, Ev. reflexivity.
Qed.
Lemma lsq_dict fuel empty s r : lsq inv lc ev fuel empty s = Some r -> l_store r <> s ->
  exists c, l_dict r = snd (ev true c (add_steps 1 (e_names (l_out r)) 0 (l_delta r) (l_store r))).
Proof.
  unfold lsq. destruct (ev false empty s) as [e c1] eqn:Ev. destruct (one_iteration inv lc e s) as [[d s1]|] eqn:It; [|discriminate].
  intros E N. destruct (loop_dict _ _ _ _ _ _ _ _ E s (iteration_shape _ _ _ _ _ _ It)) as [(_ & A & _)|A]; [contradiction|exact A].
Qed.
End Loop.
(** a run: chi-square 3, 2, 5 at 0, 1, 2 and a step of one.  The cache records the parameter it was computed for. *)
Definition chi3 (x : R) : R := if Req_EM_T x 0 then 3 else if Req_EM_T x 1 then 2 else 5.
Definition ev3 (b : bool) (c : option R) (s : store) : chi_out * option R := (mkE (chi3 (s wa)) 1 (fun _ => -1) (fun _ _ => 1) [wa], Some (s wa)).
Lemma it3 x s : one_iteration inv12 None (mkE x 1 (fun _ => -1) (fun _ _ => 1) [wa]) s = Some (fun i => - mulmv 1 (fun _ _ => / 1) (fun _ => -1) i, upd s wa (s wa + 1 * - mulmv 1 (fun _ _ => / 1) (fun _ => -1) 0%nat)).
Proof. unfold one_iteration. cbn [e_names e_dder e_der List.length inv12]. destruct (Req_EM_T 1 0) as [E|_]; [exfalso; lra|]. reflexivity. Qed.
Lemma chi30 : chi3 0 = 3. Proof. unfold chi3. destruct (Req_EM_T 0 0); lra. Qed.
Lemma chi31 : chi3 1 = 2. Proof. unfold chi3. destruct (Req_EM_T 1 0); [lra|]. destruct (Req_EM_T 1 1); lra. Qed.
Lemma chi32 : chi3 2 = 5. Proof. unfold chi3. destruct (Req_EM_T 2 0); [lra|]. destruct (Req_EM_T 2 1); lra. Qed.
Definition out3 (x : R) : chi_out := mkE (chi3 x) 1 (fun _ => -1) (fun _ _ => 1) [wa].
Definition d3 : vec := fun i => - mulmv 1 (fun _ _ => / 1) (fun _ => -1) i.
Lemma d3_0 : d3 0%nat = 1. Proof. unfold d3, mulmv; cbn. field. Qed.
Lemma step3 fuel e d s c1 c2 same : lsq_loop inv12 None ev3 (S fuel) e d s c1 c2 same =
  if Rlt_dec (chi3 (s wa)) (e_chi e) then lsq_loop inv12 None ev3 fuel (out3 (s wa)) d3 (upd s wa (s wa + 1 * d3 0%nat)) c1 (Some (s wa)) true
  else Some (mkL e d (if same then Some (s wa) else c1) (add_steps (-1) (e_names e) 0 d (add_steps (-1) [wa] 0 d3 (upd s wa (s wa + 1 * d3 0%nat))))).
Proof. cbn [lsq_loop]. unfold ev3 at 1. rewrite it3. reflexivity. Qed.
Lemma lsq_dict_bad : exists r, lsq inv12 None ev3 5 None (fun _ => 0) = Some r /\ l_store r wa = 1 /\ l_dict r = Some 2.
Proof.
  unfold lsq. unfold ev3 at 1. rewrite it3. fold d3. set (s1 := upd (fun _ => 0) wa _).
  assert (E1 : s1 wa = 1). { unfold s1. rewrite upd_same. change (0 + 1 * d3 0%nat = 1). rewrite d3_0. ring. } clearbody s1.
  rewrite step3. cbn [e_chi]. rewrite E1, chi30, chi31. destruct (Rlt_dec 2 3); [|lra].
  set (s2 := upd s1 wa _). assert (E2 : s2 wa = 2) by (unfold s2; rewrite upd_same, d3_0; ring). clearbody s2.
  rewrite step3. cbn [e_chi out3]. rewrite E2, chi31, chi32. destruct (Rlt_dec 5 2); [lra|].
  eexists. split; [reflexivity|]. cbn [l_store l_dict]. split; [|reflexivity]. cbn [e_names out3]. rewrite !add_steps_spec, upd_same. cbn [occ'].
  destruct (way_eq_dec wa wa); [|congruence]. rewrite d3_0. ring.
Qed.

(** ** a constraint with different coefficients *)
Lemma constraint_bad : exists lc names p s s' c0 f c1 g, NoDup names /\ NoDup (names_fixed lc) /\ tempfunc_store lc names p s = Some s' /\
  In ((c0, f), (c1, g)) lc /\ c0 <> 0 /\ c1 <> 0 /\ c0 * s' f + c1 * s' g <> 0.
Proof.
  set (lc := [((2, wa), (-1, wb))] : list constr2).
  assert (N : NoDup [wa; wb]) by exact wab.
  assert (NF : NoDup (names_fixed lc)) by (cbn; constructor; [intros []|constructor]).
  destruct (tempfunc_ok lc [wa; wb] [1] (fun _ => 0)) as (s' & E).
  - cbn. destruct (way_eq_dec wb wa); [discriminate|]. cbn. destruct (way_eq_dec wb wb); [reflexivity|congruence].
  - intros c0 f c1 g [H|[]]. injection H as <- <- <- <-. cbn. split; [auto|]. intros [H|[]]. discriminate.
  - exists lc, [wa; wb], [1], (fun _ => 0), s', 2, wa, (-1), wb. split; [exact N|]. split; [exact NF|]. split; [exact E|]. split; [left; reflexivity|]. split; [lra|]. split; [lra|].
    rewrite (tempfunc_residual _ _ _ _ _ N NF E _ _ _ _ (or_introl eq_refl)) by lra.
    assert (S : s' wa = 1).
    { unfold tempfunc_store in E. rewrite (constrained_out _ _ _ _ _ _ E) by (cbn; intros [H|[]]; discriminate).
      apply (set_params_in _ _ _ 0); [apply free_nodup; exact N| |reflexivity]. cbn. destruct (way_eq_dec wb wa); [discriminate|]. reflexivity. }
    rewrite S. lra.
Qed.
(** ** the minimiser's best point is not what remains in the dictionary *)
Lemma best_lost : exists (chi : store -> R) names pts best s s' t, In best pts /\
  minimise_store [] names pts s = Some s' /\ tempfunc_store [] names best s = Some t /\
  (forall q u, In q pts -> tempfunc_store [] names q s = Some u -> chi t <= chi u) /\ chi t < chi s'.
Proof.
  exists (fun s => s wa ^ 2), [wa], [[0]; [1]], [0], (fun _ => 5).
  exists (upd (upd (fun _ => 5) wa 0) wa 1), (upd (fun _ => 5) wa 0). split; [left; reflexivity|]. split; [reflexivity|]. split; [reflexivity|]. split.
  - intros q u [<-|[<-|[]]]; intros E; injection E as <-; rewrite !upd_same; lra.
  - rewrite !upd_same. lra.
Qed.
Lemma residual_zero lc names p s s' : NoDup names -> NoDup (names_fixed lc) -> tempfunc_store lc names p s = Some s' ->
  forall c0 f c1 g, In ((c0, f), (c1, g)) lc -> c0 <> 0 -> c0 ^ 2 = c1 ^ 2 -> c0 * s' f + c1 * s' g = 0.
Proof. intros N NF E c0 f c1 g I Z Q. rewrite (tempfunc_residual _ _ _ _ _ N NF E _ _ _ _ I Z), Q. unfold Rdiv. ring. Qed.
Lemma lsq_constraints {C} inv lc (ev : bool -> C -> store -> chi_out * C) fuel empty s r : inv_ok inv ->
  (forall b c s, NoDup (e_names (fst (ev b c s)))) -> (forall c, In c lc -> NoDup (map snd c)) ->
  lsq inv (Some lc) ev fuel empty s = Some r -> forall c, In c lc -> cval (l_store r) c = cval s c.
Proof.
  intros OK ND NC E c I. apply (loop_invariant inv (Some lc) ev (fun x => cval x c = cval s c)) with (fuel := fuel) (empty := empty) (s := s); [|exact E|reflexivity].
  intros b c' x d x' It H. rewrite <- H. apply (iteration_constraints inv lc _ _ _ _ OK (ND b c' x) NC It c I).
Qed.
Lemma lsq_fixed {C} inv lc (ev : bool -> C -> store -> chi_out * C) fuel empty s r w :
  (forall b c s, ~ In w (e_names (fst (ev b c s)))) -> lsq inv lc ev fuel empty s = Some r -> l_store r w = s w.
Proof.
  intros N E. apply (loop_invariant inv lc ev (fun x => x w = s w)) with (fuel := fuel) (empty := empty) (s := s); [|exact E|reflexivity].
  intros b c' x d x' It H. rewrite (iteration_shape _ _ _ _ _ _ It), add_steps_spec, occ_notin by apply N. rewrite H. ring.
Qed.
Lemma lsq_not_worse {C} inv lc (ev : bool -> C -> store -> chi_out * C) fuel empty s r : lsq inv lc ev fuel empty s = Some r ->
  e_chi (l_out r) <= e_chi (fst (ev false empty s)).
Proof. intros E. destruct (lsq_spec _ _ _ _ _ _ _ E) as (_ & [H|(_ & ->)]); lra. Qed.
Lemma lsq_pure {C} inv lc (ev : bool -> C -> store -> chi_out * C) (f : store -> chi_out) fuel empty s r : (forall b c x, fst (ev b c x) = f x) ->
  lsq inv lc ev fuel empty s = Some r -> l_out r = f (l_store r) /\ e_chi (f (l_store r)) <= e_chi (f s) /\ (l_store r <> s -> e_chi (f (l_store r)) < e_chi (f s)).
Proof.
  intros P E. destruct (lsq_spec _ _ _ _ _ _ _ E) as ((b & c & A) & B). rewrite P in A, B. rewrite A in B. split; [exact A|].
  destruct B as [B|(B1 & B2)]; [split; [lra|auto]|]. split; [rewrite B2; lra|contradiction].
Qed.
