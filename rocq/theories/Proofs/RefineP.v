From Coq Require Import Reals Lra Lia List Arith String Bool FunctionalExtensionality.
From Verif Require Import Spec.LinN Proofs.LinNP Model.Refine Spec.Refinement.
Import ListNotations.
Open Scope R_scope.


(** ** Hamilton step *)
Lemma hamilton inv n m d h q shift : inv_ok inv -> calc_shift_p_by_constraints_hamilton inv n m d h q = Some shift ->
  forall i, (i < m)%nat -> mulmv n q (fun j => d j + shift j) i = 0.
Proof.
  intros OK. unfold calc_shift_p_by_constraints_hamilton. destruct (inv m _) as [b|] eqn:E; [|discriminate].
  intros [= <-] i I. apply OK in E. set (qh := mulmm n q h) in *. set (a := mulmm n qh (transpose q)) in *.
  unfold mulmv. rewrite (sumn_ext n _ (fun k => q i k * d k + q i k * - mulvm n d (mulmm m (transpose q) (mulmm m b qh)) k)) by (intros; ring).
  rewrite sumn_plus. cut (sumn n (fun k => q i k * mulvm n d (mulmm m (transpose q) (mulmm m b qh)) k) = sumn n (fun k => q i k * d k)).
  { intros K. rewrite (sumn_ext n (fun k => q i k * - _) (fun k => - (q i k * mulvm n d (mulmm m (transpose q) (mulmm m b qh)) k))) by (intros; ring).
    rewrite sumn_opp, K. ring. }
  transitivity (sumn n (fun k => d k * sumn m (fun x => q x k * sumn m (fun y => b x y * a y i)))).
  - unfold mulvm. rewrite (sumn_ext n _ (fun j => sumn n (fun k => q i j * (d k * mulmm m (transpose q) (mulmm m b qh) k j)))).
    2: { intros j J. rewrite <- sumn_scal. reflexivity. }
    rewrite sumn_swap. apply sumn_ext. intros k K.
    rewrite (sumn_ext n _ (fun j => d k * (mulmm m (transpose q) (mulmm m b qh) k j * transpose q j i))) by (intros; unfold transpose; ring).
    rewrite sumn_scal. f_equal.
    change (mulmm n (mulmm m (transpose q) (mulmm m b qh)) (transpose q) k i = sumn m (fun x => q x k * sumn m (fun y => b x y * a y i))).
    rewrite mulmm_assoc. unfold mulmm at 1. apply sumn_ext. intros x X. unfold transpose at 1. f_equal.
    rewrite mulmm_assoc. reflexivity.
  - apply sumn_ext. intros k K. rewrite Rmult_comm. f_equal.
    rewrite (sumn_ext m _ (fun x => q x k * delta x i)).
    2: { intros x X. f_equal. exact (proj2 (E x i X I)). }
    rewrite sumn_delta by exact I. reflexivity.
Qed.

(** ** index, rows, steps *)
Lemma index_in w l : In w l -> exists i, index_of w l = Some i.
Proof.
  induction l as [|x l IH]; [intros []|]. intros H. cbn. destruct (way_eq_dec x w) as [->|N]; [eauto|].
  destruct H as [H|H]; [congruence|]. destruct (IH H) as [i ->]. cbn. eauto.
Qed.
Lemma index_some w l i : index_of w l = Some i -> (i < List.length l)%nat /\ nth_error l i = Some w.
Proof.
  revert i. induction l as [|x l IH]; intros i; cbn; [discriminate|]. destruct (way_eq_dec x w) as [->|N].
  - intros [= <-]. split; [lia|reflexivity].
  - destruct (index_of w l) as [k|] eqn:E; [|discriminate]. intros [= <-]. destruct (IH k eq_refl). split; [lia|assumption].
Qed.
Lemma index_nodup l i w : NoDup l -> nth_error l i = Some w -> index_of w l = Some i.
Proof.
  revert i. induction l as [|x l IH]; intros i N E; [destruct i; discriminate|]. inversion N; subst. cbn. destruct i as [|i]; cbn in E.
  - injection E as ->. destruct (way_eq_dec w w); [reflexivity|congruence].
  - destruct (way_eq_dec x w) as [->|]; [exfalso; apply H1; eapply nth_error_In; eauto|]. rewrite (IH i H2 E). reflexivity.
Qed.
Lemma index_none w l : index_of w l = None <-> ~ In w l.
Proof.
  split.
  - intros E I. destruct (index_in w l I) as [i E']. congruence.
  - intros N. destruct (index_of w l) as [i|] eqn:E; [|reflexivity]. exfalso. apply N. apply index_some in E. eapply nth_error_In, (proj2 E).
Qed.
(** sum over the occurrences of w *)
Fixpoint occ' (w : way) (names : list way) (k : nat) (d : vec) : R :=
  match names with [] => 0 | x :: m => (if way_eq_dec x w then d k else 0) + occ' w m (S k) d end.
Lemma add_steps_spec sgn names k d s w : add_steps sgn names k d s w = s w + sgn * occ' w names k d.
Proof.
  revert k s. induction names as [|x m IH]; intros k s; cbn; [ring|]. rewrite IH. unfold upd.
  destruct (way_eq_dec w x) as [E|N]; destruct (way_eq_dec x w) as [E'|N']; try congruence; [subst; ring|ring].
Qed.
Lemma occ_notin w names k d : ~ In w names -> occ' w names k d = 0.
Proof. revert k. induction names as [|x m IH]; intros k N; cbn; [reflexivity|]. destruct (way_eq_dec x w); [exfalso; apply N; left; congruence|]. rewrite IH by (intros H; apply N; right; exact H). ring. Qed.
Lemma occ_nodup w names k d i : NoDup names -> index_of w names = Some i -> occ' w names k d = d (k + i)%nat.
Proof.
  intros N. revert k i. induction N as [|x m X N IH]; intros k i E; [discriminate|]. cbn in *.
  destruct (way_eq_dec x w) as [->|].
  - injection E as <-. rewrite occ_notin by exact X. rewrite Nat.add_0_r. ring.
  - destruct (index_of w m) as [j|] eqn:F; [|discriminate]. injection E as <-. rewrite (IH (S k) j eq_refl). rewrite Rplus_0_l. f_equal. lia.
Qed.
Lemma undo names d s : add_steps (-1) names 0 d (add_steps 1 names 0 d s) = s.
Proof. apply functional_extensionality. intros w. rewrite !add_steps_spec. ring. Qed.

Lemma fill_row_spec names c row row' (V : way -> R) : NoDup names -> NoDup (map snd c) ->
  (forall w, In w (map snd c) -> forall i, index_of w names = Some i -> row i = 0) ->
  fill_row names c row = Some row' ->
  forall v : vec, (forall i w, nth_error names i = Some w -> v i = V w) ->
  sumn (List.length names) (fun j => row' j * v j) = sumn (List.length names) (fun j => row j * v j) + suml (fun t => fst t * V (snd t)) c.
Proof.
  intros ND. revert row. induction c as [|[k w] c IH]; intros row NC Z E v Hv; cbn in *.
  - injection E as <-. ring.
  - destruct (index_of w names) as [i|] eqn:F; [|discriminate]. inversion NC as [|? ? X Y]; subst.
    rewrite (IH (upd_row row i k) Y) with (v := v); [|clear IH|exact E|exact Hv].
    + destruct (index_some _ _ _ F) as (L & G). rewrite <- (Hv i w G).
      assert (A : sumn (List.length names) (fun j => upd_row row i k j * v j) = sumn (List.length names) (fun j => row j * v j) + k * v i).
      { rewrite (sumn_ext _ _ (fun j => row j * v j + (k * v j) * delta j i)).
        - rewrite sumn_plus, sumn_delta by exact L. reflexivity.
        - intros j J. unfold upd_row, delta. destruct (Nat.eq_dec j i) as [->|]; [|ring]. rewrite (Z w (or_introl eq_refl) i F). ring. }
      rewrite A. ring.
    + intros w' W' i' F'. unfold upd_row. destruct (Nat.eq_dec i' i) as [->|]; [|apply (Z w'); [right; exact W'|exact F']].
      exfalso. apply X. apply index_some in F. apply index_some in F'. destruct F as (_ & F), F' as (_ & F'). congruence.
Qed.
Lemma form_q_spec names lc rows (V : way -> R) : NoDup names -> (forall c, In c lc -> NoDup (map snd c)) ->
  form_matrix_q lc names = Some rows -> List.length rows = List.length lc /\
  forall i c, nth_error lc i = Some c -> forall v : vec, (forall i w, nth_error names i = Some w -> v i = V w) ->
  mulmv (List.length names) (mat_of_rows rows) v i = suml (fun t => fst t * V (snd t)) c.
Proof.
  intros ND. revert rows. induction lc as [|c0 lc IH]; intros rows NC E; cbn in E.
  - injection E as <-. split; [reflexivity|]. intros [|i] c H; discriminate.
  - destruct (fill_row names c0 (fun _ => 0)) as [r|] eqn:F; [|discriminate]. destruct (form_matrix_q lc names) as [rs|] eqn:G; [|discriminate].
    injection E as <-. destruct (IH rs (fun c H => NC c (or_intror H)) eq_refl) as (L & K). split; [cbn; lia|].
    intros [|i] c H v Hv; cbn in H.
    + injection H as <-. unfold mulmv, mat_of_rows. cbn [nth].
      rewrite (fill_row_spec names c0 _ r V ND (NC c0 (or_introl eq_refl)) (fun _ _ _ _ => eq_refl) F v Hv).
      rewrite (sumn_zero _ (fun j => 0 * v j)) by (intros; ring). ring.
    + apply (K i c H v Hv).
Qed.
Lemma iteration_shape inv lc e s d s' : one_iteration inv lc e s = Some (d, s') -> s' = add_steps 1 (e_names e) 0 d s.
Proof.
  unfold one_iteration. destruct (inv _ _) as [h|]; [|discriminate]. destruct lc as [c|].
  - destruct (form_matrix_q c _) as [rows|]; [|discriminate]. destruct (calc_shift_p_by_constraints_hamilton _ _ _ _ _ _) as [sh|]; [|discriminate].
    intros [= <- <-]. reflexivity.
  - intros [= <- <-]. reflexivity.
Qed.
Lemma iteration_constraints inv lc e s d s' : inv_ok inv -> NoDup (e_names e) -> (forall c, In c lc -> NoDup (map snd c)) ->
  one_iteration inv (Some lc) e s = Some (d, s') -> forall c, In c lc -> cval s' c = cval s c.
Proof.
  intros OK ND NC E c I. assert (S' := iteration_shape _ _ _ _ _ _ E). unfold one_iteration in E.
  destruct (inv _ _) as [h|]; [|discriminate]. destruct (form_matrix_q lc _) as [rows|] eqn:Q; [|discriminate].
  destruct (calc_shift_p_by_constraints_hamilton _ _ _ _ _ _) as [sh|] eqn:H; [|discriminate].
  set (d0 := fun i => - mulmv (List.length (e_names e)) h (e_der e) i) in *.
  assert (Ed : d = (fun i => d0 i + sh i)). { cbn zeta in E. injection E as E1 _. symmetry. exact E1. } clear E.
  set (V := fun w => occ' w (e_names e) 0 d).
  destruct (form_q_spec (e_names e) lc rows V ND NC Q) as (_ & K). destruct (In_nth_error _ _ I) as [i Hi].
  assert (Z := hamilton _ _ _ _ _ _ _ OK H i (proj1 (nth_error_Some lc i) ltac:(congruence))). rewrite <- Ed in Z.
  rewrite (K i c Hi d) in Z.
  2: { intros j w W. unfold V. rewrite (occ_nodup w _ 0 d j ND (index_nodup _ _ _ ND W)). reflexivity. }
  unfold cval. transitivity (suml (fun t => fst t * s (snd t)) c + suml (fun t => fst t * V (snd t)) c); [|rewrite Z; ring].
  rewrite <- suml_plus. apply suml_ext. intros t _. rewrite S', add_steps_spec. unfold V. ring.
Qed.

(** ** the loop *)
Section Loop.
Context {C : Type} (inv : nat -> mat -> option mat) (lc : option (list constr)) (ev : bool -> C -> store -> chi_out * C).
Lemma loop_spec fuel : forall e d s c1 c2 same r, lsq_loop inv lc ev fuel e d s c1 c2 same = Some r ->
  forall sp, s = add_steps 1 (e_names e) 0 d sp -> (exists b c, e = fst (ev b c sp)) ->
  (exists b c, l_out r = fst (ev b c (l_store r))) /\ (e_chi (l_out r) < e_chi e \/ l_store r = sp /\ l_out r = e).
Proof.
  induction fuel as [|fuel IH]; intros e d s c1 c2 same r E sp Hs He; cbn in E; [discriminate|].
  destruct (ev true c2 s) as [e2 c2'] eqn:Ev. destruct (one_iteration inv lc e2 s) as [[d2 s2]|] eqn:It; [|discriminate].
  assert (S2 := iteration_shape _ _ _ _ _ _ It). destruct (Rlt_dec (e_chi e2) (e_chi e)) as [L|L].
  - destruct (IH _ _ _ _ _ _ _ E s S2) as (A & B). { exists true, c2. rewrite Ev. reflexivity. }
    split; [exact A|]. left. destruct B as [B|[_ B]]; [lra|rewrite B; exact L].
  - injection E as <-. cbn. rewrite S2, undo, Hs, undo. split; [exact He|right; auto].
Qed.
Lemma lsq_spec fuel empty s r : lsq inv lc ev fuel empty s = Some r ->
  (exists b c, l_out r = fst (ev b c (l_store r))) /\
  (e_chi (l_out r) < e_chi (fst (ev false empty s)) \/ l_store r = s /\ l_out r = fst (ev false empty s)).
Proof.
  unfold lsq. destruct (ev false empty s) as [e c1] eqn:Ev. destruct (one_iteration inv lc e s) as [[d s1]|] eqn:It; [|discriminate].
  intros E. cbn [fst]. apply (loop_spec _ _ _ _ _ _ _ _ E s); [apply (iteration_shape _ _ _ _ _ _ It)|]. exists false, empty. rewrite Ev. reflexivity.
Qed.
(** anything kept by one iteration (from the evaluated point to the next) is kept by the procedure *)
Lemma loop_invariant (P : store -> Prop) : (forall b c s d s', one_iteration inv lc (fst (ev b c s)) s = Some (d, s') -> P s -> P s') ->
  forall fuel empty s r, lsq inv lc ev fuel empty s = Some r -> P s -> P (l_store r).
Proof.
  intros St fuel empty s r. unfold lsq. destruct (ev false empty s) as [e c1] eqn:Ev. destruct (one_iteration inv lc e s) as [[d s1]|] eqn:It; [|discriminate].
  intros E Ps. assert (P1 : P s1). { apply (St false empty s d s1); [rewrite Ev; exact It|exact Ps]. }
  apply iteration_shape in It. clear Ev. revert e d s1 s c1 empty r E Ps P1 It. generalize false.
  induction fuel as [|fuel IH]; intros same e d s1 s c1 c2 r E Ps P1 S1; cbn in E; [discriminate|].
  destruct (ev true c2 s1) as [e2 c2'] eqn:Ev. destruct (one_iteration inv lc e2 s1) as [[d2 s2]|] eqn:It; [|discriminate].
  destruct (Rlt_dec (e_chi e2) (e_chi e)).
  - apply (IH _ _ _ _ s1 _ _ _ E P1); [|apply (iteration_shape _ _ _ _ _ _ It)]. apply (St true c2 s1 d2 s2); [rewrite Ev; exact It|exact P1].
  - injection E as <-. cbn. rewrite (iteration_shape _ _ _ _ _ _ It), undo, S1, undo. exact Ps.
Qed.
End Loop.
