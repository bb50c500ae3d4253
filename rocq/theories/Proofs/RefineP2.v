From Coq Require Import Reals Lra Lia List Arith Ascii String Bool FunctionalExtensionality.
From Verif Require Import Spec.LinN Proofs.LinNP Model.Refine Spec.Refinement Proofs.RefineP.
Import ListNotations.
Open Scope R_scope.

(** ** assembly *)
Definition same_way (w a : way) : R := if way_eq_dec w a then 1 else 0.
Lemma named_0 w l a : named (w :: l) 0 a = same_way w a. Proof. reflexivity. Qed.
Lemma named_S w l i a : named (w :: l) (S i) a = named l i a. Proof. reflexivity. Qed.
Lemma pos_inj names w a : In w names -> In a names -> pos names w = pos names a -> w = a.
Proof.
  intros W A. unfold pos. destruct (index_in _ _ W) as [i Ei], (index_in _ _ A) as [j Ej]. rewrite Ei, Ej. intros ->.
  apply index_some in Ei. apply index_some in Ej. destruct Ei, Ej. congruence.
Qed.
Lemma add_at_pos names v w a x : In w names -> In a names -> add_at v (pos names w) x (pos names a) = v (pos names a) + same_way w a * x.
Proof.
  intros W A. unfold add_at, same_way. destruct (Nat.eq_dec (pos names a) (pos names w)) as [E|N]; destruct (way_eq_dec w a) as [F|F].
  - ring.
  - symmetry in E. apply pos_inj in E; congruence.
  - subst. congruence.
  - ring.
Qed.
Lemma add_at2_pos names m w1 w2 a b x : In w1 names -> In w2 names -> In a names -> In b names ->
  add_at2 m (pos names w1) (pos names w2) x (pos names a) (pos names b) = m (pos names a) (pos names b) + same_way w1 a * same_way w2 b * x.
Proof.
  intros W1 W2 A B. unfold add_at2, same_way.
  destruct (Nat.eq_dec (pos names a) (pos names w1)) as [E|N]; destruct (way_eq_dec w1 a) as [F|F].
  - destruct (Nat.eq_dec (pos names b) (pos names w2)) as [E'|N']; destruct (way_eq_dec w2 b) as [F'|F'].
    + ring.
    + symmetry in E'. apply pos_inj in E'; congruence.
    + subst. congruence.
    + ring.
  - symmetry in E. apply pos_inj in E; congruence.
  - subst. congruence.
  - ring.
Qed.
Lemma acc_row_spec names w1 i1 l k ddc m a b : (forall w, In w l -> In w names) -> In w1 names -> In a names -> In b names ->
  acc_row names (pos names w1) i1 l k ddc m (pos names a) (pos names b) = m (pos names a) (pos names b) +
  sumn (List.length l) (fun j => same_way w1 a * named l j b * ddc i1 (k + j)%nat + named l j a * same_way w1 b * ddc (k + j)%nat i1).
Proof.
  intros L W A B. revert k m. induction l as [|x l IH]; intros k m; [cbn; ring|]. cbn [acc_row List.length]. rewrite IH by (intros; apply L; right; assumption).
  rewrite !add_at2_pos by (try assumption; apply L; left; reflexivity). rewrite sumn_S, !named_0, Nat.add_0_r.
  assert (EX : sumn (List.length l) (fun i => same_way w1 a * named (x :: l) (S i) b * ddc i1 (k + S i)%nat + named (x :: l) (S i) a * same_way w1 b * ddc (k + S i)%nat i1) =
    sumn (List.length l) (fun j => same_way w1 a * named l j b * ddc i1 (S k + j)%nat + named l j a * same_way w1 b * ddc (S k + j)%nat i1)).
  { apply sumn_ext. intros i _. rewrite !named_S. replace (k + S i)%nat with (S k + i)%nat by lia. reflexivity. }
  rewrite EX. ring.
Qed.
Lemma acc_exp_spec names l i1 dc ddc v m a b : (forall w, In w l -> In w names) -> In a names -> In b names ->
  let '(v', m') := acc_exp names l i1 dc ddc (v, m) in
  v' (pos names a) = v (pos names a) + sumn (List.length l) (fun i => named l i a * dc (i1 + i)%nat) /\
  m' (pos names a) (pos names b) = m (pos names a) (pos names b) +
    sumn (List.length l) (fun i => sumn (List.length l) (fun j => named l i a * named l j b * ddc (i1 + i)%nat (i1 + j)%nat)).
Proof.
  intros L A B. revert i1 v m. induction l as [|x l IH]; intros i1 v m; [cbn; split; ring|]. cbn [acc_exp List.length].
  assert (X : In x names) by (apply L; left; reflexivity). assert (L' : forall w, In w l -> In w names) by (intros; apply L; right; assumption).
  specialize (IH L' (S i1) (add_at v (pos names x) (dc i1)) (acc_row names (pos names x) i1 l (S i1) ddc (add_at2 m (pos names x) (pos names x) (ddc i1 i1)))).
  destruct (acc_exp names l (S i1) dc ddc _) as [v' m']. destruct IH as (E1 & E2). split.
  - rewrite E1, add_at_pos by assumption. rewrite sumn_S, named_0, Nat.add_0_r.
    assert (EX : sumn (List.length l) (fun i => named (x :: l) (S i) a * dc (i1 + S i)%nat) = sumn (List.length l) (fun i => named l i a * dc (S i1 + i)%nat)).
    { apply sumn_ext. intros i _. rewrite named_S. do 2 f_equal. lia. }
    rewrite EX. ring.
  - rewrite E2, acc_row_spec, add_at2_pos by assumption. rewrite sumn_S. rewrite sumn_S, !named_0, !Nat.add_0_r.
    rewrite (sumn_ext (List.length l) (fun i => sumn (S (List.length l)) _)
      (fun i => named l i a * same_way x b * ddc (S i1 + i)%nat i1 + sumn (List.length l) (fun j => named l i a * named l j b * ddc (S i1 + i)%nat (S i1 + j)%nat))).
    2: { intros i _. rewrite sumn_S, named_0, named_S, Nat.add_0_r. replace (i1 + S i)%nat with (S i1 + i)%nat by lia. f_equal.
         apply sumn_ext. intros j _. rewrite !named_S. replace (i1 + S j)%nat with (S i1 + j)%nat by lia. reflexivity. }
    rewrite sumn_plus. 
    assert (EX : sumn (List.length l) (fun i => same_way x a * named (x :: l) (S i) b * ddc i1 (i1 + S i)%nat) = sumn (List.length l) (fun i => same_way x a * named l i b * ddc i1 (S i1 + i)%nat)).
    { apply sumn_ext. intros i _. rewrite named_S. do 2 f_equal. lia. }
    rewrite EX, sumn_plus. ring.
Qed.
Lemma fold_chi exps x : fold_left (fun a e => a + e_chi e) exps x = x + suml e_chi exps.
Proof. revert x. induction exps as [|e l IH]; intros x; cbn; [ring|]. rewrite IH. ring. Qed.
Lemma fold_n exps x : fold_left (fun a e => a + e_n e)%nat exps x = (x + list_sum (map e_n exps))%nat.
Proof. revert x. induction exps as [|e l IH]; intros x; [cbn; lia|]. cbn [fold_left map]. rewrite IH. cbn. unfold list_sum. lia. Qed.
Lemma assemble_spec names exps : (forall e w, In e exps -> In w (e_names e) -> In w names) ->
  let t := assemble names exps in
  e_chi t = suml e_chi exps /\ e_n t = list_sum (map e_n exps) /\ e_names t = names /\
  forall a b, In a names -> In b names ->
    e_der t (pos names a) = suml (fun e => sumn (List.length (e_names e)) (fun i => named (e_names e) i a * e_der e i)) exps /\
    e_dder t (pos names a) (pos names b) =
      suml (fun e => sumn (List.length (e_names e)) (fun i => sumn (List.length (e_names e)) (fun j => named (e_names e) i a * named (e_names e) j b * e_dder e i j))) exps.
Proof.
  intros H. unfold assemble.
  assert (G : forall exps (v : vec) (m : mat), (forall e w, In e exps -> In w (e_names e) -> In w names) -> forall a b, In a names -> In b names ->
    let '(v', m') := fold_left (fun st e => acc_exp names (e_names e) 0 (e_der e) (e_dder e) st) exps (v, m) in
    v' (pos names a) = v (pos names a) + suml (fun e => sumn (List.length (e_names e)) (fun i => named (e_names e) i a * e_der e i)) exps /\
    m' (pos names a) (pos names b) = m (pos names a) (pos names b) + suml (fun e => sumn (List.length (e_names e)) (fun i => sumn (List.length (e_names e)) (fun j => named (e_names e) i a * named (e_names e) j b * e_dder e i j))) exps).
  { clear. intros exps. induction exps as [|e exps IH]; intros v m H a b A B; [cbn; split; ring|]. cbn [fold_left].
    assert (E := acc_exp_spec names (e_names e) 0 (e_der e) (e_dder e) v m a b (fun w => H e w (or_introl eq_refl)) A B). cbn [Nat.add] in E.
    destruct (acc_exp names (e_names e) 0 (e_der e) (e_dder e) (v, m)) as [v1 m1]. destruct E as (E1 & E2).
    specialize (IH v1 m1 (fun e' w I => H e' w (or_intror I)) a b A B). destruct (fold_left _ exps (v1, m1)) as [v' m']. destruct IH as (F1 & F2).
    rewrite F1, F2, E1, E2. cbn [suml]. split; ring. }
  set (st0 := ((fun _ => 0) : vec, (fun _ _ => 0) : mat)). specialize (G exps (fst st0) (snd st0) H). change (fst st0, snd st0) with st0 in G.
  match goal with |- context [fold_left ?f exps (?x, ?y)] => change (fold_left f exps (x, y)) with (fold_left (fun st e => acc_exp names (e_names e) 0 (e_der e) (e_dder e) st) exps st0) end.
  destruct (fold_left (fun st e => acc_exp names (e_names e) 0 (e_der e) (e_dder e) st) exps st0) as [v' m'] eqn:F. cbn zeta. cbn [e_chi e_n e_names e_der e_dder].
  rewrite fold_chi, fold_n. split; [apply Rplus_0_l|]. split; [reflexivity|]. split; [reflexivity|]. intros a b A B.
  destruct (G a b A B) as (G1 & G2). rewrite G1, G2. cbn. split; ring.
Qed.

(** ** constrained evaluation *)
Lemma upd_same s w v : upd s w v w = v. Proof. unfold upd. destruct (way_eq_dec w w); congruence. Qed.
Lemma upd_other s w v w' : w' <> w -> upd s w v w' = s w'. Proof. unfold upd. destruct (way_eq_dec w' w); congruence. Qed.
Lemma set_params_out names p s w : ~ In w names -> set_params names p s w = s w.
Proof. revert p s. induction names as [|x m IH]; intros [|v q] s N; cbn; try reflexivity. rewrite IH by (intros H; apply N; right; exact H). apply upd_other. intros ->. apply N. left. reflexivity. Qed.
Lemma set_params_in names p s i w v : NoDup names -> nth_error names i = Some w -> nth_error p i = Some v -> set_params names p s w = v.
Proof.
  revert p s i. induction names as [|x m IH]; intros [|y q] s [|i] N E F; cbn in *; try discriminate; inversion N; subst.
  - injection E as ->. injection F as ->. rewrite set_params_out by assumption. apply upd_same.
  - apply (IH q _ i); assumption.
Qed.
Lemma constrained_out free p lc s s' w : set_constrained free p lc s = Some s' -> ~ In w (names_fixed lc) -> s' w = s w.
Proof.
  revert s. induction lc as [|[[c0 f] [c1 g]] lc IH]; intros s E N; cbn in *; [congruence|].
  destruct (index_of f free) as [i|]; [|discriminate]. destruct (nth_error p i) as [v|]; [|discriminate].
  rewrite (IH _ E) by (intros H; apply N; right; exact H). apply upd_other. intros ->. apply N. left. reflexivity.
Qed.
Lemma constrained_in free p lc s s' : NoDup (names_fixed lc) -> set_constrained free p lc s = Some s' ->
  forall c0 f c1 g, In ((c0, f), (c1, g)) lc -> exists i v, index_of f free = Some i /\ nth_error p i = Some v /\ s' g = - c1 / c0 * v.
Proof.
  revert s. induction lc as [|[[a0 f0] [a1 g0]] lc IH]; intros s N E c0 f c1 g I; cbn in *; [contradiction|].
  destruct (index_of f0 free) as [i|] eqn:F; [|discriminate]. destruct (nth_error p i) as [v|] eqn:P; [|discriminate].
  inversion N; subst. destruct I as [I|I].
  - injection I as -> -> -> ->. exists i, v. split; [exact F|]. split; [exact P|]. rewrite (constrained_out _ _ _ _ _ _ E) by assumption. apply upd_same.
  - apply (IH _ H2 E _ _ _ _ I).
Qed.
Lemma free_in lc names w : In w (names_free lc names) <-> In w names /\ ~ In w (names_fixed lc).
Proof. unfold names_free. rewrite filter_In. destruct (in_dec way_eq_dec w (names_fixed lc)); intuition congruence. Qed.
Lemma free_nodup lc names : NoDup names -> NoDup (names_free lc names).
Proof. apply NoDup_filter. Qed.
(** residual of a constraint at the evaluated store *)
Lemma tempfunc_residual lc names p s s' : NoDup names -> NoDup (names_fixed lc) -> tempfunc_store lc names p s = Some s' ->
  forall c0 f c1 g, In ((c0, f), (c1, g)) lc -> c0 <> 0 -> c0 * s' f + c1 * s' g = (c0 ^ 2 - c1 ^ 2) / c0 * s' f.
Proof.
  intros N NF E c0 f c1 g I C. unfold tempfunc_store in E. destruct (constrained_in _ _ _ _ _ NF E _ _ _ _ I) as (i & v & F & P & G).
  destruct (index_some _ _ _ F) as (_ & F'). assert (Fr := nth_error_In _ _ F'). apply free_in in Fr.
  assert (S : s' f = v). { rewrite (constrained_out _ _ _ _ _ _ E) by apply Fr. apply (set_params_in _ _ _ i); [apply free_nodup; exact N|exact F'|exact P]. }
  rewrite G, S. field. exact C.
Qed.
Lemma tempfunc_ok lc names p s : List.length p = List.length (names_free lc names) ->
  (forall c0 f c1 g, In ((c0, f), (c1, g)) lc -> In f names /\ ~ In f (names_fixed lc)) -> exists s', tempfunc_store lc names p s = Some s'.
Proof.
  intros L H. unfold tempfunc_store. generalize (set_params (names_free lc names) p s). 
  assert (G : forall c, In c lc -> In (snd (fst c)) (names_free lc names)).
  { intros [[c0 f] [c1 g]] I. cbn. apply free_in. apply (H _ _ _ _ I). }
  clear H. set (free := names_free lc names) in *. clearbody free. revert G. clear s. induction lc as [|[[c0 f] [c1 g]] lc IH]; intros G s; cbn; [eauto|].
  destruct (index_in f free (G _ (or_introl eq_refl))) as [i E]. rewrite E. destruct (nth_error p i) as [v|] eqn:P.
  - apply IH. intros; apply G; right; assumption.
  - exfalso. apply nth_error_None in P. apply index_some in E. lia.
Qed.
(** the last evaluation decides *)
Lemma constrained_ext free p lc s1 s2 t1 t2 : set_constrained free p lc s1 = Some t1 -> set_constrained free p lc s2 = Some t2 ->
  forall w, In w (names_fixed lc) \/ s1 w = s2 w -> t1 w = t2 w.
Proof.
  revert s1 s2. induction lc as [|[[c0 f] [c1 g]] lc IH]; intros s1 s2 E1 E2 w H; cbn in *.
  - destruct H as [[]|H]. congruence.
  - destruct (index_of f free) as [i|]; [|discriminate]. destruct (nth_error p i) as [v|]; [|discriminate].
    apply (IH _ _ E1 E2). destruct (in_dec way_eq_dec w (names_fixed lc)); [left; assumption|right].
    destruct (way_eq_dec w g) as [->|N]; [rewrite !upd_same; reflexivity|]. rewrite !upd_other by exact N.
    destruct H as [[H|H]|H]; [congruence|contradiction|exact H].
Qed.
Lemma set_params_same names p s1 s2 w : List.length p = List.length names -> In w names -> set_params names p s1 w = set_params names p s2 w.
Proof.
  revert p s1 s2. induction names as [|x m IH]; intros [|v q] s1 s2 L I; cbn in *; try discriminate; [contradiction|].
  destruct (in_dec way_eq_dec w m) as [J|J]; [apply IH; [lia|exact J]|]. destruct I as [->|I]; [|contradiction].
  rewrite !set_params_out by exact J. rewrite !upd_same. reflexivity.
Qed.
Lemma tempfunc_history lc names p s1 s2 t1 t2 : List.length p = List.length (names_free lc names) ->
  (forall w, ~ In w names -> ~ In w (names_fixed lc) -> s1 w = s2 w) ->
  tempfunc_store lc names p s1 = Some t1 -> tempfunc_store lc names p s2 = Some t2 -> t1 = t2.
Proof.
  intros L H E1 E2. apply functional_extensionality. intros w. apply (constrained_ext _ _ _ _ _ _ _ E1 E2).
  destruct (in_dec way_eq_dec w (names_fixed lc)) as [|N]; [left; assumption|right].
  destruct (in_dec way_eq_dec w names) as [I|I].
  - apply set_params_same; [exact L|]. apply free_in. auto.
  - rewrite !set_params_out by (intros J; apply free_in in J; tauto). apply H; assumption.
Qed.
Lemma tempfunc_out lc names p s t w : tempfunc_store lc names p s = Some t -> ~ In w names -> ~ In w (names_fixed lc) -> t w = s w.
Proof. intros E N F. rewrite (constrained_out _ _ _ _ _ _ E F). apply set_params_out. intros J. apply free_in in J. tauto. Qed.
Lemma minimise_last lc names pts p s s' t : List.length p = List.length (names_free lc names) ->
  minimise_store lc names (pts ++ [p]) s = Some s' -> tempfunc_store lc names p s = Some t -> s' = t.
Proof.
  intros L. cut (forall s1, (forall w, ~ In w names -> ~ In w (names_fixed lc) -> s1 w = s w) -> minimise_store lc names (pts ++ [p]) s1 = Some s' -> tempfunc_store lc names p s = Some t -> s' = t).
  { intros K. apply K. reflexivity. }
  induction pts as [|q pts IH]; intros s1 H E F; cbn in E.
  - destruct (tempfunc_store lc names p s1) as [t1|] eqn:G; [|discriminate]. injection E as <-. apply (tempfunc_history _ _ _ _ _ _ _ L H G F).
  - destruct (tempfunc_store lc names q s1) as [t1|] eqn:G; [|discriminate]. apply (IH t1); [|exact E|exact F].
    intros w N M. rewrite (tempfunc_out _ _ _ _ _ _ G N M). apply H; assumption.
Qed.

(** ** marks *)
Lemma label_constr_in label vars c0 f c1 g : In ((c0, f), (c1, g)) (label_constraints label vars) ->
  exists m1 m2, In (m1, f) vars /\ In (m2, g) vars /\ rstrip_pm m1 = label /\ rstrip_pm m2 = label /\ c0 = msign m1 /\ c1 = - msign m2.
Proof.
  induction vars as [|[m1 n1] rest IH]; cbn; [intros []|]. destruct (String.eqb_spec (rstrip_pm m1) label) as [E|N].
  - unfold later_constraints. intros I. apply in_map_iff in I. destruct I as ([m2 n2] & Eq & I). apply filter_In in I. destruct I as (I & L).
    apply String.eqb_eq in L. cbn in *. injection Eq as <- <- <- <-. exists m1, m2. repeat split; auto. 
    unfold msign. destruct (endswith_minus m2); lra.
  - intros I. destruct (IH I) as (a & b & A & B & K). exists a, b. tauto.
Qed.
Lemma label_fixed label vars : exists h, names_fixed (label_constraints label vars) = tl (map snd (filter (fun v => String.eqb (rstrip_pm (fst v)) label) vars)) /\
  h = hd_error (map snd (filter (fun v => String.eqb (rstrip_pm (fst v)) label) vars)) /\ (forall c, In c (label_constraints label vars) -> h = Some (snd (fst c))).
Proof.
  induction vars as [|[m1 n1] rest IH]; cbn; [exists None; repeat split; intros c []|]. destruct (String.eqb (rstrip_pm m1) label) eqn:E; [|exact IH].
  cbn. exists (Some n1). split; [|split; [reflexivity|]].
  - unfold names_fixed, later_constraints. rewrite map_map. reflexivity.
  - intros c I. unfold later_constraints in I. apply in_map_iff in I. destruct I as (v & <- & _). reflexivity.
Qed.
Lemma in_tl {A} (x : A) l : In x (tl l) -> In x l. Proof. destruct l; cbn; auto. Qed.
Lemma nodup_filter_map {A B} (f : A -> B) (q : A -> bool) l : NoDup (map f l) -> NoDup (map f (filter q l)).
Proof.
  induction l as [|a l IH]; cbn; intros N; [constructor|]. inversion N; subst. destruct (q a); [|auto]. cbn. constructor; [|auto].
  intros I. apply H1. apply in_map_iff in I. destruct I as (x & E & I). apply filter_In in I. apply in_map_iff. exists x. tauto.
Qed.
Lemma same_name (vars : list (string * way)) m m' n : NoDup (map snd vars) -> In (m, n) vars -> In (m', n) vars -> m = m'.
Proof.
  induction vars as [|[a b] l IH]; cbn; [intros _ []|]. intros N I J. inversion N; subst. destruct I as [I|I], J as [J|J].
  - congruence.
  - injection I as <- <-. exfalso. apply H1. apply (in_map snd) in J. exact J.
  - injection J as <- <-. exfalso. apply H1. apply (in_map snd) in I. exact I.
  - auto.
Qed.
Lemma fixed_in label vars n : In n (names_fixed (label_constraints label vars)) -> exists m, In (m, n) vars /\ rstrip_pm m = label.
Proof.
  destruct (label_fixed label vars) as (h & E & _). rewrite E. intros I. apply in_tl in I. apply in_map_iff in I. destruct I as ([m n'] & <- & I).
  apply filter_In in I. destruct I as (I & L). apply String.eqb_eq in L. exists m. auto.
Qed.
Lemma mark_fixed_nodup labels vars : NoDup labels -> NoDup (map snd vars) -> NoDup (names_fixed (mark_constraints labels vars)).
Proof.
  intros NL NV. unfold mark_constraints. induction NL as [|l labels X NL IH]; cbn; [constructor|].
  unfold names_fixed. rewrite map_app. change (NoDup (names_fixed (label_constraints l vars) ++ names_fixed (flat_map (fun l => label_constraints l vars) labels))).
  assert (D : forall n, In n (names_fixed (label_constraints l vars)) -> ~ In n (names_fixed (flat_map (fun l => label_constraints l vars) labels))).
  { intros n I J. apply fixed_in in I. destruct I as (m & I & L). unfold names_fixed in J. apply in_map_iff in J. destruct J as (c & E & J).
    apply in_flat_map in J. destruct J as (l' & L' & J). assert (K : In n (names_fixed (label_constraints l' vars))) by (unfold names_fixed; apply in_map_iff; exists c; auto).
    apply fixed_in in K. destruct K as (m' & I' & E'). rewrite (same_name vars m m' n NV I I') in L. congruence. }
  assert (N1 : NoDup (names_fixed (label_constraints l vars))).
  { destruct (label_fixed l vars) as (h & E & _). rewrite E. assert (M := nodup_filter_map snd (fun v => String.eqb (rstrip_pm (fst v)) l) vars NV).
    destruct (map snd (filter _ vars)); cbn; [constructor|]. inversion M; assumption. }
  revert D N1. generalize (names_fixed (label_constraints l vars)). intros L D N1. induction N1 as [|a L Y N1 IH1]; cbn; [exact IH|].
  constructor; [|apply IH1; intros; apply D; right; assumption]. rewrite in_app_iff. intros [H|H]; [contradiction|]. apply (D a (or_introl eq_refl) H).
Qed.
Lemma mark_first_free labels vars : NoDup labels -> NoDup (map snd vars) -> forall c0 f c1 g, In ((c0, f), (c1, g)) (mark_constraints labels vars) ->
  ~ In f (names_fixed (mark_constraints labels vars)).
Proof.
  intros NL NV c0 f c1 g I J. unfold mark_constraints in I. apply in_flat_map in I. destruct I as (l & L & I).
  destruct (label_constr_in _ _ _ _ _ _ I) as (m1 & m2 & I1 & I2 & L1 & L2 & _).
  unfold names_fixed in J. apply in_map_iff in J. destruct J as (c & E & J). apply in_flat_map in J. destruct J as (l' & L' & J).
  assert (K : In f (names_fixed (label_constraints l' vars))) by (unfold names_fixed; apply in_map_iff; exists c; auto).
  assert (K' := K). apply fixed_in in K'. destruct K' as (m' & I' & E'). rewrite (same_name vars m' m1 f NV I' I1) in E'.
  assert (EL : l' = l) by congruence. subst l'. destruct (label_fixed l vars) as (h & F & HH & G). rewrite (G _ I) in HH. cbn in HH.
  rewrite EL, F in K.
  assert (M := nodup_filter_map snd (fun v => String.eqb (rstrip_pm (fst v)) l) vars NV). destruct (map snd (filter _ vars)) as [|x q]; [discriminate|].
  cbn in *. injection HH as <-. inversion M; contradiction.
Qed.
(** the first variable with the label is tied to each of the others *)
Lemma label_complete label vars m n : In (m, n) vars -> rstrip_pm m = label ->
  exists m1 n1, In (m1, n1) vars /\ ((m, n) = (m1, n1) \/ In ((msign m1, n1), (- msign m, n)) (label_constraints label vars)) /\
  hd_error (filter (fun v => String.eqb (rstrip_pm (fst v)) label) vars) = Some (m1, n1).
Proof.
  induction vars as [|[a b] rest IH]; cbn; [intros []|]. intros I E. destruct (String.eqb (rstrip_pm a) label) eqn:L.
  - exists a, b. split; [auto|]. split; [|reflexivity]. destruct I as [I|I]; [left; congruence|right]. unfold later_constraints. apply in_map_iff. exists (m, n).
    split; [cbn; unfold msign; destruct (endswith_minus m), (endswith_minus a); f_equal; f_equal; lra|]. apply filter_In. split; [exact I|]. cbn. apply String.eqb_eq. exact E.
  - destruct I as [I|I]; [injection I as -> ->; rewrite (proj2 (String.eqb_eq _ _) E) in L; discriminate|].
    destruct (IH I E) as (m1 & n1 & A & B & D). exists m1, n1. auto.
Qed.
Lemma msign_sq m : msign m ^ 2 = 1. Proof. unfold msign. destruct (endswith_minus m); ring. Qed.
Lemma msign_nz m : msign m <> 0. Proof. unfold msign. destruct (endswith_minus m); lra. Qed.
Lemma marks_hold labels vars names p s s' : NoDup labels -> NoDup (map snd vars) -> NoDup names ->
  (forall m n, In (m, n) vars -> rstrip_pm m <> EmptyString -> In (rstrip_pm m) labels) ->
  tempfunc_store (mark_constraints labels vars) names p s = Some s' ->
  forall m1 n1 m2 n2, In (m1, n1) vars -> In (m2, n2) vars -> rstrip_pm m1 = rstrip_pm m2 -> rstrip_pm m1 <> EmptyString ->
  msign m1 * s' n1 = msign m2 * s' n2.
Proof.
  intros NL NV NN LB E m1 n1 m2 n2 I1 I2 EQ NE.
  assert (NF := mark_fixed_nodup labels vars NL NV).
  assert (T : forall m1 n1 m2 n2, rstrip_pm m1 <> EmptyString -> In (m1, n1) vars -> In ((msign m1, n1), (- msign m2, n2)) (label_constraints (rstrip_pm m1) vars) -> msign m1 * s' n1 = msign m2 * s' n2).
  { clear m1 n1 m2 n2 I1 I2 EQ NE. intros m1 n1 m2 n2 NE I1 J.
    assert (K : In ((msign m1, n1), (- msign m2, n2)) (mark_constraints labels vars)) by (unfold mark_constraints; apply in_flat_map; exists (rstrip_pm m1); split; [apply (LB _ n1 I1 NE)|exact J]).
    assert (Z := tempfunc_residual _ _ _ _ _ NN NF E _ _ _ _ K (msign_nz m1)).
    replace (msign m1 ^ 2 - (- msign m2) ^ 2) with 0 in Z by (replace ((- msign m2) ^ 2) with (msign m2 ^ 2) by ring; rewrite !msign_sq; ring).
    unfold Rdiv in Z. lra. }
  destruct (label_complete (rstrip_pm m1) vars m1 n1 I1 eq_refl) as (a & b & A & B & D).
  destruct (label_complete (rstrip_pm m1) vars m2 n2 I2 (eq_sym EQ)) as (a' & b' & A' & B' & D').
  assert (a' = a /\ b' = b) by (rewrite D in D'; injection D' as -> ->; auto). destruct H as (-> & ->).
  assert (La : rstrip_pm a = rstrip_pm m1).
  { destruct (filter _ vars) as [|x l] eqn:F; [discriminate|]. cbn in D. injection D as ->. assert (X : In (a, b) (filter (fun v => String.eqb (rstrip_pm (fst v)) (rstrip_pm m1)) vars)) by (rewrite F; left; reflexivity).
    apply filter_In in X. apply String.eqb_eq. apply X. }
  assert (Na : rstrip_pm a <> EmptyString) by congruence. rewrite <- La in B, B'.
  assert (X1 : msign a * s' b = msign m1 * s' n1) by (destruct B as [B|B]; [congruence|apply T; assumption]).
  assert (X2 : msign a * s' b = msign m2 * s' n2) by (destruct B' as [B'|B']; [congruence|apply T; assumption]).
  lra.
Qed.
