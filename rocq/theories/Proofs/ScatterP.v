From Coq Require Import Reals ZArith List Bool Lra Lia Permutation.
From Coquelicot Require Import Complex.
From Verif Require Import Spec.Lin3 Spec.Cell Spec.Symm Spec.Scatter Proofs.SymmBaseP Proofs.SymmGroupP Model.Symmetry.
Import ListNotations.
Open Scope list_scope.
Open Scope R_scope.

Lemma c_eq : forall a b : C, fst a = fst b -> snd a = snd b -> a = b.
Proof. intros [a1 a2] [b1 b2] H1 H2; cbn in *; congruence. Qed.

(* ---- phase ---- *)
Lemma phase_add : forall a b, phase (a + b) = Cmult (phase a) (phase b).
Proof.
  intros a b. apply c_eq; unfold phase, Cmult; cbn [fst snd];
  replace (2 * PI * (a + b)) with (2 * PI * a + 2 * PI * b) by ring; [rewrite cos_plus|rewrite sin_plus]; ring.
Qed.
Lemma phase_0 : phase 0 = RtoC 1.
Proof. apply c_eq; unfold phase, RtoC; cbn [fst snd]; rewrite Rmult_0_r; [apply cos_0|rewrite sin_0; ring]. Qed.
Lemma phase_int : forall n : Z, phase (IZR n) = RtoC 1.
Proof.
  intros n. apply c_eq; unfold phase, RtoC; cbn [fst snd].
  - replace (2 * PI * IZR n) with (0 + 2 * IZR n * PI) by ring.
    destruct (Z_le_gt_dec 0 n) as [H|H].
    + rewrite <- (Z2Nat.id n H), <- INR_IZR_INZ. rewrite cos_period. apply cos_0.
    + rewrite <- (cos_neg (0 + _)). replace (- (0 + 2 * IZR n * PI)) with (0 + 2 * IZR (- n) * PI) by (rewrite opp_IZR; ring).
      rewrite <- (Z2Nat.id (- n) ltac:(lia)), <- INR_IZR_INZ. rewrite cos_period. apply cos_0.
  - replace (2 * PI * IZR n) with (0 + 2 * IZR n * PI) by ring.
    destruct (Z_le_gt_dec 0 n) as [H|H].
    + rewrite <- (Z2Nat.id n H), <- INR_IZR_INZ. rewrite sin_period, sin_0. ring.
    + rewrite <- (Ropp_involutive (0 + 2 * IZR n * PI)), sin_neg.
      replace (- (0 + 2 * IZR n * PI)) with (0 + 2 * IZR (- n) * PI) by (rewrite opp_IZR; ring).
      rewrite <- (Z2Nat.id (- n) ltac:(lia)), <- INR_IZR_INZ. rewrite sin_period, sin_0. ring.
Qed.
Lemma phase_conj : forall a, Cconj (phase a) = phase (- a).
Proof.
  intros a. apply c_eq; unfold phase, Cconj; cbn [fst snd]; replace (2 * PI * - a) with (- (2 * PI * a)) by ring;
  [rewrite cos_neg|rewrite sin_neg]; ring.
Qed.
Lemma phase_shift : forall a (n : Z), phase (a + IZR n) = phase a.
Proof. intros. rewrite phase_add, phase_int. ring. Qed.
Lemma phase_mod : forall a, Cmod (phase a) = 1.
Proof.
  intros a. unfold Cmod, phase. cbn [fst snd].
  replace (cos (2 * PI * a) ^ 2 + (- sin (2 * PI * a)) ^ 2) with (Rsqr (sin (2 * PI * a)) + Rsqr (cos (2 * PI * a))) by (unfold Rsqr; ring).
  rewrite sin2_cos2. apply sqrt_1.
Qed.
Lemma phase_ne0 : forall a, phase a <> RtoC 0.
Proof. intros a H. pose proof (phase_mod a) as M. rewrite H, Cmod_0 in M. lra. Qed.

Lemma hdot_add : forall h x y, hdot h (fun i => x i + y i) = hdot h x + hdot h y.
Proof. intros. unfold hdot, sum3. ring. Qed.
Lemma hdot_ext : forall h x y, (forall i, x i = y i) -> hdot h x = hdot h y.
Proof. intros h x y H. unfold hdot, sum3. rewrite !H. reflexivity. Qed.
Lemma phase_same : forall h x y, same_point x y -> phase (hdot h x) = phase (hdot h y).
Proof.
  intros h x y H. destruct (H X1) as [n1 E1], (H X2) as [n2 E2], (H X3) as [n3 E3].
  rewrite <- (phase_shift (hdot h y) (vget h X1 * n1 + vget h X2 * n2 + vget h X3 * n3)).
  f_equal. rewrite !plus_IZR, !mult_IZR. unfold hdot, sum3. rewrite E1, E2, E3. ring.
Qed.

(* ---- sums ---- *)
Lemma csum_app : forall l m, csum (l ++ m) = Cplus (csum l) (csum m).
Proof. induction l as [|x l IH]; intros m; cbn [map fold_right csum app]; [unfold csum; cbn [fold_right]; ring|]. unfold csum in *. cbn [fold_right]. rewrite IH. ring. Qed.
Lemma csum_perm : forall l m, Permutation l m -> csum l = csum m.
Proof.
  intros l m H. unfold csum. induction H as [|x l m H IH|x y l|l m n H1 IH1 H2 IH2]; cbn [fold_right].
  - reflexivity.
  - rewrite IH. reflexivity.
  - rewrite !Cplus_assoc, (Cplus_comm y x). reflexivity.
  - congruence.
Qed.
Lemma csum_scal : forall A (f : A -> C) c l, csum (map (fun x => Cmult c (f x)) l) = Cmult c (csum (map f l)).
Proof. intros A f c l. induction l as [|x l IH]; cbn [map fold_right csum app]; [unfold csum; cbn [fold_right]; ring|]. unfold csum in *. cbn [fold_right]. rewrite IH. ring. Qed.
Lemma csum_scal_r : forall A (f : A -> C) c l, csum (map (fun x => Cmult (f x) c) l) = Cmult (csum (map f l)) c.
Proof. intros A f c l. induction l as [|x l IH]; cbn [map fold_right csum app]; [unfold csum; cbn [fold_right]; ring|]. unfold csum in *. cbn [fold_right]. rewrite IH. ring. Qed.
Lemma csum_plus : forall A (f g : A -> C) l, csum (map (fun x => Cplus (f x) (g x)) l) = Cplus (csum (map f l)) (csum (map g l)).
Proof. intros A f g l. induction l as [|x l IH]; cbn [map fold_right csum app]; [unfold csum; cbn [fold_right]; ring|]. unfold csum in *. cbn [fold_right]. rewrite IH. ring. Qed.
Lemma csum_ext : forall A (f g : A -> C) l, (forall x, In x l -> f x = g x) -> csum (map f l) = csum (map g l).
Proof. intros. f_equal. apply map_ext_in. assumption. Qed.
Lemma csum_conj : forall A (f : A -> C) l, csum (map (fun x => Cconj (f x)) l) = Cconj (csum (map f l)).
Proof.
  intros A f l. induction l as [|x l IH]; cbn; [apply c_eq; cbn; ring|]. unfold csum in IH. rewrite IH.
  apply c_eq; cbn; ring.
Qed.
Lemma csum_flat_map : forall A B (f : B -> C) (g : A -> list B) l,
  csum (map f (flat_map g l)) = csum (map (fun a => csum (map f (g a))) l).
Proof. intros. induction l as [|x l IH]; cbn; [reflexivity|]. rewrite map_app, csum_app, IH. reflexivity. Qed.
Lemma csum_const : forall A (f : A -> C) c l, (forall x, In x l -> f x = c) -> csum (map f l) = Cmult (RtoC (INR (length l))) c.
Proof.
  intros A f c l. induction l as [|x l IH]; intros H; [cbn; ring|].
  change (csum (map f (x :: l))) with (Cplus (f x) (csum (map f l))). rewrite IH by (intros; apply H; right; assumption).
  rewrite (H x (or_introl eq_refl)). change (length (x :: l)) with (S (length l)). rewrite S_INR, RtoC_plus. ring.
Qed.
Lemma cconj_mult : forall a b, Cconj (Cmult a b) = Cmult (Cconj a) (Cconj b).
Proof. intros [a1 a2] [b1 b2]. apply c_eq; cbn; ring. Qed.
Lemma cconj_plus : forall a b, Cconj (Cplus a b) = Cplus (Cconj a) (Cconj b).
Proof. intros [a1 a2] [b1 b2]. apply c_eq; cbn; ring. Qed.
Lemma cconj_R : forall x, Cconj (RtoC x) = RtoC x.
Proof. intros. apply c_eq; cbn; ring. Qed.
Lemma cconj_inv : forall z, Cconj (Cconj z) = z.
Proof. intros [a b]. apply c_eq; cbn; ring. Qed.
Lemma cconj_real : forall z, Cconj z = z <-> real_valued z.
Proof.
  intros [a b]. unfold real_valued. cbn. split; intros H.
  - injection H as H. lra.
  - apply c_eq; cbn; lra.
Qed.

(* ---- matchings ---- *)
Lemma rel_perm : forall {A B : Type} (P : A -> B -> Prop) (la : list A) (lb : list B),
  ForallOrdPairs (fun a a' => forall b, P a b -> P a' b -> False) la ->
  (forall a, In a la -> exists b, In b lb /\ P a b) ->
  exists lb' rest, Forall2 P la lb' /\ Permutation lb (lb' ++ rest).
Proof.
  intros A B P la. induction la as [|a la IH]; intros lb Hp Hex.
  { exists [], lb. split; [constructor|apply Permutation_refl]. }
  inversion Hp as [|x l Hall Hrest]; subst.
  destruct (Hex a (or_introl eq_refl)) as (b & Hb & Pab).
  apply in_split in Hb. destruct Hb as (l1 & l2 & ->).
  destruct (IH (l1 ++ l2) Hrest) as (lb' & rest & F & Pm).
  { intros a' Ha'. destruct (Hex a' (or_intror Ha')) as (b' & Hb' & Pb').
    exists b'. split; [|exact Pb']. apply in_app_or in Hb'. apply in_or_app.
    destruct Hb' as [|[->|]]; [left; assumption| |right; assumption].
    exfalso. rewrite Forall_forall in Hall. exact (Hall a' Ha' b' Pab Pb'). }
  exists (b :: lb'), rest. split; [constructor; assumption|].
  apply Permutation_trans with (b :: (l1 ++ l2)); [apply Permutation_sym, Permutation_middle|].
  cbn. constructor. exact Pm.
Qed.
Lemma forall2_len : forall (A B : Type) (P : A -> B -> Prop) la lb, Forall2 P la lb -> length la = length lb.
Proof. intros A B P la lb H. induction H; cbn; congruence. Qed.
Lemma csum_match : forall A (P : A -> A -> Prop) (f g : A -> C) l,
  ForallOrdPairs (fun a a' => forall b, P a b -> P a' b -> False) l ->
  (forall a, In a l -> exists b, In b l /\ P a b) ->
  (forall a b, In a l -> P a b -> f a = g b) ->
  csum (map f l) = csum (map g l).
Proof.
  intros A P f g l H1 H2 H3. destruct (rel_perm P l l H1 H2) as (l' & rest & F & Pm).
  assert (E : rest = []).
  { pose proof (Permutation_length Pm) as L. rewrite app_length in L. rewrite (forall2_len _ _ _ _ _ F) in L.
    destruct rest; [reflexivity|cbn in L; lia]. }
  subst rest. rewrite app_nil_r in Pm.
  rewrite (csum_perm (map g l) (map g l')) by (apply Permutation_map; exact Pm). f_equal.
  clear H1 H2 Pm. revert H3. induction F as [|a b la lb Hab F IH]; intros H3; cbn; [reflexivity|]. f_equal.
  - apply H3; [left; reflexivity|exact Hab].
  - apply IH. intros; apply H3; [right|]; assumption.
Qed.

(** Sum over a group of operations after composing each with a fixed one. *)
Lemma group_sum : forall l g (f : Op -> C), symmetry_group l -> In g l ->
  (forall a b, same_op a b -> f a = f b) ->
  forall F : Op -> C, (forall e k, In e l -> is_composition k g e -> F e = f k) ->
  csum (map F l) = csum (map f l).
Proof.
  intros l g f (Hd & _ & Hc & Hi & Hn) Hg Hf F HF.
  destruct (Hi g Hg) as (gi & Hgi & Egi).
  apply (csum_match Op (fun e k => is_composition k g e)).
  - apply (fop_weaken (fun e f => ~ same_op e f)); [|exact Hn].
    intros a b Ha Hb Nab k Ka Kb. apply Nab. intros x.
    apply sp_trans with (act gi (act g (act a x))); [apply sp_sym, Egi|].
    apply sp_trans with (act gi (act g (act b x))); [|apply Egi].
    apply act_sp. apply sp_trans with (act k x); [apply sp_sym, Ka|apply Kb].
  - intros e He. destruct (Hc g e Hg He) as (k & Hk & Ck). exists k. auto.
  - intros e k He Hk. apply HF; assumption.
Qed.

(* ---- deciding same_point ---- *)
Definition intb (x : R) : bool := if Req_EM_T x (IZR (Int_part x)) then true else false.
Lemma intb_spec : forall x, intb x = true <-> exists n : Z, x = IZR n.
Proof.
  intros x. unfold intb. destruct (Req_EM_T x (IZR (Int_part x))) as [E|E]; split; intros H; try reflexivity; try discriminate.
  - exists (Int_part x). exact E.
  - exfalso. destruct H as [n ->]. apply E. f_equal. unfold Int_part.
    rewrite <- (tech_up (IZR n) (n + 1)); [ring|rewrite plus_IZR; lra|rewrite plus_IZR; lra].
Qed.
Definition spb (x y : ix -> R) : bool := intb (x X1 - y X1) && intb (x X2 - y X2) && intb (x X3 - y X3).
Lemma spb_spec : forall x y, spb x y = true <-> same_point x y.
Proof.
  intros x y. unfold spb. rewrite !andb_true_iff, !intb_spec. split.
  - intros [[[n1 E1] [n2 E2]] [n3 E3]] []; [exists n1|exists n2|exists n3]; lra.
  - intros H. destruct (H X1) as [n1 E1], (H X2) as [n2 E2], (H X3) as [n3 E3].
    split; [split|]; [exists n1|exists n2|exists n3]; lra.
Qed.

(** Orbits and stabilisers for any position. *)
Lemma fiber_size : forall l x e p, symmetry_group l -> In e l -> same_point p (act e x) ->
  length (filter (fun f => spb p (act f x)) l) = length (filter (fun f => spb (act f x) x) l).
Proof.
  intros l x e p (Hd & _ & Hc & Hi & Hn) He Hp.
  destruct (Hi e He) as (ei & Hei & Ei).
  apply Nat.le_antisymm.
  - apply (rel_pigeon (fun f k => is_composition k ei f)).
    + apply fop_filter. apply (fop_weaken (fun e f => ~ same_op e f)); [|exact Hn].
      intros f g Hf Hg Nfg k Kf Kg. apply Nfg. intros y.
      destruct (Hi ei Hei) as (ej & Hej & Ej).
      apply sp_trans with (act ej (act ei (act f y))); [apply sp_sym, Ej|].
      apply sp_trans with (act ej (act ei (act g y))); [|apply Ej].
      apply act_sp. apply sp_trans with (act k y); [apply sp_sym, Kf|apply Kg].
    + intros f Hf. apply filter_In in Hf. destruct Hf as [Hf Ef]. apply spb_spec in Ef.
      destruct (Hc ei f Hei Hf) as (k & Hk & Ck). exists k. split; [|exact Ck].
      apply filter_In. split; [exact Hk|]. apply spb_spec.
      apply sp_trans with (act ei (act f x)); [apply Ck|].
      apply sp_trans with (act ei (act e x)); [apply act_sp|apply Ei].
      apply sp_trans with p; [apply sp_sym; exact Ef|exact Hp].
  - apply (rel_pigeon (fun f k => is_composition k e f)).
    + apply fop_filter. apply (fop_weaken (fun e f => ~ same_op e f)); [|exact Hn].
      intros f g Hf Hg Nfg k Kf Kg. apply Nfg. intros y.
      apply sp_trans with (act ei (act e (act f y))); [apply sp_sym, Ei|].
      apply sp_trans with (act ei (act e (act g y))); [|apply Ei].
      apply act_sp. apply sp_trans with (act k y); [apply sp_sym, Kf|apply Kg].
    + intros f Hf. apply filter_In in Hf. destruct Hf as [Hf Ef]. apply spb_spec in Ef.
      destruct (Hc e f He Hf) as (k & Hk & Ck). exists k. split; [|exact Ck].
      apply filter_In. split; [exact Hk|]. apply spb_spec.
      apply sp_trans with (act e x); [exact Hp|].
      apply sp_sym. apply sp_trans with (act e (act f x)); [apply Ck|]. apply act_sp. exact Ef.
Qed.
Lemma filter_all : forall A (f : A -> bool) l, (forall x, In x l -> f x = true) -> filter f l = l.
Proof. intros A f l H. induction l as [|x l IH]; cbn; [reflexivity|]. rewrite (H x (or_introl eq_refl)). f_equal. apply IH. intros; apply H; right; assumption. Qed.
Lemma csum_split : forall A (f : A -> C) (b : A -> bool) l,
  csum (map f l) = Cplus (csum (map f (filter b l))) (csum (map f (filter (fun x => negb (b x)) l))).
Proof.
  intros A f b l. induction l as [|x l IH]; cbn; [ring|]. unfold csum in *. rewrite IH. destruct (b x); cbn; ring.
Qed.
Lemma csum_cover : forall (x : ix -> R) (f : Op -> C) pts l,
  ForallOrdPairs (fun p q => ~ same_point p q) pts ->
  (forall e, In e l -> exists p, In p pts /\ same_point (act e x) p) ->
  csum (map f l) = csum (map (fun p => csum (map f (filter (fun e => spb p (act e x)) l))) pts).
Proof.
  intros x f pts. induction pts as [|p pts IH]; intros l Hp Hc.
  { destruct l as [|e l]; [reflexivity|]. destruct (Hc e (or_introl eq_refl)) as [p [[] _]]. }
  inversion Hp as [|a b Hall Hrest]; subst. cbn [map]. change (csum (?a :: ?b)) with (Cplus a (csum b)).
  rewrite (csum_split _ f (fun e => spb p (act e x)) l). f_equal.
  rewrite (IH (filter (fun e => negb (spb p (act e x))) l) Hrest).
  - apply csum_ext. intros q Hq. f_equal. f_equal. apply filter_filter_same.
    intros e He Eq. apply spb_spec in Eq. destruct (spb p (act e x)) eqn:Ep; [|reflexivity]. exfalso. apply spb_spec in Ep.
    rewrite Forall_forall in Hall. apply (Hall q Hq). apply sp_trans with (act e x); [exact Ep|apply sp_sym; exact Eq].
  - intros e He. apply filter_In in He as [He Ne]. destruct (Hc e He) as [q [[<-|Hq] Eq]].
    + exfalso. assert (T : spb p (act e x) = true) by (apply spb_spec, sp_sym; exact Eq). rewrite T in Ne. discriminate.
    + exists q. auto.
Qed.
Lemma orbit_sum : forall l x pts h, symmetry_group l -> is_orbit l x pts ->
  csum (map (fun e => phase (hdot h (act e x))) l) =
  Cmult (RtoC (INR (length (filter (fun f => spb (act f x) x) l)))) (csum (map (fun p => phase (hdot h p)) pts)).
Proof.
  intros l x pts h G (O1 & O2 & O3). rewrite (csum_cover x _ pts l O2 O3). rewrite <- csum_scal. apply csum_ext.
  intros p Hp. destruct (O1 p Hp) as (e & He & Ep). rewrite <- (fiber_size l x e p G He Ep).
  apply csum_const. intros f Hf. apply filter_In in Hf as [_ Hf]. apply spb_spec in Hf. symmetry. apply phase_same. exact Hf.
Qed.
