(** Deciding facts about lists of operations whose translations are multiples of 1/48: composition, groups, generation,
    change of axes, orbits; each check with the fact it establishes. *)
From Coq Require Import Reals ZArith QArith Qreals List Lra Lia Bool.
From Verif Require Import Spec.Lin3 Spec.Symm Spec.SgSpec Proofs.SymmBaseP.
Import ListNotations.
Open Scope Z_scope.

(** ** Normal form: denominator 48, numerators in [0, 48) *)
Definition norm (e : Op) : option Op :=
  if (0 <? e_d e) && (48 mod e_d e =? 0) then
    let k := 48 / e_d e in Some (mkE (v3 (fun i => (vget (e_b e) i * k) mod 48)) 48 (e_r e))
  else None.
Definition red (e : Op) : Prop := e_d e = 48 /\ forall i, 0 <= vget (e_b e) i < 48.
Definition eqv (e f : Op) : Prop := forall x, same_point (act e x) (act f x).
Lemma eqv_refl : forall e, eqv e e. Proof. intros e x. apply sp_refl. Qed.
Lemma eqv_sym : forall e f, eqv e f -> eqv f e. Proof. intros e f H x. apply sp_sym, H. Qed.
Lemma eqv_trans : forall e f g, eqv e f -> eqv f g -> eqv e g. Proof. intros e f g H K x. eapply sp_trans; [apply H | apply K]. Qed.
Lemma vget_v3 : forall f i, vget (v3 f) i = f i. Proof. intros f [| |]; reflexivity. Qed.
Lemma mget_m3 : forall f i j, mget (m3 f) i j = f i j. Proof. intros f [| |] [| |]; reflexivity. Qed.

Lemma frac48 : forall a, exists n : Z, (IZR a / 48 = IZR (a mod 48) / 48 + IZR n)%R.
Proof. intros a. exists (a / 48). rewrite (Z.div_mod a 48) at 1 by lia. rewrite plus_IZR, mult_IZR. field. Qed.

Lemma norm_ok : forall e n, norm e = Some n -> 0 < e_d e /\ red n /\ eqv e n /\ e_r n = e_r e.
Proof.
  intros e n. unfold norm. destruct ((0 <? e_d e) && (48 mod e_d e =? 0)) eqn:C; [|discriminate]. intros E. inversion E; subst n; clear E.
  apply andb_prop in C as [C1 C2]. apply Z.ltb_lt in C1. apply Z.eqb_eq in C2. split; [exact C1|]. split; [|split; [|reflexivity]].
  - split; [reflexivity|]. intros i. cbn [e_b]. rewrite vget_v3. apply Z.mod_pos_bound. lia.
  - assert (K : 48 = e_d e * (48 / e_d e)) by (apply Z_div_exact_full_2; lia).
    set (k := 48 / e_d e) in *. assert (0 < k) by (destruct (Z.ltb_spec 0 k); [assumption|nia]).
    intros x i. unfold act. cbn [e_b e_d e_r]. rewrite vget_v3. destruct (frac48 (vget (e_b e) i * k)) as [m M]. exists m.
    assert (HH : (IZR (vget (e_b e) i) / IZR (e_d e) = IZR (vget (e_b e) i * k) / 48)%R).
    { assert (K2 : 48%R = IZR (e_d e * k)) by (rewrite <- K; reflexivity).
      rewrite K2, !mult_IZR. field. split; apply not_0_IZR; lia. }
    rewrite HH, M. ring.
Qed.

(** ** Composition *)
Definition rmul (a b : M3 Z) : M3 Z := m3 (fun i j => mget a i X1 * mget b X1 j + mget a i X2 * mget b X2 j + mget a i X3 * mget b X3 j).
Definition mul (e f : Op) : Op :=
  mkE (v3 (fun i => (mget (e_r e) i X1 * vget (e_b f) X1 + mget (e_r e) i X2 * vget (e_b f) X2 + mget (e_r e) i X3 * vget (e_b f) X3 + vget (e_b e) i) mod 48))
      48 (rmul (e_r e) (e_r f)).
Lemma mul_red : forall e f, red (mul e f).
Proof. intros e f. split; [reflexivity|]. intros i. unfold mul. cbn [e_b]. rewrite vget_v3. apply Z.mod_pos_bound. lia. Qed.
Lemma mul_act : forall e f x, e_d e = 48 -> e_d f = 48 -> same_point (act (mul e f) x) (act e (act f x)).
Proof.
  intros e f x He Hf i. unfold mul, act at 1. cbn [e_b e_d e_r]. rewrite vget_v3.
  set (a := _ + vget (e_b e) i). destruct (frac48 a) as [n N]. exists (- n).
  unfold act. rewrite He, Hf. unfold sum3, rmul. rewrite !mget_m3, !plus_IZR, !mult_IZR, opp_IZR.
  assert (NN : (IZR (a mod 48) / 48 = IZR a / 48 - IZR n)%R) by lra. rewrite NN. unfold a. rewrite !plus_IZR, !mult_IZR. field.
Qed.

(** ** Equality *)
(** [if] keeps the evaluation lazy. *)
Definition v_eqb (a b : V3 Z) : bool :=
  if (v_1 a =? v_1 b) then if (v_2 a =? v_2 b) then (v_3 a =? v_3 b) else false else false.
Definition m_eqb (a b : M3 Z) : bool :=
  if (m_11 a =? m_11 b) then if (m_22 a =? m_22 b) then if (m_33 a =? m_33 b) then if (m_12 a =? m_12 b) then if (m_13 a =? m_13 b) then
  if (m_21 a =? m_21 b) then if (m_23 a =? m_23 b) then if (m_31 a =? m_31 b) then (m_32 a =? m_32 b) else false else false else false else false
  else false else false else false else false.
Definition op_eqb (e f : Op) : bool := if v_eqb (e_b e) (e_b f) then m_eqb (e_r e) (e_r f) else false.
Fixpoint exb {A} (f : A -> bool) (l : list A) : bool := match l with [] => false | a :: r => if f a then true else exb f r end.
Lemma exb_existsb : forall A (f : A -> bool) l, exb f l = existsb f l.
Proof. induction l as [|a r IH]; [reflexivity|]. cbn. destruct (f a); [reflexivity|apply IH]. Qed.
Lemma if_andb : forall a b : bool, (if a then b else false) = a && b. Proof. intros [] b; reflexivity. Qed.
Lemma v_eqb_eq : forall a b, v_eqb a b = true <-> a = b.
Proof.
  intros [a1 a2 a3] [b1 b2 b3]. unfold v_eqb. rewrite !if_andb. cbn. rewrite !andb_true_iff, !Z.eqb_eq. split; [intros [-> [-> ->]]; reflexivity|].
  intros E. inversion E. auto.
Qed.
Lemma m_eqb_eq : forall a b, m_eqb a b = true <-> a = b.
Proof.
  intros [a1 a2 a3 a4 a5 a6 a7 a8 a9] [b1 b2 b3 b4 b5 b6 b7 b8 b9]. unfold m_eqb. rewrite !if_andb. cbn. rewrite !andb_true_iff, !Z.eqb_eq.
  split; [intros [-> [-> [-> [-> [-> [-> [-> [-> ->]]]]]]]]; reflexivity|]. intros E. inversion E. repeat split; reflexivity.
Qed.
Lemma op_eqb_eq : forall e f, red e -> red f -> (op_eqb e f = true <-> e = f).
Proof.
  intros [eb ed er] [fb fd fr] [He _] [Hf _]. cbn in *. subst ed fd. unfold op_eqb. rewrite if_andb. cbn [e_b e_r]. rewrite andb_true_iff, v_eqb_eq, m_eqb_eq.
  split; [intros [-> ->]; reflexivity|]. intros E. inversion E. auto.
Qed.
Lemma op_eqb_eqv : forall e f, red e -> red f -> op_eqb e f = true -> eqv e f.
Proof. intros e f He Hf H. apply (op_eqb_eq e f He Hf) in H. subst f. apply eqv_refl. Qed.

(** Different normal forms are different operations. *)
Lemma int_half : forall n m : Z, (IZR n <> IZR m + / 2)%R.
Proof. intros n m E. assert (IZR (2 * n) = IZR (2 * m + 1)) as F by (rewrite plus_IZR, !mult_IZR; lra). apply eq_IZR in F. lia. Qed.
Lemma same_rot : forall e f, eqv e f -> e_r e = e_r f.
Proof.
  intros e f H. apply m_eqb_eq.
  assert (G : forall i j, mget (e_r e) i j = mget (e_r f) i j).
  { intros i j. destruct (Z.eq_dec (mget (e_r e) i j) (mget (e_r f) i j)) as [|N]; [assumption|exfalso].
    set (D := mget (e_r e) i j - mget (e_r f) i j) in *. assert (D <> 0) by (unfold D; lia).
    assert (IZR D <> 0)%R by (apply not_0_IZR; assumption).
    set (x := fun k : ix => match k, j with X1, X1 | X2, X2 | X3, X3 => (/ (2 * IZR D))%R | _, _ => 0%R end).
    destruct (H (fun _ => 0%R) i) as [n0 E0]. destruct (H x i) as [n1 E1].
    assert (XX : (act e x i - act f x i = IZR D * / (2 * IZR D) + (act e (fun _ => 0%R) i - act f (fun _ => 0%R) i))%R).
    { unfold act, sum3, x, D. rewrite minus_IZR. destruct j; ring. }
    rewrite E1, E0 in XX.
    apply (int_half n1 n0). replace (IZR D * / (2 * IZR D))%R with (/ 2)%R in XX by (field; assumption). lra. }
  destruct (e_r e), (e_r f). unfold m_eqb. cbn.
  generalize (G X1 X1) (G X1 X2) (G X1 X3) (G X2 X1) (G X2 X2) (G X2 X3) (G X3 X1) (G X3 X2) (G X3 X3). cbn. intros. subst. now rewrite !Z.eqb_refl.
Qed.
Lemma red_distinct : forall e f, red e -> red f -> eqv e f -> e = f.
Proof.
  intros e f [He Re] [Hf Rf] H. assert (R := same_rot e f H).
  assert (B : forall i, vget (e_b e) i = vget (e_b f) i).
  { intros i. destruct (H (fun _ => 0%R) i) as [n E]. unfold act, sum3 in E. rewrite He, Hf in E.
    assert (IZR (vget (e_b e) i) = IZR (vget (e_b f) i + 48 * n)) as F by (rewrite plus_IZR, mult_IZR; lra).
    apply eq_IZR in F. generalize (Re i) (Rf i). lia. }
  destruct e as [[b1 b2 b3] d r], f as [[c1 c2 c3] d' r']. cbn in *. subst. generalize (B X1) (B X2) (B X3). cbn. intros. now subst.
Qed.

(** ** Groups *)
Definition id_op : Op := mkE (mkV 0 0 0) 48 id3.
Lemma id_red : red id_op. Proof. split; [reflexivity|]. intros [| |]; cbn; lia. Qed.
Lemma id_act : forall x i, act id_op x i = x i.
Proof. intros x [| |]; unfold act, sum3; cbn; field. Qed.
Definition mem (e : Op) (l : list Op) : bool := exb (op_eqb e) l.
Fixpoint nodupb (l : list Op) : bool := match l with [] => true | e :: r => negb (mem e r) && nodupb r end.

(** The list of normal forms; None if an operation has none. *)
Fixpoint norms (l : list Op) : option (list Op) :=
  match l with [] => Some [] | e :: r => match norm e, norms r with Some n, Some m => Some (n :: m) | _, _ => None end end.
Lemma norms_in : forall l m, norms l = Some m -> forall e, In e l -> exists n, In n m /\ norm e = Some n.
Proof.
  induction l as [|a r IH]; intros m H e He; [destruct He|]. cbn in H. destruct (norm a) as [n|] eqn:N; [|discriminate].
  destruct (norms r) as [q|] eqn:Q; [|discriminate]. inversion H; subst m. destruct He as [->|He]; [exists n; split; [left; reflexivity|assumption]|].
  destruct (IH q eq_refl e He) as [k [K1 K2]]. exists k. split; [right; assumption|assumption].
Qed.
Lemma norms_ni : forall l m, norms l = Some m -> forall n, In n m -> exists e, In e l /\ norm e = Some n.
Proof.
  induction l as [|a r IH]; intros m H n Hn; cbn in H; [inversion H; subst; destruct Hn|]. destruct (norm a) as [k|] eqn:N; [|discriminate].
  destruct (norms r) as [q|] eqn:Q; [|discriminate]. inversion H; subst m. destruct Hn as [->|Hn]; [exists a; split; [left; reflexivity|assumption]|].
  destruct (IH q eq_refl n Hn) as [e [K1 K2]]. exists e. split; [right; assumption|assumption].
Qed.
Lemma norms_red : forall l m, norms l = Some m -> forall n, In n m -> red n.
Proof. intros l m H n Hn. destruct (norms_ni l m H n Hn) as [e [_ E]]. apply norm_ok in E. apply E. Qed.
Lemma norms_length : forall l m, norms l = Some m -> List.length m = List.length l.
Proof.
  induction l as [|a r IH]; intros m H; cbn in H; [inversion H; reflexivity|]. destruct (norm a); [|discriminate].
  destruct (norms r) as [q|] eqn:Q; [|discriminate]. inversion H. cbn. f_equal. apply IH. reflexivity.
Qed.
Lemma mem_in : forall e l, red e -> (forall n, In n l -> red n) -> mem e l = true -> In e l.
Proof.
  intros e l He Hl H. unfold mem in H. rewrite exb_existsb in H. apply existsb_exists in H as [n [Hn E]]. apply op_eqb_eq in E; [subst; assumption|assumption|now apply Hl].
Qed.
Lemma in_mem : forall e l, red e -> (forall n, In n l -> red n) -> In e l -> mem e l = true.
Proof. intros e l He Hl H. unfold mem. rewrite exb_existsb. apply existsb_exists. exists e. split; [assumption|]. apply op_eqb_eq; auto. Qed.

(** ** Generation *)
(** Words of length at most [n] over the generators (normal forms). *)
Definition add_new (l : list Op) (e : Op) : list Op := if mem e l then l else e :: l.
Fixpoint reach (gens : list Op) (n : nat) (acc frontier : list Op) : list Op :=
  match n with
  | O => acc
  | S n =>
      let new := fold_left (fun new e => fold_left (fun new g => let x := mul g e in if mem x acc then new else if mem x new then new else x :: new) gens new) frontier [] in
      match new with [] => acc | _ => reach gens n (new ++ acc) new end
  end.
Definition all_in (l words : list Op) : bool := forallb (fun e => mem e words) l.
Definition generation_check (gens ops : list Op) : bool :=
  mem id_op ops && forallb (fun g => forallb (fun e => mem (mul g e) ops) ops) gens
  && all_in ops (reach gens 30 [id_op] [id_op]).

Definition is_word (gens : list Op) (e : Op) : Prop := red e /\ exists w, incl w gens /\ forall x, same_point (act e x) (act_word w x).
Lemma word_step : forall gens g e, (forall g, In g gens -> red g) -> In g gens -> is_word gens e -> is_word gens (mul g e).
Proof.
  intros gens g e RG Hg [Re [w [W H]]]. split; [apply mul_red|]. exists (g :: w). split; [intros k [->|K]; auto|].
  intros x. eapply sp_trans; [apply mul_act; [apply (RG g Hg)|apply Re]|]. cbn [act_word fold_right]. apply act_sp, H.
Qed.
Lemma reach_words : forall gens, (forall g, In g gens -> red g) -> forall n acc frontier,
  (forall e, In e acc -> is_word gens e) -> (forall e, In e frontier -> is_word gens e) -> forall e, In e (reach gens n acc frontier) -> is_word gens e.
Proof.
  intros gens RG. induction n as [|n IH]; intros acc fr HA HF e He; [now apply HA|]. cbn [reach] in He.
  set (new := fold_left _ fr []) in He.
  assert (HN : forall e, In e new -> is_word gens e).
  { unfold new. assert (forall fr start, (forall e, In e fr -> is_word gens e) -> (forall e, In e start -> is_word gens e) ->
      forall e, In e (fold_left (fun new e => fold_left (fun new g => let x := mul g e in if mem x acc then new else if mem x new then new else x :: new) gens new) fr start) -> is_word gens e) as G.
    { clear - RG. induction fr as [|a r IH]; intros start HF HS e He; [now apply HS|]. cbn [fold_left] in He.
      apply IH in He; [assumption| |].
      - intros k K. apply HF. right. assumption.
      - assert (HG : forall gs start, incl gs gens -> (forall e, In e start -> is_word gens e) ->
          forall k, In k (fold_left (fun new g => let x := mul g a in if mem x acc then new else if mem x new then new else x :: new) gs start) -> is_word gens k).
        { induction gs as [|g gs IG]; intros st HI HST k K; [now apply HST|]. cbn [fold_left] in K.
          apply IG in K; [assumption| |].
          - intros y Y. apply HI. right. assumption.
          - cbv zeta. intros y Y. destruct (mem (mul g a) acc); [now apply HST|]. destruct (mem (mul g a) st); [now apply HST|]. destruct Y as [<-|Y]; [|now apply HST].
            apply word_step; [assumption|apply HI; left; reflexivity|apply HF; left; reflexivity]. }
        apply HG; [apply incl_refl|assumption]. }
    apply G; [assumption|]. intros k []. }
  destruct new as [|a r]; [now apply HA|].
  apply (IH ((a :: r) ++ acc) (a :: r)); [| |exact He].
  - intros k K. apply in_app_or in K as [K|K]; [apply HN, K|apply HA, K].
  - intros k K. now apply HN.
Qed.
Theorem generation_check_ok : forall gens ng ops no, norms gens = Some ng -> norms ops = Some no ->
  generation_check ng no = true -> generated_by gens ops.
Proof.
  intros gens ng ops no NG NO C. unfold generation_check in C. rewrite !andb_true_iff in C. destruct C as [[C1 C2] C3]. unfold all_in in C3.
  assert (RG := norms_red _ _ NG). assert (RO := norms_red _ _ NO). rewrite forallb_forall in C2, C3. split.
  - induction w as [|g w IH]; intros I.
    + apply mem_in in C1; [|apply id_red|assumption]. destruct (norms_ni _ _ NO _ C1) as [e [He E]]. exists e. split; [assumption|].
      apply norm_ok in E as [_ [_ [E _]]]. intros x. eapply sp_trans; [apply E|]. apply sp_ext, id_act.
    + destruct IH as [e [He E]]; [intros k K; apply I; right; assumption|].
      assert (Hg : In g gens) by (apply I; left; reflexivity). destruct (norms_in _ _ NG g Hg) as [n [Hn N]].
      destruct (norms_in _ _ NO e He) as [m [Hm M]]. specialize (C2 n Hn). rewrite forallb_forall in C2. specialize (C2 m Hm).
      apply mem_in in C2; [|apply mul_red|assumption]. destruct (norms_ni _ _ NO _ C2) as [k [Hk K]]. exists k. split; [assumption|].
      apply norm_ok in N as [_ [RN [N _]]]. apply norm_ok in M as [_ [RM [M _]]]. apply norm_ok in K as [_ [_ [K _]]].
      intros x. eapply sp_trans; [apply K|]. eapply sp_trans; [apply mul_act; [apply RN|apply RM]|]. cbn [act_word fold_right].
      eapply sp_trans; [apply sp_sym, N|]. apply act_sp. eapply sp_trans; [apply sp_sym, M|]. apply E.
  - intros e He. destruct (norms_in _ _ NO e He) as [n [Hn N]]. specialize (C3 n Hn). apply norm_ok in N as [_ [RN [N _]]].
    assert (RR : forall k, In k (reach ng 30 [id_op] [id_op]) -> is_word ng k).
    { assert (is_word ng id_op) as W0 by (split; [apply id_red|]; exists []; split; [intros k []|]; intros x; apply sp_ext, id_act).
      apply reach_words; [assumption| |]; intros k [<-|[]]; exact W0. }
    apply mem_in in C3; [|assumption|intros k K; apply RR, K]. apply RR in C3 as [_ [w [W H]]].
    assert (T : forall w, incl w ng -> exists v, incl v gens /\ forall x, same_point (act_word w x) (act_word v x)).
    { clear - NG. induction w as [|g w IH]; intros W; [exists []; split; [intros k []|intros x; apply sp_refl]|].
      destruct IH as [v [V E]]; [intros k K; apply W; right; assumption|].
      destruct (norms_ni _ _ NG g) as [h [Hh N]]; [apply W; left; reflexivity|]. apply norm_ok in N as [_ [_ [N _]]].
      exists (h :: v). split; [intros k [->|K]; auto|]. intros x. cbn [act_word fold_right]. eapply sp_trans; [apply sp_sym, N|]. apply act_sp, E. }
    destruct (T w W) as [v [V E]]. exists v. split; [assumption|]. intros x. eapply sp_trans; [apply N|]. eapply sp_trans; [apply H|apply E].
Qed.

(** ** Groups *)
(** Generators picked from the list, so that closure need only be checked for them. *)
Fixpoint pick (l gens words : list Op) : list Op :=
  match l with [] => gens | e :: r => if mem e words then pick r gens words else pick r (e :: gens) (reach (e :: gens) 30 [id_op] [id_op]) end.
Definition with_gens (gens l : list Op) : bool :=
  if generation_check gens l then if forallb (fun e => exb (fun f => op_eqb (mul f e) id_op) l) gens then nodupb l else false else false.
Definition group_check (l : list Op) : bool := with_gens (pick l [] [id_op]) l.
Lemma words_composed : forall w v x, act_word (w ++ v) x = act_word w (act_word v x).
Proof. intros w v x. unfold act_word. now rewrite fold_right_app. Qed.
Lemma word_sp : forall w x y, same_point x y -> same_point (act_word w x) (act_word w y).
Proof. induction w as [|g w IH]; intros x y H; [exact H|]. cbn [act_word fold_right]. apply act_sp. now apply IH. Qed.
Lemma norm_red : forall e, red e -> norm e = Some e.
Proof.
  intros [[b1 b2 b3] d r] [E R]. cbn [e_d e_b] in E, R. subst d. unfold norm. cbn [e_d e_b e_r]. change ((0 <? 48) && (48 mod 48 =? 0)) with true. cbv iota. change (48 / 48) with 1.
  generalize (R X1) (R X2) (R X3). cbn [vget]. intros R1 R2 R3. unfold v3. cbn [vget]. rewrite !Z.mul_1_r, !Z.mod_small by assumption. reflexivity.
Qed.
Lemma norms_of_red : forall m, (forall n, In n m -> red n) -> norms m = Some m.
Proof.
  induction m as [|a r IH]; intros RM; [reflexivity|]. cbn [norms]. rewrite norm_red by (apply RM; left; reflexivity).
  rewrite IH by (intros n Hn; apply RM; right; assumption). reflexivity.
Qed.
Lemma pick_in : forall l gens words g, In g (pick l gens words) -> In g l \/ In g gens.
Proof.
  induction l as [|e r IH]; intros gens words g H; cbn [pick] in H; [right; exact H|]. destruct (mem e words).
  - apply IH in H as [H|H]; [left; right; exact H|right; exact H].
  - apply IH in H as [H|[<-|H]]; [left; right; exact H|left; left; reflexivity|right; exact H].
Qed.
Lemma with_gens_inv : forall gens m, (forall g, In g gens -> red g) -> (forall n, In n m -> red n) -> generation_check gens m = true ->
  (forall e, In e gens -> exb (fun f => op_eqb (mul f e) id_op) m = true) ->
  forall w, incl w gens -> exists f, In f m /\ forall x, same_point (act f (act_word w x)) x.
Proof.
  intros gens m RG RM C C3. destruct (generation_check_ok gens gens m m (norms_of_red gens RG) (norms_of_red m RM) C) as [G1 G2].
  induction w as [|g w IH]; intros W.
  - destruct (G1 []) as [e [He E]]; [intros k []|]. exists e. split; [exact He|]. exact E.
  - destruct IH as [f [Hf F]]; [intros k K; apply W; right; exact K|].
    assert (Hg : In g gens) by (apply W; left; reflexivity). specialize (C3 g Hg). rewrite exb_existsb in C3. apply existsb_exists in C3 as [h [Hh E]].
    apply op_eqb_eq in E; [|apply mul_red|apply id_red].
    destruct (G2 f Hf) as [wf [WF EF]]. destruct (G2 h Hh) as [wh [WH EH]]. destruct (G1 (wf ++ wh)) as [k [Hk K]]; [intros y Y; apply in_app_or in Y as [Y|Y]; auto|].
    exists k. split; [exact Hk|]. intros x. eapply sp_trans; [apply K|]. rewrite words_composed. eapply sp_trans; [apply sp_sym, EF|].
    eapply sp_trans; [apply act_sp|apply F]. eapply sp_trans; [apply sp_sym, EH|]. cbn [act_word fold_right].
    eapply sp_trans; [apply sp_sym, mul_act; [apply (RM h Hh)|apply (RG g Hg)]|]. rewrite E. apply sp_ext, id_act.
Qed.
Theorem group_check_ok : forall l m, norms l = Some m -> group_check m = true -> symmetry_group l.
Proof.
  intros l m N C. assert (RM := norms_red l m N). unfold group_check in C.
  assert (RG : forall g, In g (pick m [] [id_op]) -> red g) by (intros g Hg; apply pick_in in Hg as [Hg|[]]; now apply RM).
  set (gens := pick m [] [id_op]) in *. clearbody gens. unfold with_gens in C.
  destruct (generation_check gens m) eqn:C1; [|discriminate]. destruct (forallb _ gens) eqn:C3; [|discriminate]. rename C into C4.
  rewrite forallb_forall in C3. destruct (generation_check_ok gens gens m m (norms_of_red gens RG) (norms_of_red m RM) C1) as [G1 G2].
  split; [|split; [|split; [|split]]].
  - intros e He. destruct (norms_in l m N e He) as [n [_ E]]. now apply norm_ok in E.
  - destruct (G1 []) as [n [Hn E]]; [intros k []|]. destruct (norms_ni l m N _ Hn) as [e [He E']]. exists e. split; [assumption|].
    apply norm_ok in E' as [_ [_ [E' _]]]. intros x. eapply sp_trans; [apply E'|]. apply E.
  - intros e f He Hf. destruct (norms_in l m N e He) as [ne [Ie Ee]], (norms_in l m N f Hf) as [nf [If Ef]].
    destruct (G2 ne Ie) as [we [We We']]. destruct (G2 nf If) as [wf [Wf Wf']].
    destruct (G1 (we ++ wf)) as [ng [Hg Eg]]; [intros k K; apply in_app_or in K as [K|K]; auto|].
    destruct (norms_ni l m N _ Hg) as [g [Hg' Eg']]. exists g. split; [assumption|].
    apply norm_ok in Ee as [_ [Re [Ee _]]]. apply norm_ok in Ef as [_ [Rf [Ef _]]]. apply norm_ok in Eg' as [_ [_ [Eg' _]]].
    intros x. eapply sp_trans; [apply Eg'|]. eapply sp_trans; [apply Eg|]. rewrite words_composed.
    eapply sp_trans; [apply sp_sym, We'|]. eapply sp_trans; [apply sp_sym, Ee|]. apply act_sp. eapply sp_trans; [apply sp_sym, Wf'|]. apply sp_sym, Ef.
  - intros e He. destruct (norms_in l m N e He) as [ne [Ie Ee]]. destruct (G2 ne Ie) as [we [We We']].
    destruct (with_gens_inv gens m RG RM C1 C3 we We) as [nf [If F]]. destruct (norms_ni l m N nf If) as [f [Hf Ef]]. exists f. split; [assumption|].
    apply norm_ok in Ee as [_ [Re [Ee _]]]. apply norm_ok in Ef as [_ [Rf [Ef _]]].
    intros x. eapply sp_trans; [apply Ef|]. eapply sp_trans; [|apply (F x)]. apply act_sp. eapply sp_trans; [apply Ee|apply We'].
  - clear C1 C3 G1 G2 RG. revert m N RM C4. induction l as [|a r IH]; intros m N RM C4; [constructor|].
    cbn in N. destruct (norm a) as [na|] eqn:NA; [|discriminate]. destruct (norms r) as [q|] eqn:Q; [|discriminate]. inversion N; subst m.
    cbn in C4. apply andb_prop in C4 as [C4 C5]. apply negb_true_iff in C4. constructor.
    + apply Forall_forall. intros b Hb S. destruct (norms_in r q Q b Hb) as [nb [Ib Eb]].
      apply norm_ok in NA as [_ [RA [EA _]]]. apply norm_ok in Eb as [_ [RB [EB _]]].
      assert (na = nb) as -> by (apply red_distinct; [assumption|assumption|]; eapply eqv_trans; [apply eqv_sym, EA|]; eapply eqv_trans; [exact S|exact EB]).
      rewrite (in_mem nb q) in C4; [discriminate|assumption| |assumption]. intros n Hn. apply RM. right. assumption.
    + apply (IH q eq_refl); auto. intros n Hn. apply RM. right. assumption.
Qed.

(** ** Change of axes *)
Definition carries_check (f : Op) (l l' : list Op) : bool :=
  negb (det3 (e_r f) =? 0) && (Z.abs (det3 (e_r f)) * Z.of_nat (List.length l') =? Z.of_nat (List.length l))
  && forallb (fun e => let g := mul f e in exb (fun e' => op_eqb (mul e' f) g) l') l
  && forallb (fun e' => let g := mul e' f in exb (fun e => op_eqb g (mul f e)) l) l'.
Lemma carries_one : forall f nf e n e' n', norm f = Some nf -> norm e = Some n -> norm e' = Some n' -> op_eqb (mul n' nf) (mul nf n) = true ->
  forall x, same_point (act e' (act f x)) (act f (act e x)).
Proof.
  intros f nf e n e' n' NF N N' C x.
  apply norm_ok in NF as [_ [RF [NF _]]]. apply norm_ok in N as [_ [RN [N _]]]. apply norm_ok in N' as [_ [RN' [N' _]]].
  apply op_eqb_eq in C; [|apply mul_red|apply mul_red].
  eapply sp_trans; [apply N'|]. eapply sp_trans; [apply act_sp, NF|]. eapply sp_trans; [apply sp_sym, mul_act; [apply RN'|apply RF]|].
  rewrite C. eapply sp_trans; [apply mul_act; [apply RF|apply RN]|]. eapply sp_trans; [apply sp_sym, NF|]. apply act_sp, sp_sym, N.
Qed.
Theorem carries_check_ok : forall f nf l m l' m', norm f = Some nf -> norms l = Some m -> norms l' = Some m' ->
  carries_check nf m m' = true -> carries f l l'.
Proof.
  intros f nf l m l' m' NF N N' C. unfold carries_check in C. rewrite !andb_true_iff in C. destruct C as [[[C1 C2] C3] C4].
  assert (ER : e_r nf = e_r f) by (apply norm_ok in NF; apply NF). rewrite ER in C1, C2.
  apply negb_true_iff in C1. apply Z.eqb_neq in C1. apply Z.eqb_eq in C2. rewrite (norms_length _ _ N), (norms_length _ _ N') in C2.
  rewrite forallb_forall in C3, C4. split; [exact C1|]. split; [exact C2|]. split.
  - intros e He. destruct (norms_in _ _ N e He) as [n [Hn E]]. specialize (C3 n Hn). cbv zeta in C3. rewrite exb_existsb in C3. apply existsb_exists in C3 as [n' [Hn' C]].
    destruct (norms_ni _ _ N' n' Hn') as [e' [He' E']]. exists e'. split; [assumption|]. eapply carries_one; eassumption.
  - intros e' He'. destruct (norms_in _ _ N' e' He') as [n' [Hn' E']]. specialize (C4 n' Hn'). cbv zeta in C4. rewrite exb_existsb in C4. apply existsb_exists in C4 as [n [Hn C]].
    destruct (norms_ni _ _ N n Hn) as [e [He E]]. exists e. split; [assumption|]. eapply carries_one; eassumption.
Qed.

(** ** Wyckoff positions *)
Definition z_of_Q (q : Q) : option Z := if Pos.eqb (Qden q) 1 then Some (Qnum q) else None.
(** numerator over 48, modulo 48 *)
Definition n48_of_Q (q : Q) : option Z := if (48 mod Zpos (Qden q) =? 0) then Some ((Qnum q * (48 / Zpos (Qden q))) mod 48) else None.
Definition op_of_pos (rb : list (list Q) * list Q) : option Op :=
  match rb with
  | ([[a; b; c]; [d; e; f]; [g; h; i]], [x; y; z]) =>
      match z_of_Q a, z_of_Q b, z_of_Q c, z_of_Q d, z_of_Q e, z_of_Q f, z_of_Q g, z_of_Q h, z_of_Q i, n48_of_Q x, n48_of_Q y, n48_of_Q z with
      | Some a, Some b, Some c, Some d, Some e, Some f, Some g, Some h, Some i, Some x, Some y, Some z => Some (mkE (mkV x y z) 48 (mkM a b c d e f g h i))
      | _, _, _, _, _, _, _, _, _, _, _, _ => None end
  | _ => None end.
Lemma z_of_Q_ok : forall q z, z_of_Q q = Some z -> Q2R q = IZR z.
Proof.
  intros [n d] z. unfold z_of_Q. cbn [Qden Qnum]. destruct (Pos.eqb_spec d 1); [|discriminate]. intros E. inversion E; subst. unfold Q2R. cbn. field.
Qed.
Lemma n48_ok : forall q z, n48_of_Q q = Some z -> 0 <= z < 48 /\ exists n : Z, Q2R q = (IZR z / 48 + IZR n)%R.
Proof.
  intros [n d] z. unfold n48_of_Q. cbn [Qnum Qden]. destruct (Z.eqb_spec (48 mod Z.pos d) 0) as [E|]; [|discriminate]. intros H. inversion H; subst z; clear H.
  split; [apply Z.mod_pos_bound; lia|].
  assert (K : 48 = Z.pos d * (48 / Z.pos d)) by (apply Z_div_exact_full_2; lia). set (k := 48 / Z.pos d) in *.
  assert (k <> 0) by (intros Hk; rewrite Hk in K; lia).
  destruct (frac48 (n * k)) as [m M]. exists m. rewrite <- M. unfold Q2R. cbn [Qnum Qden].
  assert (K2 : 48%R = IZR (Z.pos d * k)) by (rewrite <- K; reflexivity). rewrite K2, !mult_IZR. field. split; apply not_0_IZR; lia.
Qed.
Lemma op_of_pos_ok : forall rb e, op_of_pos rb = Some e -> red e /\ forall t, same_point (pos_at rb t) (act e t).
Proof.
  intros [m v] E H. unfold op_of_pos in H.
  destruct m as [|[|a [|b [|c [|]]]] [|[|d [|e [|f [|]]]] [|[|g [|h [|i [|]]]] [|]]]]; try discriminate.
  destruct v as [|x [|y [|z [|]]]]; try discriminate.
  destruct (z_of_Q a) as [a'|] eqn:Ea; [|discriminate]. destruct (z_of_Q b) as [b'|] eqn:Eb; [|discriminate]. destruct (z_of_Q c) as [c'|] eqn:Ec; [|discriminate].
  destruct (z_of_Q d) as [d'|] eqn:Ed; [|discriminate]. destruct (z_of_Q e) as [e'|] eqn:Ee; [|discriminate]. destruct (z_of_Q f) as [f'|] eqn:Ef; [|discriminate].
  destruct (z_of_Q g) as [g'|] eqn:Eg; [|discriminate]. destruct (z_of_Q h) as [h'|] eqn:Eh; [|discriminate]. destruct (z_of_Q i) as [i'|] eqn:Ei; [|discriminate].
  destruct (n48_of_Q x) as [x'|] eqn:Ex; [|discriminate]. destruct (n48_of_Q y) as [y'|] eqn:Ey; [|discriminate]. destruct (n48_of_Q z) as [z'|] eqn:Ez; [|discriminate].
  inversion H; subst E; clear H.
  apply z_of_Q_ok in Ea, Eb, Ec, Ed, Ee, Ef, Eg, Eh, Ei. apply n48_ok in Ex as [Bx [nx Ex]], Ey as [By [ny Ey]], Ez as [Bz [nz Ez]].
  split; [split; [reflexivity|intros [| |]; assumption]|].
  intros t k. unfold pos_at, act, sum3. destruct k; cbn [nat_of_ix nth fst snd vget mget e_b e_d e_r v_1 v_2 v_3 m_11 m_12 m_13 m_21 m_22 m_23 m_31 m_32 m_33].
  - exists nx. rewrite Ea, Eb, Ec, Ex. ring.
  - exists ny. rewrite Ed, Ee, Ef, Ey. ring.
  - exists nz. rewrite Eg, Eh, Ei, Ez. ring.
Qed.
Fixpoint ops_of_pos (l : list (list (list Q) * list Q)) : option (list Op) :=
  match l with [] => Some [] | p :: r => match op_of_pos p, ops_of_pos r with Some n, Some m => Some (n :: m) | _, _ => None end end.
Lemma ops_pos_in : forall l m, ops_of_pos l = Some m -> forall e, In e l -> exists n, In n m /\ op_of_pos e = Some n.
Proof.
  induction l as [|a r IH]; intros m H e He; [destruct He|]. cbn in H. destruct (op_of_pos a) as [n|] eqn:N; [|discriminate].
  destruct (ops_of_pos r) as [q|] eqn:Q; [|discriminate]. inversion H; subst m. destruct He as [->|He]; [exists n; split; [left; reflexivity|assumption]|].
  destruct (IH q eq_refl e He) as [k [K1 K2]]. exists k. split; [right; assumption|assumption].
Qed.
Lemma ops_pos_ni : forall l m, ops_of_pos l = Some m -> forall n, In n m -> exists e, In e l /\ op_of_pos e = Some n.
Proof.
  induction l as [|a r IH]; intros m H n Hn; cbn in H; [inversion H; subst; destruct Hn|]. destruct (op_of_pos a) as [k|] eqn:N; [|discriminate].
  destruct (ops_of_pos r) as [q|] eqn:Q; [|discriminate]. inversion H; subst m. destruct Hn as [->|Hn]; [exists a; split; [left; reflexivity|assumption]|].
  destruct (IH q eq_refl n Hn) as [e [K1 K2]]. exists e. split; [right; assumption|assumption].
Qed.
Definition position_check (ops : list Op) (mult : Z) (ps : list Op) : bool :=
  match ps with
  | p0 :: _ =>
      let orb := map (fun e => mul e p0) ops in
      forallb (fun p => mem p orb) ps && forallb (fun q => mem q ps) orb && (Z.of_nat (List.length ps) =? mult) && nodupb ps
  | [] => false end.
Theorem position_check_ok : forall ops no mult l ps, norms ops = Some no -> ops_of_pos l = Some ps -> position_check no mult ps = true ->
  wyckoff_position ops mult l.
Proof.
  intros ops no mult l ps NO NP C. unfold position_check in C. destruct ps as [|n0 ps']; [discriminate|].
  cbv zeta in C. rewrite !andb_true_iff in C. destruct C as [[[C1 C2] C3] C4].
  destruct l as [|p0 l']; [discriminate|].
  assert (N0 : op_of_pos p0 = Some n0).
  { cbn in NP. destruct (op_of_pos p0) as [k|]; [|discriminate]. destruct (ops_of_pos l'); [|discriminate]. inversion NP. reflexivity. }
  rewrite forallb_forall in C1, C2.
  assert (RP : forall n, In n (n0 :: ps') -> red n).
  { intros n Hn. destruct (ops_pos_ni _ _ NP n Hn) as [p [_ P]]. now apply op_of_pos_ok in P. }
  assert (RO : forall n, In n (map (fun e => mul e n0) no) -> red n).
  { intros n Hn. apply in_map_iff in Hn as [e [<- _]]. apply mul_red. }
  assert (RNO := norms_red _ _ NO).
  destruct (op_of_pos_ok p0 n0 N0) as [R0 P0].
  split; [|split].
  - exists p0, l'. split; [reflexivity|]. intros t. split.
    + intros q Hq. apply in_map_iff in Hq as [p [<- Hp]]. destruct (ops_pos_in _ _ NP p Hp) as [n [Hn N]].
      specialize (C1 n Hn). apply mem_in in C1; [|now apply RP|assumption]. apply in_map_iff in C1 as [k [<- Hk]].
      destruct (norms_ni _ _ NO k Hk) as [e [He E]]. exists e. split; [assumption|].
      apply norm_ok in E as [_ [RK [E _]]]. apply op_of_pos_ok in N as [_ N].
      eapply sp_trans; [apply N|]. eapply sp_trans; [apply mul_act; [apply RK|apply R0]|]. eapply sp_trans; [apply sp_sym, E|]. apply act_sp, sp_sym, P0.
    + intros e He. destruct (norms_in _ _ NO e He) as [k [Hk E]].
      assert (Hm : In (mul k n0) (map (fun e => mul e n0) no)) by (apply in_map_iff; exists k; auto).
      specialize (C2 _ Hm). apply mem_in in C2; [|apply mul_red|assumption]. destruct (ops_pos_ni _ _ NP _ C2) as [p [Hp N]].
      exists (pos_at p t). split; [apply (in_map (fun p => pos_at p t)), Hp|].
      apply norm_ok in E as [_ [RK [E _]]]. apply op_of_pos_ok in N as [_ N].
      eapply sp_trans; [apply act_sp, P0|]. eapply sp_trans; [apply E|]. eapply sp_trans; [apply sp_sym, mul_act; [apply RK|apply R0]|]. apply sp_sym, N.
  - apply Z.eqb_eq in C3. rewrite <- C3. f_equal. clear - NP. revert NP. generalize (p0 :: l') (n0 :: ps').
    induction l as [|a r IH]; intros m H; cbn in H; [inversion H; reflexivity|]. destruct (op_of_pos a); [|discriminate].
    destruct (ops_of_pos r) as [q|] eqn:Q; [|discriminate]. inversion H. cbn. f_equal. apply IH. reflexivity.
  - revert NP RP C4. generalize (p0 :: l') (n0 :: ps'). clear. induction l as [|a r IH]; intros m N RP C4; [constructor|].
    cbn in N. destruct (op_of_pos a) as [na|] eqn:NA; [|discriminate]. destruct (ops_of_pos r) as [q|] eqn:Q; [|discriminate]. inversion N; subst m.
    cbn in C4. apply andb_prop in C4 as [C4 C5]. apply negb_true_iff in C4. constructor.
    + apply Forall_forall. intros b Hb S. destruct (ops_pos_in r q Q b Hb) as [nb [Ib Eb]].
      apply op_of_pos_ok in NA as [RA EA]. apply op_of_pos_ok in Eb as [RB EB].
      assert (na = nb) as -> by (apply red_distinct; [assumption|assumption|]; intros t; eapply sp_trans; [apply sp_sym, EA|]; eapply sp_trans; [apply S|apply EB]).
      rewrite (in_mem nb q) in C4; [discriminate|assumption| |assumption]. intros n Hn. apply RP. right. assumption.
    + apply (IH q eq_refl); auto. intros n Hn. apply RP. right. assumption.
Qed.
