(** The checks of SgCheckP run over every setting offered. *)
From Coq Require Import Reals ZArith QArith Qreals List String Bool Lia.
From Verif Require Import Spec.Lin3 Spec.Symm Spec.SgSpec Model.Strings Model.SgTables Model.WyckoffData Model.SpaceGroup Proofs.SymmBaseP Proofs.SgCheckP.
From Verif Require Export Proofs.SgDataP.
Import ListNotations.
Open Scope string_scope.
Open Scope list_scope.
Open Scope Z_scope.


(** ** Which settings are built *)
Definition isnone {A} (o : option A) : bool := match o with None => true | Some _ => false end.
Lemma builds_all : each settings (fun it code g => Bool.eqb (isnone g) (missing_setting it code)) = true.
Proof. vm_compute. reflexivity. Qed.
Lemma builds : forall it code, 1 <= it <= 230 -> offered (get_it_coordinate_system_codes_by_it_number it) code ->
  (space_group it code = None <-> missing_setting it code = true).
Proof.
  intros it code I O. generalize (each_ok _ builds_all it code I O). cbv beta. intros H. apply eqb_prop in H. rewrite <- H.
  destruct (space_group it code); cbn; split; congruence.
Qed.

(** ** Every one of them is a group *)
Definition qz (q : Q) (z : Z) : bool := match z_of_Q q with Some y => y =? z | None => false end.
Definition qf (q : Q) (n d : Z) : bool := if 0 <? d then (Qnum q * d =? n * Zpos (Qden q)) else false.
(** The operation is the one the string says, as a map. *)
Definition exact_b (s : str) (e : Op) : bool :=
  match symop_r_b s, e with
  | Some ([[a; b; c]; [d; f; g]; [h; i; j]], [x; y; z]), mkE (mkV x' y' z') d' (mkM a' b' c' d1 f' g' h' i' j') =>
      forallb (fun p => qz (fst p) (snd p)) [(a, a'); (b, b'); (c, c'); (d, d1); (f, f'); (g, g'); (h, h'); (i, i'); (j, j')]
      && qf x x' d' && qf y y' d' && qf z z' d'
  | _, _ => false end.
Lemma qz_ok : forall q z, qz q z = true -> Q2R q = IZR z.
Proof. intros q z. unfold qz. destruct (z_of_Q q) as [y|] eqn:E; [|discriminate]. intros H. apply Z.eqb_eq in H. subst. now apply z_of_Q_ok. Qed.
Lemma qf_ok : forall q n d, qf q n d = true -> Q2R q = (IZR n / IZR d)%R.
Proof.
  intros [a b] n d. unfold qf. destruct (Z.ltb_spec 0 d); [|discriminate]. cbn [Qnum Qden]. intros H0. apply Z.eqb_eq in H0.
  unfold Q2R. cbn [Qnum Qden]. assert (IZR (a * d) = IZR (n * Z.pos b)) as G by congruence. rewrite !mult_IZR in G.
  assert (IZR d <> 0)%R by (apply not_0_IZR; lia). assert (IZR (Z.pos b) <> 0)%R by (apply not_0_IZR; lia).
  apply Rmult_eq_reg_r with (IZR d * IZR (Z.pos b))%R; [|now apply Rmult_integral_contrapositive]. field_simplify; [|assumption|assumption]. rewrite G. ring.
Qed.
Definition denotes (s : str) (e : Op) : Prop := exists rb, symop_r_b s = Some rb /\ forall x i, act e x i = pos_at rb x i.
Lemma exact_ok : forall s e, exact_b s e = true -> denotes s e.
Proof.
  intros s [[x' y' z'] d' [a' b' c' d1 f' g' h' i' j']] H. unfold exact_b in H. unfold denotes. destruct (symop_r_b s) as [[m v]|]; [|discriminate].
  destruct m as [|[|a [|b [|c [|]]]] [|[|d [|f [|g [|]]]] [|[|h [|i [|j [|]]]] [|]]]]; try discriminate.
  destruct v as [|x [|y [|z [|]]]]; try discriminate. eexists; split; [reflexivity|].
  cbn [forallb fst snd] in H. rewrite !andb_true_iff in H.
  destruct H as [[[[Ha [Hb [Hc [Hd [Hf [Hg [Hh [Hi [Hj _]]]]]]]]] Hx] Hy] Hz].
  apply qz_ok in Ha, Hb, Hc, Hd, Hf, Hg, Hh, Hi, Hj. apply qf_ok in Hx, Hy, Hz.
  intros t k. unfold act, pos_at, sum3. destruct k; cbn [nat_of_ix nth fst snd vget mget e_b e_d e_r];
  [rewrite Ha, Hb, Hc, Hx | rewrite Hd, Hf, Hg, Hy | rewrite Hh, Hi, Hj, Hz]; reflexivity.
Qed.
Fixpoint exact_all (l : list str) (es : list Op) : bool :=
  match l, es with [], [] => true | s :: l, e :: es => if exact_b s e then exact_all l es else false | _, _ => false end.
Lemma exact_all_ok : forall l es, exact_all l es = true -> Forall2 denotes l es.
Proof.
  induction l as [|s l IH]; intros [|e es] H; cbn in H; try discriminate; constructor.
  - apply exact_ok. destruct (exact_b s e); congruence.
  - apply IH. destruct (exact_b s e); congruence.
Qed.
Definition group_ok (g : SpaceGroup) (o : option (list Op)) : bool :=
  match o with
  | Some ops => match norms ops with Some m => if group_check m then exact_all (sg_full g) ops else false | None => false end
  | None => false end.
Definition in_48_origin_1 (it : Z) (code : option string) : bool := if misplaced_centre it code then one_of it [48] else false.
Lemma groups_all : eacho settings (fun it code g o => match g with Some g => if in_48_origin_1 it code then true else group_ok g o | None => true end) = true.
Proof. vm_compute. reflexivity. Qed.
Lemma groups : forall it code g, 1 <= it <= 230 -> offered (get_it_coordinate_system_codes_by_it_number it) code ->
  space_group it code = Some g -> ~ (it = 48 /\ misplaced_centre it code = true) ->
  exists ops, get_symm_elems (sg_full g) = Some ops /\ symmetry_group ops /\ Forall2 denotes (sg_full g) ops.
Proof.
  intros it code g I O B N. generalize (eacho_ok _ groups_all it code g I O B). cbv beta iota.
  unfold in_48_origin_1. destruct (misplaced_centre it code) eqn:M.
  - unfold one_of. cbn [existsb]. destruct (Z.eqb_spec it 48); [exfalso; apply N; auto|]. cbn [orb]. unfold group_ok.
    destruct (get_symm_elems (sg_full g)) as [ops|]; [|discriminate]. destruct (norms ops) as [m|] eqn:NM; [|discriminate].
    destruct (group_check m) eqn:C; [|discriminate]. intros X. exists ops. split; [reflexivity|]. split; [eapply group_check_ok; eassumption|now apply exact_all_ok].
  - unfold group_ok. destruct (get_symm_elems (sg_full g)) as [ops|]; [|discriminate]. destruct (norms ops) as [m|] eqn:NM; [|discriminate].
    destruct (group_check m) eqn:C; [|discriminate]. intros X. exists ops. split; [reflexivity|]. split; [eapply group_check_ok; eassumption|now apply exact_all_ok].
Qed.

(** ** The setting chosen for a number, and the Hall symbol *)
Definition by_number (it : Z) : SgInput := mkInput (Some it) None None None None None.
Definition chosen (it : Z) : option string := match define_it_number_and_code (by_number it) with Some (Some (_, c)) => c | _ => None end.
Lemma chosen_all : forallb (fun it => match define_it_number_and_code (by_number it) with Some (Some (n, c)) => (n =? it) && existsb (opt_eqb c) (codes_of it) | _ => false end) numbers = true.
Proof. vm_compute. reflexivity. Qed.
Lemma chosen_ok : forall it, 1 <= it <= 230 -> define_it_number_and_code (by_number it) = Some (Some (it, chosen it)) /\
  offered (get_it_coordinate_system_codes_by_it_number it) (chosen it).
Proof.
  intros it H. generalize chosen_all. rewrite forallb_forall. intros K. specialize (K it (numbers_in it H)). unfold chosen.
  destruct (define_it_number_and_code (by_number it)) as [[[n c]|]|]; try discriminate. apply andb_prop in K as [K1 K2]. apply Z.eqb_eq in K1. subst n.
  split; [reflexivity|]. apply existsb_exists in K2 as [d [D E]]. apply opt_eqb_eq in E. subst d. unfold codes_of, offered in *.
  destruct (get_it_coordinate_system_codes_by_it_number it); [destruct D as [<-|[]]; reflexivity|]. apply in_map_iff in D as [k [<- K]]. exists k. auto.
Qed.
Lemma new_by_number : forall it, 1 <= it <= 230 -> new_space_group (by_number it) = space_group it (chosen it).
Proof.
  intros it H. unfold new_space_group, space_group. generalize read_el_cards, read_wyckoff. intros [c|] [w|]; reflexivity.
Qed.
