(** All settings, built once: the table of groups as literals, so that the checks do not read the two files again. *)
From Coq Require Import Reals ZArith QArith Qreals List String Bool Lia.
From Verif Require Import Spec.Lin3 Spec.Symm Spec.SgSpec Model.Strings Model.SgTables Model.WyckoffData Model.SpaceGroup.
Import ListNotations.
Open Scope string_scope.
Open Scope list_scope.
Open Scope Z_scope.

Definition numbers : list Z := map (fun k => Z.of_nat k) (seq 1 230).
Definition codes_of (it : Z) : list (option string) :=
  match get_it_coordinate_system_codes_by_it_number it with [] => [None] | l => map Some l end.
Definition settings : list (Z * option string) := flat_map (fun it => map (pair it) (codes_of it)) numbers.
Lemma numbers_in : forall it, 1 <= it <= 230 -> In it numbers.
Proof. intros it H. unfold numbers. apply in_map_iff. exists (Z.to_nat it). split; [lia|]. apply in_seq. lia. Qed.
Lemma in_numbers : forall it, In it numbers -> 1 <= it <= 230.
Proof. intros it H. unfold numbers in H. apply in_map_iff in H as [k [<- K]]. apply in_seq in K. lia. Qed.
Lemma settings_in : forall it code, 1 <= it <= 230 -> offered (get_it_coordinate_system_codes_by_it_number it) code -> In (it, code) settings.
Proof.
  intros it code H O. unfold settings. apply in_flat_map. exists it. split; [now apply numbers_in|]. apply in_map. unfold codes_of, offered in *.
  destruct (get_it_coordinate_system_codes_by_it_number it) as [|a l]; [subst; left; reflexivity|]. destruct O as [c [-> C]]. now apply in_map.
Qed.
Lemma in_settings : forall it code, In (it, code) settings -> 1 <= it <= 230 /\ offered (get_it_coordinate_system_codes_by_it_number it) code.
Proof.
  intros it code H. unfold settings in H. apply in_flat_map in H as [n [N H]]. apply in_map_iff in H as [c [E C]]. inversion E; subst. split; [now apply in_numbers|].
  unfold codes_of, offered in *. destruct (get_it_coordinate_system_codes_by_it_number it) as [|a l]; [destruct C as [<-|[]]; reflexivity|].
  apply in_map_iff in C as [k [<- K]]. exists k. auto.
Qed.
Definition the_cards := Eval vm_compute in read_el_cards.
Definition the_wcards := Eval vm_compute in read_wyckoff.
Lemma cards_ok : read_el_cards = the_cards. Proof. exact (eq_refl the_cards <: read_el_cards = the_cards). Qed.
Lemma wcards_ok : read_wyckoff = the_wcards. Proof. exact (eq_refl the_wcards <: read_wyckoff = the_wcards). Qed.
Definition build (oc : option (list Card)) (ow : option (list WCard)) : list (Z * list (option string * option SpaceGroup)) :=
  match oc, ow with
  | Some cards, Some wcards => map (fun it => (it, map (fun code => (code, form_object cards wcards it code)) (codes_of it))) numbers
  | _, _ => [] end.
Definition table := Eval vm_compute in build the_cards the_wcards.
Lemma table_ok : build the_cards the_wcards = table. Proof. exact (eq_refl table <: build the_cards the_wcards = table). Qed.
Definition look (t : list (Z * list (option string * option SpaceGroup))) (it : Z) (code : option string) : option (option SpaceGroup) :=
  match find (fun r => it =? fst r) t with Some (_, l) => option_map snd (find (fun r => opt_eqb code (fst r)) l) | None => None end.
Lemma opt_eqb_eq : forall a b, opt_eqb a b = true -> a = b.
Proof. intros [a|] [b|]; cbn; try congruence. intros H. apply String.eqb_eq in H. congruence. Qed.
Lemma build_look : forall oc ow it code g, look (build oc ow) it code = Some g -> obind oc (fun c => obind ow (fun w => form_object c w it code)) = g.
Proof.
  intros [c|] [w|] it code g H; try discriminate. cbn [obind]. unfold look in H. destruct (find _ (build (Some c) (Some w))) as [[n l]|] eqn:F; [|discriminate]. apply find_some in F as [I E]. cbn [fst] in E. apply Z.eqb_eq in E. subst n.
  unfold build in I. apply in_map_iff in I as [n [E _]]. injection E as -> EL. subst l. destruct (find _ _) as [[k o]|] eqn:G; [|discriminate]. cbn [option_map snd] in H.
  apply find_some in G as [J E]. cbn [fst] in E. apply opt_eqb_eq in E. subst k. apply in_map_iff in J as [k [E _]]. injection E as -> EO. congruence.
Qed.
Lemma look_ok : forall it code g, look table it code = Some g -> space_group it code = g.
Proof.
  intros it code g. rewrite <- table_ok. intros H. apply build_look in H. unfold space_group. rewrite cards_ok, wcards_ok. exact H.
Qed.
Definition checked (o : option (option SpaceGroup)) (P : option SpaceGroup -> bool) : bool := match o with Some g => P g | None => false end.
Definition each_of (t : list (Z * list (option string * option SpaceGroup))) (l : list (Z * option string)) (P : Z -> option string -> option SpaceGroup -> bool) : bool :=
  forallb (fun p => checked (look t (fst p) (snd p)) (P (fst p) (snd p))) l.
Definition each := each_of table.
Lemma each_in : forall l P, each l P = true -> forall it code, In (it, code) l -> P it code (space_group it code) = true.
Proof.
  intros l P H it code I. unfold each, each_of in H. rewrite forallb_forall in H. specialize (H (it, code) I). cbn [fst snd] in H. unfold checked in H.
  destruct (look table it code) as [g|] eqn:L; [|discriminate]. apply look_ok in L. rewrite L. exact H.
Qed.
Definition each2_of (t : list (Z * list (option string * option SpaceGroup))) (ref : Z -> option string) (l : list (Z * option string)) (P : Z -> option string -> option SpaceGroup -> option SpaceGroup -> bool) : bool :=
  forallb (fun p => checked (look t (fst p) (ref (fst p))) (fun r => checked (look t (fst p) (snd p)) (P (fst p) (snd p) r))) l.
Definition each2 := each2_of table.
Lemma each2_in : forall ref l P, each2 ref l P = true -> forall it code, In (it, code) l -> P it code (space_group it (ref it)) (space_group it code) = true.
Proof.
  intros ref l P H it code I. unfold each2, each2_of in H. rewrite forallb_forall in H. specialize (H (it, code) I). cbn [fst snd] in H. unfold checked in H.
  destruct (look table it (ref it)) as [r|] eqn:LR; [|discriminate]. destruct (look table it code) as [g|] eqn:L; [|discriminate]. apply look_ok in L, LR. rewrite L, LR. exact H.
Qed.
Lemma each_ok : forall P, each settings P = true -> forall it code, 1 <= it <= 230 -> offered (get_it_coordinate_system_codes_by_it_number it) code ->
  P it code (space_group it code) = true.
Proof. intros P H it code I O. apply (each_in settings P H). now apply settings_in. Qed.
(** The operations of every setting, read once. *)
Definition ops_of (o : option SpaceGroup) : option (list Op) := match o with Some g => get_symm_elems (sg_full g) | None => None end.
Definition read_ops (t : list (Z * list (option string * option SpaceGroup))) : list (Z * list (option string * option (list Op))) :=
  map (fun r => (fst r, map (fun q => (fst q, ops_of (snd q))) (snd r))) t.
Definition optable := Eval vm_compute in read_ops table.
Lemma optable_ok : read_ops table = optable. Proof. exact (eq_refl optable <: read_ops table = optable). Qed.
Definition look_ops (t : list (Z * list (option string * option (list Op)))) (it : Z) (code : option string) : option (option (list Op)) :=
  match find (fun r => it =? fst r) t with Some (_, l) => option_map snd (find (fun r => opt_eqb code (fst r)) l) | None => None end.
Lemma read_look : forall t it code, look_ops (read_ops t) it code = option_map ops_of (look t it code).
Proof.
  intros t it code. unfold look_ops, look, read_ops. induction t as [|[n l] t IH]; [reflexivity|]. cbn [map find fst snd].
  destruct (it =? n); [|exact IH]. clear IH. induction l as [|[c g] l IH]; [reflexivity|]. cbn [map find fst snd]. destruct (opt_eqb code c); [reflexivity|exact IH].
Qed.
Lemma look_ops_ok : forall it code o, look_ops optable it code = Some o -> ops_of (space_group it code) = o.
Proof.
  intros it code o. rewrite <- optable_ok, read_look. destruct (look table it code) as [g|] eqn:L; [|discriminate]. apply look_ok in L. rewrite L. cbn [option_map]. intros E. now injection E.
Qed.
Definition checked_ops (o : option (option (list Op))) (P : option (list Op) -> bool) : bool := match o with Some g => P g | None => false end.
Definition eacho_of (t : list (Z * list (option string * option SpaceGroup))) (u : list (Z * list (option string * option (list Op)))) (l : list (Z * option string))
  (P : Z -> option string -> option SpaceGroup -> option (list Op) -> bool) : bool :=
  forallb (fun p => checked_ops (look_ops u (fst p) (snd p)) (fun o => checked (look t (fst p) (snd p)) (fun g => P (fst p) (snd p) g o))) l.
Definition eacho := eacho_of table optable.
Lemma eacho_in : forall l P, eacho l P = true -> forall it code, In (it, code) l -> P it code (space_group it code) (ops_of (space_group it code)) = true.
Proof.
  intros l P H it code I. unfold eacho, eacho_of in H. rewrite forallb_forall in H. specialize (H (it, code) I). cbn [fst snd] in H. unfold checked_ops, checked in H.
  destruct (look_ops optable it code) as [o|] eqn:LO; [|discriminate]. destruct (look table it code) as [g|] eqn:L; [|discriminate]. apply look_ops_ok in LO. apply look_ok in L. rewrite LO, L. exact H.
Qed.
Lemma eacho_ok : forall P, eacho settings P = true -> forall it code g, 1 <= it <= 230 -> offered (get_it_coordinate_system_codes_by_it_number it) code ->
  space_group it code = Some g -> P it code (Some g) (get_symm_elems (sg_full g)) = true.
Proof. intros P H it code g I O B. generalize (eacho_in settings P H it code (settings_in it code I O)). rewrite B. exact (fun x => x). Qed.
(** The operations of the setting and of a reference setting. *)
Definition each2o_of (u : list (Z * list (option string * option (list Op)))) (ref : Z -> option string) (l : list (Z * option string))
  (P : Z -> option string -> option (list Op) -> option (list Op) -> bool) : bool :=
  forallb (fun p => checked_ops (look_ops u (fst p) (ref (fst p))) (fun r => checked_ops (look_ops u (fst p) (snd p)) (P (fst p) (snd p) r))) l.
Definition each2o := each2o_of optable.
Lemma each2o_in : forall ref l P, each2o ref l P = true -> forall it code, In (it, code) l -> P it code (ops_of (space_group it (ref it))) (ops_of (space_group it code)) = true.
Proof.
  intros ref l P H it code I. unfold each2o, each2o_of in H. rewrite forallb_forall in H. specialize (H (it, code) I). cbn [fst snd] in H. unfold checked_ops in H.
  destruct (look_ops optable it (ref it)) as [r|] eqn:LR; [|discriminate]. destruct (look_ops optable it code) as [g|] eqn:L; [|discriminate]. apply look_ops_ok in L, LR. rewrite L, LR. exact H.
Qed.
