(** Names, numbers, crystal systems, point groups. *)
From Coq Require Import Reals ZArith QArith Qreals List String Ascii Bool Lia.
From Verif Require Import Spec.Lin3 Spec.Symm Spec.SgSpec Model.Strings Model.SgTables Model.WyckoffData Model.SpaceGroup Proofs.SgCheckP Proofs.SgAllP.
Import ListNotations.
Open Scope string_scope.
Open Scope list_scope.
Open Scope Z_scope.

Definition dedup (l : list (M3 Z)) : list (M3 Z) := fold_left (fun acc r => if exb (m_eqb r) acc then acc else r :: acc) l [].
Lemma exb_m : forall r l, exb (m_eqb r) l = true <-> In r l.
Proof.
  intros r l. rewrite exb_existsb, existsb_exists. split; [intros [x [I E]]; apply m_eqb_eq in E; subst; exact I|intros I; exists r; split; [exact I|now apply m_eqb_eq]].
Qed.
Lemma dedup_acc : forall l acc, NoDup acc -> NoDup (fold_left (fun acc r => if exb (m_eqb r) acc then acc else r :: acc) l acc) /\
  forall r, In r (fold_left (fun acc r => if exb (m_eqb r) acc then acc else r :: acc) l acc) <-> In r l \/ In r acc.
Proof.
  induction l as [|a l IH]; intros acc N; cbn [fold_left].
  - split; [exact N|]. cbn. tauto.
  - destruct (exb (m_eqb a) acc) eqn:E.
    + apply exb_m in E. destruct (IH acc N) as [A B]. split; [exact A|]. intros r. rewrite B. cbn. split; [tauto|]. intros [[<-|H]|H]; auto.
    + assert (~ In a acc) by (intros I; apply exb_m in I; congruence). destruct (IH (a :: acc)) as [A B]; [constructor; assumption|]. split; [exact A|]. intros r. rewrite B. cbn. tauto.
Qed.
Lemma dedup_ok : forall l, NoDup (dedup l) /\ forall r, In r (dedup l) <-> In r l.
Proof. intros l. destruct (dedup_acc l [] (NoDup_nil _)) as [A B]. split; [exact A|]. intros r. unfold dedup. rewrite B. cbn. tauto. Qed.
Definition eq_nats (a b : list nat) : bool := if list_eq_dec Nat.eq_dec a b then true else false.
Definition named (name : string) (l : list (M3 Z)) : bool :=
  exb (fun row => if String.eqb name (fst row) then eq_nats (map (fun k => List.length (filter (fun r => kind_eqb (kind_of r) k) l)) kinds) (snd row ++ [0%nat]) else false) point_group_table.
Lemma named_ok : forall name l, NoDup l -> named name l = true -> point_group_named name l.
Proof.
  intros name l N H. split; [exact N|]. unfold named in H. rewrite exb_existsb in H. apply existsb_exists in H as [[n row] [I H]]. cbn [fst snd] in H.
  destruct (String.eqb_spec name n) as [->|]; [|discriminate]. unfold eq_nats in H. destruct (list_eq_dec _ _ _) as [E|]; [|discriminate]. exists row. auto.
Qed.
Definition pg_ok (it : Z) (g : SpaceGroup) (o : option (list Op)) : bool :=
  match o with
  | Some ops =>
      let rs := map e_r ops in let d := dedup rs in
      if Bool.eqb (sg_centrosymmetry g) (exb (m_eqb (neg3 id3)) rs) then
        if one_of it [183; 184; 185; 186] then true
        else match sg_point_group_hm g, sg_laue_class g with
             | Some p, Some l => if named p d then named l (dedup (rs ++ map neg3 rs)) else false
             | _, _ => false end
      else false
  | None => false end.
Lemma pg_all : eacho settings (fun it code g o => match g with None => true | Some g => pg_ok it g o end) = true.
Proof. vm_compute. reflexivity. Qed.
Lemma point_groups : forall it code g, 1 <= it <= 230 -> offered (get_it_coordinate_system_codes_by_it_number it) code -> space_group it code = Some g ->
  exists ops, get_symm_elems (sg_full g) = Some ops /\
  (sg_centrosymmetry g = true <-> exists e, In e ops /\ e_r e = neg3 id3) /\
  (~ (183 <= it <= 186) -> exists p l rots lrots, sg_point_group_hm g = Some p /\ sg_laue_class g = Some l /\
    rotations_of ops rots /\ point_group_named p rots /\
    point_group_named l lrots /\ forall r, In r lrots <-> In r rots \/ exists r', In r' rots /\ r = neg3 r').
Proof.
  intros it code g I O B. generalize (eacho_ok _ pg_all it code g I O B). cbv beta iota. unfold pg_ok. destruct (get_symm_elems (sg_full g)) as [ops|]; [|discriminate]. cbv zeta.
  destruct (Bool.eqb (sg_centrosymmetry g) _) eqn:C; [|discriminate]. intros H. exists ops. split; [reflexivity|]. split.
  - apply eqb_prop in C. rewrite C, exb_m, in_map_iff. split; intros [e E]; exists e; tauto.
  - intros N. unfold one_of in H. cbn [existsb] in H.
    destruct (Z.eqb_spec it 183); [lia|]. destruct (Z.eqb_spec it 184); [lia|]. destruct (Z.eqb_spec it 185); [lia|]. destruct (Z.eqb_spec it 186); [lia|]. cbn [orb] in H.
    destruct (sg_point_group_hm g) as [p|]; [|discriminate]. destruct (sg_laue_class g) as [l|]; [|discriminate]. destruct (named p _) eqn:NP; [|discriminate].
    destruct (dedup_ok (map e_r ops)) as [D1 D2]. destruct (dedup_ok (map e_r ops ++ map neg3 (map e_r ops))) as [F1 F2].
    exists p, l, (dedup (map e_r ops)), (dedup (map e_r ops ++ map neg3 (map e_r ops))). repeat (split; [reflexivity|]).
    split; [split; [exact D1|]; intros r; rewrite D2, in_map_iff; split; intros [e E]; exists e; tauto|]. split; [now apply named_ok|]. split; [now apply named_ok|].
    intros r. rewrite F2, in_app_iff, D2. split; (intros [H1|H1]; [left; exact H1|right]).
    + apply in_map_iff in H1 as [r' [<- H1]]. exists r'. split; [now apply D2|reflexivity].
    + destruct H1 as [r' [H1 ->]]. apply in_map, D2, H1.
Qed.

(** ** Names and numbers *)
Lemma position_nth : forall k l i, position k l = Some i -> 0 <= i < Z.of_nat (List.length l) /\ nth_error l (Z.to_nat i) = Some k.
Proof.
  induction l as [|a l IH]; intros i H; cbn [position] in H; [discriminate|]. destruct (String.eqb_spec a k) as [->|].
  - inversion H; subst. cbn. split; [lia|reflexivity].
  - destruct (position k l) as [j|]; [|discriminate]. cbn [option_map] in H. assert (i = 1 + j) as -> by congruence. destruct (IH j eq_refl) as [A B].
    split; [cbn [List.length]; lia|]. replace (Z.to_nat (1 + j)) with (S (Z.to_nat j)) by lia. exact B.
Qed.
Lemma accessible_iff : forall it, zin it ACCESIBLE_IT_NUMBER = true <-> 1 <= it <= 230.
Proof.
  intros it. unfold zin. rewrite existsb_exists. split.
  - intros [x [I E]]. apply Z.eqb_eq in E. subst x. revert it I. assert (H : forallb (fun it => (1 <=? it) && (it <=? 230)) ACCESIBLE_IT_NUMBER = true) by (vm_compute; reflexivity).
    rewrite forallb_forall in H. intros it I. specialize (H it I). apply andb_prop in H as [A B]. apply Z.leb_le in A, B. lia.
  - intros R. exists it. split; [|apply Z.eqb_refl]. assert (H : forallb (fun it => existsb (Z.eqb it) ACCESIBLE_IT_NUMBER) numbers = true) by (vm_compute; reflexivity).
    rewrite forallb_forall in H. specialize (H it (numbers_in it R)). apply existsb_exists in H as [x [I E]]. apply Z.eqb_eq in E. subst. exact I.
Qed.
Definition good_table (t : list string) : bool :=
  if Nat.eqb (List.length t) 230 then forallb (fun it => match name_by_number t it with Some n => match number_by_name t n with Some m => m =? it | None => false end | None => false end) numbers else false.
Lemma table_inverse : forall t, good_table t = true ->
  (forall it, 1 <= it <= 230 -> exists name, name_by_number t it = Some name /\ number_by_name t name = Some it) /\
  (forall name it, number_by_name t name = Some it -> 1 <= it <= 230 /\ name_by_number t it = Some name) /\
  (forall it, ~ 1 <= it <= 230 -> name_by_number t it = None).
Proof.
  intros t G. unfold good_table in G. destruct (Nat.eqb_spec (List.length t) 230) as [L|]; [|discriminate]. rewrite forallb_forall in G. split; [|split].
  - intros it H. specialize (G it (numbers_in it H)). destruct (name_by_number t it) as [n|]; [|discriminate]. exists n. split; [reflexivity|].
    destruct (number_by_name t n) as [m|]; [|discriminate]. apply Z.eqb_eq in G. congruence.
  - intros name it H. unfold number_by_name in H. destruct (position name t) as [i|] eqn:P; [|discriminate]. cbn in H. inversion H; subst. apply position_nth in P as [A B].
    split; [lia|]. unfold name_by_number. assert (R : 1 <= i + 1 <= 230) by lia. apply accessible_iff in R. rewrite R. replace (i + 1 - 1) with i by lia. exact B.
  - intros it H. unfold name_by_number. destruct (zin it ACCESIBLE_IT_NUMBER) eqn:E; [apply accessible_iff in E; contradiction|reflexivity].
Qed.
Lemma hm_short_good : good_table name_hm_short = true. Proof. vm_compute. reflexivity. Qed.
Lemma schoenflies_good : good_table name_schoenflies = true. Proof. vm_compute. reflexivity. Qed.
Lemma hall_good : good_table name_hall = true. Proof. vm_compute. reflexivity. Qed.
Lemma system_ranges : forall it s, get_crystal_system_by_it_number it = Some s <->
  (1 <= it <= 2 /\ s = "triclinic") \/ (3 <= it <= 15 /\ s = "monoclinic") \/ (16 <= it <= 74 /\ s = "orthorhombic") \/ (75 <= it <= 142 /\ s = "tetragonal") \/
  (143 <= it <= 167 /\ s = "trigonal") \/ (168 <= it <= 194 /\ s = "hexagonal") \/ (195 <= it <= 230 /\ s = "cubic").
Proof.
  intros it s. unfold get_crystal_system_by_it_number. split.
  - repeat match goal with
    | |- (if ?b then _ else _) = _ -> _ => destruct b eqn:?; [match goal with H : _ && _ = true |- _ => apply andb_prop in H as [?%Z.leb_le ?%Z.leb_le] end; intros E; inversion E; tauto|] end.
    discriminate.
  - intros H. repeat match goal with H : _ \/ _ |- _ => destruct H as [[? ->]|H] | H : _ /\ _ |- _ => destruct H as [? ->] end;
    repeat match goal with |- context [?a <=? ?b] => first [rewrite (proj2 (Z.leb_le a b)) by lia|rewrite (proj2 (Z.leb_gt a b)) by lia]; cbn [andb] end; reflexivity.
Qed.
