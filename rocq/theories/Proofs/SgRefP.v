(** Lookups by extended and full names; default settings. *)
From Coq Require Import Reals ZArith QArith Qabs Qreals List String Ascii Bool Lia Lra.
From Verif Require Import Spec.Lin3 Spec.Cell Spec.Symm Spec.SgSpec Model.Strings Model.Symmetry Model.SgTables Model.WyckoffData Model.SpaceGroup
  Proofs.SymmBaseP Proofs.SgCheckP Proofs.SgAllP Proofs.SgWyckP Proofs.SgConjP Proofs.WyckSolP Proofs.WyckAtomP Proofs.WyckAtom2P.
Import ListNotations.
Open Scope string_scope.
Open Scope list_scope.
Open Scope Z_scope.

(** ** Extended and full names *)
Definition row_ok (r : Z * option string * string) : bool :=
  let '(it, code, name) := r in
  if String.eqb name "P 1 1 1" then true
  else match get_it_number_it_coordinate_system_codes_by_name_hm_extended name with
       | (Some n, codes) => if n =? it then existsb (opt_eqb code) codes else false
       | _ => false end.
Lemma rows_ok : forallb row_ok table_hm_extended = true. Proof. vm_compute. reflexivity. Qed.
Lemma extended_inverse : forall it code name, get_name_hm_extended_by_it_number_it_coordinate_system_code it code = Some name -> name <> "P 1 1 1" ->
  exists codes, get_it_number_it_coordinate_system_codes_by_name_hm_extended name = (Some it, codes) /\ In code codes.
Proof.
  intros it code name H N. unfold get_name_hm_extended_by_it_number_it_coordinate_system_code in H. destruct (find _ _) as [[[n c] m]|] eqn:F; [|discriminate].
  cbn in H. inversion H; subst m. apply find_some in F as [I E]. cbn [fst snd] in E. apply andb_prop in E as [E1 E2]. apply Z.eqb_eq in E1. apply opt_eqb_eq in E2. subst n c.
  generalize rows_ok. rewrite forallb_forall. intros R. specialize (R _ I). unfold row_ok in R. destruct (String.eqb_spec name "P 1 1 1"); [contradiction|].
  destruct (get_it_number_it_coordinate_system_codes_by_name_hm_extended name) as [[k|] codes]; [|discriminate]. destruct (Z.eqb_spec k it) as [->|]; [|discriminate].
  exists codes. split; [reflexivity|]. apply existsb_exists in R as [x [X Y]]. apply opt_eqb_eq in Y. subst. exact X.
Qed.
Lemma extended_ambiguous : exists it code, get_name_hm_extended_by_it_number_it_coordinate_system_code it code = Some "P 1 1 1" /\
  fst (get_it_number_it_coordinate_system_codes_by_name_hm_extended "P 1 1 1") <> Some it.
Proof. exists 1, None. vm_compute. split; [reflexivity|discriminate]. Qed.
Lemma hm_full_rows : forallb (fun r => match get_it_number_by_name_hm_full (snd r), get_name_hm_full_by_it_number (fst r) with Some n, Some m => (n =? fst r) && String.eqb m (snd r) | _, _ => false end) table_hm_full = true.
Proof. vm_compute. reflexivity. Qed.
Lemma hm_full_inverse : forall it name, get_name_hm_full_by_it_number it = Some name <-> get_it_number_by_name_hm_full name = Some it.
Proof.
  intros it name. generalize hm_full_rows. rewrite forallb_forall. intros R. unfold get_name_hm_full_by_it_number, get_it_number_by_name_hm_full in *. split; intros H.
  - destruct (find (fun r => Z.eqb it (fst r)) table_hm_full) as [[n m]|] eqn:F; [|discriminate]. cbn in H. inversion H; subst m. apply find_some in F as [I E]. apply Z.eqb_eq in E. cbn in E. subst n.
    specialize (R _ I). cbn [fst snd] in R. destruct (find (fun r => String.eqb name (snd r)) table_hm_full) as [[n m]|]; [|discriminate]. cbn [option_map fst snd] in *.
    destruct (find (fun r => Z.eqb it (fst r)) table_hm_full); [|discriminate]. cbn [option_map] in R. apply andb_prop in R as [R1 _]. apply Z.eqb_eq in R1. congruence.
  - destruct (find (fun r => String.eqb name (snd r)) table_hm_full) as [[n m]|] eqn:F; [|discriminate]. cbn in H. inversion H; subst n. apply find_some in F as [I E]. apply String.eqb_eq in E. cbn in E. subst m.
    specialize (R _ I). cbn [fst snd] in R. destruct (find (fun r => String.eqb name (snd r)) table_hm_full) as [[n m]|]; [|discriminate]. cbn [option_map fst snd] in *.
    destruct (find (fun r => Z.eqb it (fst r)) table_hm_full) as [[n' m']|]; [|discriminate]. cbn [option_map snd] in *. apply andb_prop in R as [_ R1]. apply String.eqb_eq in R1. congruence.
Qed.
Lemma hm_full_missing : forall it, 1 <= it <= 230 -> (get_name_hm_full_by_it_number it = None <-> 3 <= it <= 15).
Proof.
  intros it H. assert (K : forallb (fun it => Bool.eqb (isnone (get_name_hm_full_by_it_number it)) ((3 <=? it) && (it <=? 15))) numbers = true) by (vm_compute; reflexivity).
  rewrite forallb_forall in K. specialize (K it (numbers_in it H)). apply eqb_prop in K. destruct (get_name_hm_full_by_it_number it); cbn [isnone] in K; split; intros X; try discriminate.
  - destruct (Z.leb_spec 3 it), (Z.leb_spec it 15); cbn in K; try discriminate; lia.
  - symmetry in K. apply andb_prop in K as [A B]. apply Z.leb_le in A, B. lia.
  - reflexivity.
Qed.
Definition is_p_trigonal (it : Z) : bool := String.eqb (match get_crystal_system_by_it_number it with Some s => s | None => "" end) "trigonal" && negb (zin it [146; 148; 155; 160; 161; 166; 167]).
Lemma default_offered : forall it, 1 <= it <= 230 ->
  (offered (get_it_coordinate_system_codes_by_it_number it) (get_default_it_coordinate_system_code_by_it_number it) <-> is_p_trigonal it = false).
Proof.
  intros it H. assert (K : forallb (fun it => Bool.eqb (existsb (opt_eqb (get_default_it_coordinate_system_code_by_it_number it)) (codes_of it)) (negb (is_p_trigonal it))) numbers = true) by (vm_compute; reflexivity).
  rewrite forallb_forall in K. specialize (K it (numbers_in it H)). apply eqb_prop in K.
  assert (E : offered (get_it_coordinate_system_codes_by_it_number it) (get_default_it_coordinate_system_code_by_it_number it) <->
     existsb (opt_eqb (get_default_it_coordinate_system_code_by_it_number it)) (codes_of it) = true).
  { unfold offered, codes_of. destruct (get_it_coordinate_system_codes_by_it_number it) as [|a l].
    - cbn [existsb]. rewrite orb_false_r. split; [intros ->; reflexivity|apply opt_eqb_eq].
    - rewrite existsb_exists. split.
      + intros [c [-> C]]. exists (Some c). split; [now apply in_map|]. cbn. apply String.eqb_refl.
      + intros [x [X Y]]. apply opt_eqb_eq in Y. rewrite Y. apply in_map_iff in X as [c [<- C]]. exists c. auto. }
  rewrite E, K. destruct (is_p_trigonal it); cbn; split; congruence.
Qed.


(** ** The same group by every name *)
Definition same_start (a b : option (option (Z * option string))) : bool :=
  match a, b with Some (Some (x, c)), Some (Some (y, d)) => (x =? y) && opt_eqb c d | _, _ => false end.
Lemma same_start_ok : forall i j, same_start (define_it_number_and_code i) (define_it_number_and_code j) = true -> new_space_group i = new_space_group j.
Proof.
  intros i j H. assert (E : define_it_number_and_code i = define_it_number_and_code j).
  { unfold same_start in H. destruct (define_it_number_and_code i) as [[[x c]|]|]; try discriminate. destruct (define_it_number_and_code j) as [[[y d]|]|]; try discriminate.
    apply andb_prop in H as [H1 H2]. apply Z.eqb_eq in H1. apply opt_eqb_eq in H2. subst. reflexivity. }
  unfold new_space_group, make_space_group. rewrite E. reflexivity.
Qed.
Lemma starts_all : forallb (fun it =>
   match get_name_hall_by_it_number it, get_name_schoenflies_by_it_number it, get_name_hm_short_by_it_number it with
   | Some h, Some s, Some m =>
       same_start (define_it_number_and_code (mkInput None None None None (Some h) None)) (define_it_number_and_code (by_number it)) &&
       same_start (define_it_number_and_code (mkInput None None None None None (Some s))) (define_it_number_and_code (by_number it)) &&
       same_start (define_it_number_and_code (mkInput None None None (Some m) None None)) (define_it_number_and_code (by_number it)) &&
       same_start (define_it_number_and_code (mkInput None None (Some m) None None None)) (define_it_number_and_code (by_number it))
   | _, _, _ => false end) numbers = true.
Proof. vm_compute. reflexivity. Qed.
Lemma by_names : forall it, 1 <= it <= 230 -> exists h s m, get_name_hall_by_it_number it = Some h /\ get_name_schoenflies_by_it_number it = Some s /\ get_name_hm_short_by_it_number it = Some m /\
  let g := new_space_group (mkInput (Some it) None None None None None) in
  new_space_group (mkInput None None None None (Some h) None) = g /\ new_space_group (mkInput None None None None None (Some s)) = g /\
  new_space_group (mkInput None None None (Some m) None None) = g /\ new_space_group (mkInput None None (Some m) None None None) = g.
Proof.
  intros it H. generalize starts_all. rewrite forallb_forall. intros K. specialize (K it (numbers_in it H)).
  destruct (get_name_hall_by_it_number it) as [h|]; [|discriminate]. destruct (get_name_schoenflies_by_it_number it) as [s|]; [|discriminate]. destruct (get_name_hm_short_by_it_number it) as [m|]; [|discriminate].
  rewrite !andb_true_iff in K. destruct K as [[[K1 K2] K3] K4]. exists h, s, m. do 3 (split; [reflexivity|]). cbv zeta. fold (by_number it).
  split; [apply same_start_ok, K1|]. split; [apply same_start_ok, K2|]. split; [apply same_start_ok, K3|apply same_start_ok, K4].
Qed.
Definition reach (it : Z) (code : option string) (i : SgInput) : bool := match define_it_number_and_code i with Some (Some (n, c)) => (n =? it) && opt_eqb c code | _ => false end.
Lemma reach_ok : forall it code i, reach it code i = true -> new_space_group i = space_group it code.
Proof.
  intros it code i H. unfold reach in H. unfold new_space_group, space_group, make_space_group. destruct (define_it_number_and_code i) as [[[n c]|]|]; try discriminate.
  apply andb_prop in H as [H1 H2]. apply Z.eqb_eq in H1. apply opt_eqb_eq in H2. subst. reflexivity.
Qed.
Lemma extended_all : forallb (fun r => let '(it, code, name) := r in
   if String.eqb name "P 1 1 1" then true else if existsb (opt_eqb code) (codes_of it) then reach it code (mkInput None code (Some name) None None None) else true) table_hm_extended = true.
Proof. vm_compute. reflexivity. Qed.
Lemma offered_codes : forall it code, offered (get_it_coordinate_system_codes_by_it_number it) code <-> existsb (opt_eqb code) (codes_of it) = true.
Proof.
  intros it code. unfold offered, codes_of. destruct (get_it_coordinate_system_codes_by_it_number it) as [|a l].
  - cbn [existsb]. rewrite orb_false_r. split; [intros ->; reflexivity|apply opt_eqb_eq].
  - rewrite existsb_exists. split.
    + intros [c [-> C]]. exists (Some c). split; [now apply in_map|]. cbn. apply String.eqb_refl.
    + intros [x [X Y]]. apply opt_eqb_eq in Y. rewrite Y. apply in_map_iff in X as [c [<- C]]. exists c. auto.
Qed.
Lemma by_extended_name : forall it code name, get_name_hm_extended_by_it_number_it_coordinate_system_code it code = Some name ->
  offered (get_it_coordinate_system_codes_by_it_number it) code -> name <> "P 1 1 1" ->
  new_space_group (mkInput None code (Some name) None None None) = space_group it code.
Proof.
  intros it code name H O N. unfold get_name_hm_extended_by_it_number_it_coordinate_system_code in H. destruct (find _ _) as [[[n c] m]|] eqn:F; [|discriminate].
  cbn in H. inversion H; subst m. apply find_some in F as [I E]. cbn [fst snd] in E. apply andb_prop in E as [E1 E2]. apply Z.eqb_eq in E1. apply opt_eqb_eq in E2. subst n c.
  generalize extended_all. rewrite forallb_forall. intros K. specialize (K _ I). cbv beta iota in K. destruct (String.eqb_spec name "P 1 1 1"); [contradiction|].
  apply offered_codes in O. rewrite O in K. apply reach_ok. exact K.
Qed.
Lemma codes_all : forallb (fun it => forallb (fun code => match code with Some c => reach it code (mkInput (Some it) code None None None None) | None => true end) (codes_of it)) numbers = true.
Proof. vm_compute. reflexivity. Qed.
Lemma by_number_and_code : forall it c, 1 <= it <= 230 -> offered (get_it_coordinate_system_codes_by_it_number it) (Some c) ->
  new_space_group (mkInput (Some it) (Some c) None None None None) = space_group it (Some c).
Proof.
  intros it c H O. generalize codes_all. rewrite forallb_forall. intros K. specialize (K it (numbers_in it H)). rewrite forallb_forall in K.
  apply offered_codes in O. apply existsb_exists in O as [x [X Y]]. apply opt_eqb_eq in Y. subst x. apply reach_ok. exact (K _ X).
Qed.
Lemma by_other_code : forall it c, 1 <= it <= 230 -> ~ offered (get_it_coordinate_system_codes_by_it_number it) (Some c) ->
  new_space_group (mkInput (Some it) (Some c) None None None None) = new_space_group (mkInput (Some it) None None None None None).
Proof.
  intros it c H O. apply same_start_ok. unfold define_it_number_and_code. cbn [in_it in_code in_hm_alt in_hm_ref in_hall in_schoenflies obind].
  assert (E : existsb (opt_eqb (Some c)) (map Some (get_it_coordinate_system_codes_by_it_number it)) = false).
  { destruct (existsb _ _) eqn:E; [exfalso; apply O|reflexivity]. apply existsb_exists in E as [x [X Y]]. apply opt_eqb_eq in Y. subst x. apply in_map_iff in X as [d [D1 D2]]. inversion D1; subst.
    unfold offered. destruct (get_it_coordinate_system_codes_by_it_number it); [destruct D2|]. exists c. auto. }
  rewrite E. assert (F : existsb (opt_eqb None) (map Some (get_it_coordinate_system_codes_by_it_number it)) = false).
  { clear E. destruct (existsb (opt_eqb None) _) eqn:F; [|reflexivity]. apply existsb_exists in F as [x [X Y]]. apply in_map_iff in X as [d [<- _]]. discriminate. }
  rewrite F. cbn [same_start]. rewrite Z.eqb_refl. cbn [andb]. destruct (auto_choose_it_coordinate_system_code _ _) as [s|]; [apply String.eqb_refl|reflexivity].
Qed.

Lemma default_offered' : forall it, 1 <= it <= 230 ->
  (offered (get_it_coordinate_system_codes_by_it_number it) (get_default_it_coordinate_system_code_by_it_number it) <->
   ~ (143 <= it <= 167 /\ ~ In it [146; 148; 155; 160; 161; 166; 167])).
Proof.
  intros it H. rewrite (default_offered it H). unfold is_p_trigonal.
  assert (K : String.eqb (match get_crystal_system_by_it_number it with Some s => s | None => "" end) "trigonal" = ((143 <=? it) && (it <=? 167))%bool).
  { assert (J : forallb (fun it => Bool.eqb (String.eqb (match get_crystal_system_by_it_number it with Some s => s | None => "" end) "trigonal") ((143 <=? it) && (it <=? 167))) numbers = true) by (vm_compute; reflexivity).
    rewrite forallb_forall in J. apply eqb_prop. exact (J it (numbers_in it H)). }
  rewrite K. destruct (zin it [146; 148; 155; 160; 161; 166; 167]) eqn:E.
  - rewrite andb_false_r. split; [|reflexivity]. intros _ [_ N]. apply N. unfold zin in E. apply existsb_exists in E as [x [X Y]]. apply Z.eqb_eq in Y. subst. exact X.
  - rewrite andb_true_r. assert (NI : ~ In it [146; 148; 155; 160; 161; 166; 167]).
    { intros I. assert (X : zin it [146; 148; 155; 160; 161; 166; 167] = true) by (unfold zin; apply existsb_exists; exists it; split; [exact I|apply Z.eqb_refl]). congruence. }
    destruct (Z.leb_spec 143 it), (Z.leb_spec it 167); cbn [andb]; split; intros X; try reflexivity; try discriminate; try (intros [? _]; lia). exfalso. apply X. split; [lia|exact NI].
Qed.
