(** Concrete classes and items: the conditions are met; where the text does not bring the data back. *)
From Coq Require Import QArith List String Ascii Bool Arith Lia.
From Verif Require Import Spec.Objects Spec.ItemSpec Spec.StarSpec Spec.CifSpec Model.Strings Model.Numbers Model.Items Model.CifText Proofs.CifTextP Proofs.CifItemP Proofs.CifItem2P Proofs.CifValueP Proofs.CifLoopP.
Import ListNotations.
Open Scope string_scope.
Open Scope list_scope.

(** Decidable versions, for computing. *)
Definition wordb (w : text) : bool := forallb (fun c => negb (blank c)) w.
Lemma wordb_ok : forall w, wordb w = true -> word w.
Proof. intros w H c IN. unfold wordb in H. rewrite forallb_forall in H. apply H in IN. now apply negb_true_iff. Qed.
Definition bareb (w : text) : bool :=
  wordb w && negb (reserved w) && match w with c :: _ => negb (Ascii.eqb c "_" || Ascii.eqb c "#" || Ascii.eqb c "'" || Ascii.eqb c """")%char | [] => false end.
Lemma bareb_ok : forall w, bareb w = true -> bare_value w.
Proof.
  intros w H. unfold bareb in H. apply andb_prop in H as [H F]. apply andb_prop in H as [W R]. split; [now apply wordb_ok|]. split; [now apply negb_true_iff|].
  destruct w as [|c w]; [discriminate|]. apply negb_true_iff in F. repeat apply orb_false_iff in F as [F ?]. repeat split; now apply Ascii.eqb_neq.
Qed.
Definition quotableb (w : text) : bool := forallb (fun c => negb (is_newline c)) w && negb (quote_inside w).
Lemma quotableb_ok : forall w, quotableb w = true -> quotable_value w.
Proof.
  intros w H. unfold quotableb in H. apply andb_prop in H as [H Q]. split; [|now apply negb_true_iff].
  intros c IN. rewrite forallb_forall in H. apply H in IN. now apply negb_true_iff.
Qed.
Fixpoint nodupb (l : list string) : bool := match l with [] => true | x :: r => negb (isin x r) && nodupb r end.
Lemma nodupb_ok : forall l, nodupb l = true -> NoDup l.
Proof.
  induction l as [|x l IH]; intros H; [constructor|]. cbn in H. apply andb_prop in H as [H1 H2]. constructor; [|now apply IH].
  intro X. apply negb_true_iff in H1. unfold isin in H1. assert (existsb (String.eqb x) l = true) by (apply existsb_exists; exists x; split; [exact X|apply String.eqb_refl]). congruence.
Qed.
Lemma nodup_tx : forall l, nodupb (map (fun k => st (lower (tx k))) l) = true -> NoDup (map (fun k => lower (tx k)) l).
Proof.
  intros l H. apply nodupb_ok in H. rewrite <- (map_map (fun k => lower (tx k)) st) in H. now apply NoDup_map_inv in H.
Qed.
Definition inclb (a b : list string) : bool := forallb (fun x => isin x b) a.
Lemma isin_in : forall x l, isin x l = true -> In x l.
Proof. intros x l H. unfold isin in H. apply existsb_exists in H as (y & IN & E). apply String.eqb_eq in E. now subst. Qed.

Lemma phase_ok : forall repr, cif_class_ok (phase_cif repr).
Proof.
  intros repr. constructor; try reflexivity.
  - apply nodup_tx. reflexivity.
  - cbn. intuition discriminate.
  - apply wordb_ok. reflexivity.
  - repeat constructor; apply wordb_ok; reflexivity.
  - exists phase_refined. reflexivity.
  - intros k H. now right.
  - apply nodupb_ok. reflexivity.
Qed.
Lemma cell_ok : forall form repr, cif_class_ok (cell_cif form repr).
Proof.
  intros form repr. constructor; try reflexivity.
  - apply nodup_tx. reflexivity.
  - cbn. intuition discriminate.
  - apply wordb_ok. reflexivity.
  - repeat constructor; apply wordb_ok; reflexivity.
  - exists []. reflexivity.
  - intros k H. exact H.
  - apply nodupb_ok. reflexivity.
Qed.
Lemma atom_site_ok : forall form repr, cif_class_ok (atom_site_cif form repr).
Proof.
  intros form repr. constructor; try reflexivity.
  - apply nodup_tx. reflexivity.
  - cbn. intuition discriminate.
  - apply wordb_ok. reflexivity.
  - repeat constructor; apply wordb_ok; reflexivity.
  - eexists. cbn. reflexivity.
  - intros k H. cbn in H. cbn. intuition.
  - apply nodupb_ok. reflexivity.
Qed.
Lemma phase_plain : forall repr, plain_names (phase_cif repr).
Proof. intros repr k H. cbn in H. repeat destruct H as [<-|H]; try reflexivity. destruct H. Qed.

(** The shortest decimal text of a number with at most 17 digits behind the point (what repr gives for such numbers of usual size). *)
Fixpoint digits_from (fuel d : nat) (x : Q) : nat :=
  match fuel with O => d | S f => if Z.eqb (Qnum x * pow10 d mod Zpos (Qden x)) 0 then d else digits_from f (S d) x end.
Definition float_repr (x : Q) : text := let d := digits_from 17 1 x in decimal_text (negb (Qle_bool 0 x)) (Qnum x * pow10 d / Zpos (Qden x)) d.
Definition phase_ex : cif_class := phase_cif (fun _ => float_repr).
Definition cell_ex : cif_class := cell_cif Some (fun _ => float_repr).

(** A phase: label "Fe3 O4", scale 1.25(3) refined, igsize not given, u None, w 0.5. *)
Definition phase_d : dict :=
  put_all (defaults phase_class) [("label", VStr "Fe3 O4"); ("scale", VNum (5 # 4)); ("scale_sigma", VNum (3 # 100)); ("scale_refinement", VBool true); ("scale_mark", VStr "s1");
    ("u", VNone); ("w", VNum (1 # 2))].
Lemma phase_d_text : option_map st (item_to_cif phase_ex phase_d sep_u) =
  Some ("_phase_label ""Fe3 O4""" ++ String newline ("_phase_scale 1.250(30)s1" ++ String newline ("_phase_U ." ++ String newline "_phase_W 0.5")))%string.
Proof. vm_compute. reflexivity. Qed.
Lemma not_refined_flag : forall d k, dget d (k ++ "_refinement") = Some (VBool false) -> ~ refined d k.
Proof. intros d k H (f & s & F & T & _). rewrite H in F. injection F as <-. discriminate. Qed.
Lemma not_refined_none : forall d k, dget d (k ++ "_refinement") = None -> ~ refined d k.
Proof. intros d k H (f & s & F & T & _). rewrite H in F. discriminate. Qed.
Lemma phase_d_good : writable phase_ex phase_d /\ survives phase_ex phase_d /\ complete phase_ex phase_d /\ form_keeps phase_ex phase_d.
Proof.
  assert (B : forall k v, In k (ATTR_NAMES (BASE phase_ex)) -> dget phase_d k = Some v -> writable_attr phase_ex phase_d k v /\ survives_attr phase_ex phase_d k v).
  { intros k v IN D. cbn in IN. repeat destruct IN as [<-|IN]; try (vm_compute in D; discriminate D); try destruct IN; vm_compute in D; injection D as <-.
    - apply string_survives; try reflexivity; try (cbn; auto; fail); [cbn; intuition discriminate|apply not_refined_none; reflexivity|]. right. split; [reflexivity|]. apply quotableb_ok. reflexivity.
    - apply (refined_survives phase_ex phase_d "scale" (5 # 4) (3 # 100) "s1"); try reflexivity; [cbn; auto|apply wordb_ok; vm_compute; reflexivity|apply bareb_ok; vm_compute; reflexivity].
    - apply none_survives; [cbn; auto 10|reflexivity|apply not_refined_flag; reflexivity].
    - apply (free_survives phase_ex phase_d "w" (1 # 2)); try reflexivity; [cbn; auto 10|apply not_refined_flag; reflexivity|apply bareb_ok; vm_compute; reflexivity| |vm_compute; discriminate].
      intros a A. vm_compute in A. intuition (subst; discriminate). }
  split; [intros k v IN D; now apply B|]. split; [intros k v IN D; now apply B|]. split; [|intros a S; exists a; split; [reflexivity|exact S]].
  split; [|split].
  - intros k IN _. cbn in IN. repeat destruct IN as [<-|IN]; try reflexivity. destruct IN.
  - intros k [<-|[]]. discriminate.
  - exists "label". split; [now left|discriminate].
Qed.

(** * Labels that are not written in a form the format can hold *)
Definition with_label (s : string) : dict := dput (defaults phase_class) "label" (VStr s).
Definition tab : string := String (ascii_of_nat 9) "".
Lemma label_refuted : forall s, In s ["#1"; ""; "_a"; "loop_"; "'a"; ("a" ++ tab ++ "b")%string] -> forall repr,
  setattr phase_class (defaults phase_class) "label" (VStr s) = Some (with_label s) /\
  exists t, item_to_cif (phase_cif repr) (with_label s) sep_u = Some t /\ contents t = None.
Proof.
  intros s IN repr. repeat destruct IN as [<-|IN]; try destruct IN; (split; [reflexivity|]); eexists; (split; [reflexivity|]); vm_compute; reflexivity.
Qed.
(** A label of several lines: read back with a line end in front. *)
Definition two_lines : string := ("a" ++ String newline "b")%string.
Lemma lines_refuted : forall repr, exists t d', item_to_cif (phase_cif repr) (with_label two_lines) sep_u = Some t /\ item_from_cif (phase_cif repr) t = Object d' /\
  dget (with_label two_lines) "label" = Some (VStr two_lines) /\ dget d' "label" = Some (VStr (String newline two_lines)).
Proof. intros repr. eexists. eexists. split; [reflexivity|]. split; [vm_compute; reflexivity|]. split; reflexivity. Qed.
(** The error of a parameter that is not refined. *)
Definition fixed_scale : dict := put_all (with_label "a") [("scale", VNum 1); ("scale_sigma", VNum (1 # 2))].
Lemma sigma_refuted : exists t d', item_to_cif phase_ex fixed_scale sep_u = Some t /\ item_from_cif phase_ex t = Object d' /\
  dget fixed_scale "scale_sigma" = Some (VNum (1 # 2)) /\ dget d' "scale_sigma" = Some (VNum 0).
Proof. eexists. eexists. split; [vm_compute; reflexivity|]. split; [vm_compute; reflexivity|]. split; reflexivity. Qed.
(** Digits behind the sixth. *)
Definition cell_d : dict := put_all (INIT cell_ex) [("length_a", VNum (Qred (543102064 # 100000000)))].
Lemma digits_refuted : exists t d', item_to_cif cell_ex cell_d sep_u = Some t /\ item_from_cif cell_ex t = Object d' /\
  dget cell_d "length_a" = Some (VNum (Qred (543102064 # 100000000))) /\ dget d' "length_a" = Some (VNum (Qred (5431021 # 1000000))).
Proof. eexists. eexists. split; [vm_compute; reflexivity|]. split; [vm_compute; reflexivity|]. split; reflexivity. Qed.

(** * Loops *)
Definition scaled_phase (s : string) (x : Q) : dict := put_all (with_label s) [("scale", VNum x)].
Definition phases : list dict := [scaled_phase "one two" (1 # 2); scaled_phase "_b" (3 # 1)].
Lemma phases_good : loop_columns phase_ex phases <> [] /\ loop_writable phase_ex phases /\ uniform phase_ex phases /\ loop_survives phase_ex phases /\
  (forall d k, In d phases -> In k (ATTR_NAMES (BASE phase_ex)) -> dget d k = None -> dget (INIT phase_ex) k = None).
Proof.
  split; [vm_compute; discriminate|]. split; [|split; [|split]].
  - intros d a D A. vm_compute in A. destruct A as [<-|[<-|[]]]; destruct D as [<-|[<-|[]]]; eexists; (split; [vm_compute; reflexivity|]); unfold cell_value;
      first [apply quotableb_ok; vm_compute; reflexivity | apply bareb_ok; vm_compute; reflexivity].
  - intros d d' k D D' IN. cbn in IN. destruct D as [<-|[<-|[]]]; destruct D' as [<-|[<-|[]]]; repeat destruct IN as [<-|IN]; try (vm_compute; reflexivity); destruct IN.
  - intros d k v D IN G t AS. cbn in IN.
    repeat destruct IN as [<-|IN]; try destruct IN; destruct D as [<-|[<-|[]]]; vm_compute in G; try discriminate G; injection G as <-; vm_compute in AS; injection AS as <-; unfold reads_back; cbn [isin existsb].
    + vm_compute. reflexivity.
    + vm_compute. reflexivity.
    + match goal with |- context [if ?b then _ else _] => replace b with true by reflexivity end. exists (Some (1 # 2)%Q). split; [vm_compute; reflexivity|]. right. split; [apply not_refined_flag; vm_compute; reflexivity|eexists; vm_compute; reflexivity].
    + match goal with |- context [if ?b then _ else _] => replace b with true by reflexivity end. exists (Some (3 # 1)%Q). split; [vm_compute; reflexivity|]. right. split; [apply not_refined_flag; vm_compute; reflexivity|eexists; vm_compute; reflexivity].
  - intros d k D IN _. cbn in IN. repeat destruct IN as [<-|IN]; try reflexivity. destruct IN.
Qed.
(** What the first item does not define is not written. *)
Lemma first_item_refuted : let items := [with_label "a"; scaled_phase "b" (3 # 1)] in exists t a b,
  loop_to_cif phase_ex None items sep_u = Some t /\ loop_from_cif phase_ex t = Object ([], [a; b]) /\ dget b "scale" = None.
Proof. intros items. eexists. eexists. eexists. split; [vm_compute; reflexivity|]. split; [vm_compute; reflexivity|]. reflexivity. Qed.
(** What another item does not define comes back as None. *)
Lemma other_item_refuted : let items := [scaled_phase "b" (3 # 1); with_label "a"] in exists t a b,
  loop_to_cif phase_ex None items sep_u = Some t /\ loop_from_cif phase_ex t = Object ([], [a; b]) /\ dget (with_label "a") "scale" = None /\ dget b "scale" = Some VNone.
Proof. intros items. eexists. eexists. eexists. split; [vm_compute; reflexivity|]. split; [vm_compute; reflexivity|]. split; reflexivity. Qed.
(** No item: read back as one item. *)
Lemma no_item_refuted : exists t a, loop_to_cif phase_ex None [] sep_u = Some t /\ loop_from_cif phase_ex t = Object ([], [a]) /\ dget a "label" = Some VNone.
Proof. eexists. eexists. split; [vm_compute; reflexivity|]. split; [vm_compute; reflexivity|]. reflexivity. Qed.
(** A line end in a text: two items. *)
Lemma loop_lines_refuted : exists t a b, loop_to_cif phase_ex None [with_label two_lines] sep_u = Some t /\ loop_from_cif phase_ex t = Object ([], [a; b]) /\
  dget a "label" = Some (VStr "a") /\ dget b "label" = Some (VStr "b").
Proof. eexists. eexists. eexists. split; [vm_compute; reflexivity|]. split; [vm_compute; reflexivity|]. split; reflexivity. Qed.
(** A loop of anisotropic parameters in front of the loop of atoms. *)
Definition aniso_loop : entry := ELoop [] (map tx ["_atom_site_aniso_label"; "_atom_site_aniso_u_11"]) [map tx ["O1"; "0.01"]].
Definition site_loop : entry := ELoop [] (map tx ["_atom_site_label"; "_atom_site_type_symbol"; "_atom_site_fract_x"; "_atom_site_fract_y"; "_atom_site_fract_z"]) [map tx ["O1"; "O"; "0.1"; "0.2"; "0.3"]].
Lemma prefix_refuted : forall form repr,
  (exists a, loop_from_entries (atom_site_cif form repr) [site_loop; aniso_loop] = Object ([], [a]) /\ dget a "label" = Some (VStr "O1") /\ dget a "fract_y" = Some (VNum (1 # 5))) /\
  loop_from_entries (atom_site_cif form repr) [aniso_loop; site_loop] = Raises.
Proof. intros form repr. split; [|vm_compute; reflexivity]. eexists. split; [vm_compute; reflexivity|]. split; reflexivity. Qed.
