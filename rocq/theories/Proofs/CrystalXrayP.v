(** Proofs about the table of X-ray amplitudes of a crystal. *)
From Coq Require Import Reals ZArith String List Ascii Bool Lra Lia.
From Coquelicot Require Import Coquelicot.
From Verif Require Import Spec.SlaterSpec Spec.Text Spec.IonSpec Spec.FormSpec Model.Strings Model.Numbers Model.Ions Model.Slater Model.RadialTable Model.FormTables Model.IonFactor Model.CrystalXray
  Proofs.SlaterP Proofs.IonsP Proofs.ShellsP Proofs.FormTablesP Proofs.IonFactorP Proofs.IonTableP.
Import ListNotations.
Open Scope R_scope.

Definition own (s : R) (sym : str) (x : R) : Prop :=
  (exists r, calc_jl_for_ion s sym 1 5 = Good (Some (x :: r))) \/ (calc_jl_for_ion s sym 1 5 = Raised UserWarning /\ exists d, calc_scattering_amplitude_tabulated sym s = Value (x, d)).
Lemma amplitude_own : forall s sym x, amplitude_of s sym = Amplitude x -> own s sym x.
Proof.
  intros s sym x H. unfold amplitude_of in H. unfold own. destruct (calc_jl_for_ion s sym 1 5) as [[[|y r]|]|e|]; try discriminate H.
  - injection H as ->. left. exists r. reflexivity.
  - destruct e; try discriminate H. destruct (calc_scattering_amplitude_tabulated sym s) as [[y d]|e]; [|destruct e; discriminate H]. injection H as ->. right. split; [reflexivity|]. exists d. reflexivity.
Qed.
Lemma loop_false : forall s symbols rows r, amplitudes_loop s false rows symbols <> Table r.
Proof.
  intros s. induction symbols as [|sym l IH]; intros rows r; [discriminate|]. cbn [amplitudes_loop]. destruct (amplitude_of s sym) as [x| |e]; [| |discriminate]; (destruct (get_atom_name_ion_charge_shell sym); [apply IH|discriminate]).
Qed.
Lemma loop_rows : forall s symbols acc rows, amplitudes_loop s true acc symbols = Table rows -> exists new, rows = acc ++ new /\ Forall2 (own s) symbols new.
Proof.
  intros s. induction symbols as [|sym l IH]; intros acc rows H.
  - cbn [amplitudes_loop] in H. exists []. destruct acc as [|a acc]; [discriminate H|]. injection H as <-. split; [symmetry; apply app_nil_r|constructor].
  - cbn [amplitudes_loop] in H. destruct (amplitude_of s sym) as [x| |e] eqn:A; [| |discriminate H].
    + destruct (get_atom_name_ion_charge_shell sym); [|discriminate H]. destruct (IH _ _ H) as (new & E & F). exists (x :: new). rewrite E, <- app_assoc. split; [reflexivity|]. constructor; [apply amplitude_own, A|exact F].
    + destruct (get_atom_name_ion_charge_shell sym); [|discriminate H]. exfalso. exact (loop_false _ _ _ _ H).
Qed.
Lemma rows_own : forall s symbols rows, crystal_amplitudes s symbols = Table rows -> Forall2 (fun sym x => (exists r, calc_jl_for_ion s sym 1 5 = Good (Some (x :: r))) \/
  (calc_jl_for_ion s sym 1 5 = Raised UserWarning /\ exists d, calc_scattering_amplitude_tabulated sym s = Value (x, d))) symbols rows.
Proof. intros s symbols rows H. destruct (loop_rows s symbols [] rows H) as (new & -> & F). exact F. Qed.

(** a symbol that raises *)
Lemma unknown_symbol : forall t q, ion_parts t = Value (q, 0%Z, None) -> ~ In q (map text periodic_table) -> get_atom_name_ion_charge_shell t = Raises KeyError.
Proof. intros t q H N. unfold get_atom_name_ion_charge_shell. rewrite H. cbn [bind]. pose proof (unknown q 0%Z N) as U. rewrite U. reflexivity. Qed.
Lemma unknown_amplitude : forall s t, get_atom_name_ion_charge_shell t = Raises KeyError -> amplitude_of s t = Fails (Some KeyError).
Proof. intros s t H. unfold amplitude_of, calc_jl_for_ion. rewrite H. reflexivity. Qed.
Lemma loop_unknown : forall s t symbols flag rows, get_atom_name_ion_charge_shell t = Raises KeyError -> In t symbols -> exists e, amplitudes_loop s flag rows symbols = Failed e.
Proof.
  intros s t. induction symbols as [|sym l IH]; intros flag rows H I; [destruct I|]. cbn [amplitudes_loop]. destruct I as [->|I].
  - rewrite (unknown_amplitude s t H). eexists. reflexivity.
  - destruct (amplitude_of s sym) as [x| |e]; [| |eexists; reflexivity]; (destruct (get_atom_name_ion_charge_shell sym); [|eexists; reflexivity]); apply IH; assumption.
Qed.
Lemma unknown_fails : forall s symbols t, name_text t -> ~ In (titled t) (map text periodic_table) -> In t symbols ->
  (exists e, crystal_amplitudes s symbols = Failed e) /\ crystal_amplitudes s [t] = Failed (Some KeyError).
Proof.
  intros s symbols t N U I. assert (B : blank_text []) by constructor. pose proof (neutral_ion [] t [] B B N) as P. cbn [app] in P. rewrite app_nil_r in P. pose proof (unknown_symbol t _ P U) as K. split; [apply (loop_unknown s t); assumption|].
  unfold crystal_amplitudes. cbn [amplitudes_loop]. rewrite (unknown_amplitude s t K). reflexivity.
Qed.
Lemma deuterium_met : name_text (text "D") /\ ~ In (titled (text "D")) (map text periodic_table).
Proof.
  split; [split; [discriminate|repeat constructor]|]. assert (E : forallb (fun n => negb (same_text (text n) (titled (text "D")))) periodic_table = true) by (vm_compute; reflexivity).
  intros I. apply in_map_iff in I. destruct I as (n & E1 & I). rewrite forallb_forall in E. specialize (E n I). unfold same_text in E. destruct (list_eq_dec ascii_dec (text n) (titled (text "D"))); [discriminate E|contradiction].
Qed.

(** the elements without all their orbitals: UserWarning *)
Lemma ion_warns : forall t name q sh L, ion_of t name q -> get_full_shell (text name) q = Value sh -> spells sh L -> List.Forall occupied L -> L <> [] ->
  total_z radial_table (text name) L = None -> calc_jl_for_ion 0 t 1 5 = Raised UserWarning.
Proof.
  intros t name q sh L I G S O N T. assert (B : blank_text []) by constructor. unfold calc_jl_for_ion, calc_jl_for_shell_of_ion. pose proof (ion_read' [] t [] name q B B I) as P. cbn [app] in P. rewrite app_nil_r in P. rewrite P, G. cbn [bind try].
  pose proof (split_spells _ _ S) as F. assert (Len : exists a b r, sh = a :: b :: r).
  { destruct sh as [|a [|b r]]; [|  |do 3 eexists; reflexivity].
    - cbn in F. inversion F; subst. contradiction.
    - exfalso. cbn in F. destruct (is_ws a); [inversion F; subst; contradiction|]. inversion F as [|w o ws L' W F' E1 E2]; subst. cbn in W. inversion W. }
  destruct Len as (a & b & r & ->). rewrite (counted _ _ S). cbn [try]. rewrite split_strip. assert (K : 0 < 1) by lra. pose proof (loop_first radial_table found_terms (text name) 1 5 _ L K F (occupied_sign _ O) N) as R.
  rewrite T in R. exact R.
Qed.
(** the sub-shells of an ion, and whether one of their orbitals is missing *)
Definition missing (name : str) (q : Z) : bool :=
  match get_full_shell name q with
  | Value sh => match config sh with Some L => (forallb occupiedb L && (0 <? electrons L)%Z && match total_z radial_table name L with None => true | Some _ => false end)%bool | None => false end
  | Raises _ => false end.
Lemma missing_warns : forall t name q, ion_of t name q -> missing (text name) q = true -> calc_jl_for_ion 0 t 1 5 = Raised UserWarning.
Proof.
  intros t name q I H. unfold missing in H. destruct (get_full_shell (text name) q) as [sh|] eqn:G; [|discriminate H]. destruct (config sh) as [L|] eqn:C; [|discriminate H].
  apply andb_true_iff in H. destruct H as [H H3]. apply andb_true_iff in H. destruct H as [H1 H2]. apply (ion_warns t name q sh L I G (config_ok _ _ C) (occupiedb_ok _ H1) (electrons_nonempty _ H2)).
  destruct (total_z radial_table (text name) L); [discriminate H3|reflexivity].
Qed.
Lemma valence_missing : forallb (fun n => missing (text n) 0) no_valence = true.
Proof. vm_compute. reflexivity. Qed.
Definition light (a : Z * string * str) : Prop := let '(z, name, t) := a in element z name /\ (z <= 36)%Z /\ z <> 10%Z /\ name_text t /\ titled t = text name.
Lemma light_ion : forall z name t, light (z, name, t) -> ion_of t name 0.
Proof. intros z name t (E & Z36 & Z10 & N & T). unfold ion_of. change (list_ascii_of_string name) with (text name). rewrite <- T. constructor. exact N. Qed.
Lemma light_amplitude : forall z name t, light (z, name, t) -> exists x, amplitude_of 0 t = Amplitude x /\ Rabs (x - IZR z) <= 6 / 100.
Proof.
  intros z name t H. pose proof (light_ion z name t H) as I. destruct H as (E & Z36 & Z10 & N & T). assert (K : 0 < 1) by lra. assert (B : blank_text []) by constructor. unfold amplitude_of.
  destruct (in_dec string_dec name no_valence) as [M|M].
  - pose proof valence_missing as V. rewrite forallb_forall in V. rewrite (missing_warns t name 0 I (V name M)).
    assert (Z14 : z <> 14%Z). { intros ->. destruct E as [_ E]. cbn in E. injection E as <-. destruct M as [M|[M|[M|[M|[M|[M|[M|[]]]]]]]]; discriminate M. }
    destruct (forward_neutral z name t E) as (f & d & F & X); [lia|exact Z14|exact I|exact N|]. rewrite F. exists f. split; [reflexivity|exact X].
  - destruct (forward_atom z name [] t [] 1 5 E Z36 Z10 M B B I K) as (j & rest & J & X). cbn [app] in J. rewrite app_nil_r in J. rewrite J. exists j. split; [reflexivity|]. apply IZR_le in Z36. lra.
Qed.
Lemma light_shell : forall z name t, light (z, name, t) -> exists v, get_atom_name_ion_charge_shell t = Value v.
Proof.
  intros z name t H. pose proof (light_ion z name t H) as I. destruct H as (E & Z36 & Z10 & N & T). assert (B : blank_text []) by constructor. pose proof (ion_read' [] t [] name 0 B B I) as P. cbn [app] in P. rewrite app_nil_r in P. rewrite P.
  destruct (elements z name E) as (r & R & H); [lia|]. destruct (H 0%Z) as [H1 _]. destruct H1 as (sh & L & G & _); [|assert (G' : get_full_shell (text name) 0 = Value sh) by exact G; rewrite G'; eexists; reflexivity].
  split; [lia|].
  assert (C : forallb (fun z => (core z <=? z)%Z) (map Z.of_nat (seq 1 36)) = true) by (vm_compute; reflexivity). rewrite forallb_forall in C. specialize (C z). destruct E as [E1 _]. apply Z.le_0_sub, Z.leb_le, C. apply in_map_iff. exists (Z.to_nat z). split; [lia|]. apply in_seq. lia.
Qed.
Lemma loop_light : forall atoms acc, List.Forall light atoms -> acc <> [] \/ atoms <> [] -> exists rows, amplitudes_loop 0 true acc (map snd atoms) = Table (acc ++ rows) /\
  Forall2 (fun a x => Rabs (x - IZR (fst (fst a))) <= 6 / 100) atoms rows.
Proof.
  induction atoms as [|[[z name] t] l IH]; intros acc F N.
  - exists []. split; [|constructor]. rewrite app_nil_r. cbn [map amplitudes_loop]. destruct acc; [destruct N; contradiction|reflexivity].
  - inversion F as [|? ? F1 F2]; subst. destruct (light_amplitude z name t F1) as (x & A & X). destruct (light_shell z name t F1) as (v & S). cbn [map snd amplitudes_loop]. rewrite A, S.
    destruct (IH (acc ++ [x]) F2) as (rows & R & G); [left; destruct acc; discriminate|]. exists (x :: rows). rewrite R, <- app_assoc. split; [reflexivity|]. constructor; [exact X|exact G].
Qed.
Lemma light_table : forall atoms, atoms <> [] -> List.Forall (fun a : Z * string * str => let '(z, name, t) := a in element z name /\ (z <= 36)%Z /\ z <> 10%Z /\ name_text t /\ titled t = text name) atoms ->
  exists rows, crystal_amplitudes 0 (map snd atoms) = Table rows /\ Forall2 (fun a x => Rabs (x - IZR (fst (fst a))) <= 6 / 100) atoms rows.
Proof. intros atoms N F. destruct (loop_light atoms [] F) as (rows & R & G); [right; exact N|]. exists rows. split; [exact R|exact G]. Qed.

(** iron and K1- *)
Lemma light_iron : light (26%Z, "Fe"%string, text "Fe").
Proof. split; [split; reflexivity|]. split; [lia|]. split; [lia|]. split; [split; [discriminate|repeat constructor]|vm_compute; reflexivity]. Qed.
Lemma lost_row : (exists x, crystal_amplitudes 0 [text "Fe"] = Table [x]) /\ crystal_amplitudes 0 [text "Fe"; text "K1-"] = NoTable.
Proof.
  destruct (light_amplitude _ _ _ light_iron) as (x & A & _). destruct (light_shell _ _ _ light_iron) as (v & S).
  assert (I : ion_of (text "K1-") "K" (-1)).
  { assert (N : name_text (text "K")) by (split; [discriminate|repeat constructor]). assert (D : number_text (text "1")) by (split; [discriminate|repeat constructor]).
    unfold ion_of. change (list_ascii_of_string "K") with (titled (text "K")). change (text "K1-") with (text "K" ++ text "1" ++ ["-"%char]). constructor; [exact N|exact D|]. right. split; reflexivity. }
  assert (M : missing (text "K") (-1) = true) by (vm_compute; reflexivity). pose proof (missing_warns _ _ _ I M) as W.
  assert (T : forall s, calc_scattering_amplitude_tabulated (text "K1-") s = Raises KeyError).
  { intros s. unfold calc_scattering_amplitude_tabulated. assert (E : find_amplitude amplitude_table (capitalize (text "K1-")) = Raises KeyError) by (vm_compute; reflexivity). rewrite E. reflexivity. }
  assert (G : exists w, get_atom_name_ion_charge_shell (text "K1-") = Value w) by (eexists; vm_compute; reflexivity). destruct G as (w & G).
  split.
  - exists x. unfold crystal_amplitudes. cbn [amplitudes_loop]. rewrite A, S. reflexivity.
  - unfold crystal_amplitudes. cbn [amplitudes_loop]. rewrite A, S. assert (A' : amplitude_of 0 (text "K1-") = NoAmplitude) by (unfold amplitude_of; rewrite W, T; reflexivity). rewrite A', G. reflexivity.
Qed.
Lemma light_met : light (8%Z, "O"%string, text "O") /\ light (19%Z, "K"%string, text "k").
Proof. split; (split; [split; reflexivity|]; split; [lia|]; split; [lia|]; split; [split; [discriminate|repeat constructor]|vm_compute; reflexivity]). Qed.
