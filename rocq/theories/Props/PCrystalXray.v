(** C113: the table of X-ray amplitudes of the atoms of a crystal. *)
From Coq Require Import Reals ZArith String List Ascii.
From Verif Require Import Spec.Text Spec.IonSpec Spec.FormSpec Model.Strings Model.Ions Model.FormTables Model.IonFactor Model.CrystalXray Proofs.CrystalXrayP.
Import ListNotations.
Open Scope R_scope.

(** Every row belongs to the atom at its place: the amplitude from the orbitals, or, when an orbital is missing, the tabulated one. *)
Theorem C113_rows : forall s symbols rows, crystal_amplitudes s symbols = Table rows ->
  Forall2 (fun symbol x => (exists r, calc_jl_for_ion s symbol 1 5 = Good (Some (x :: r))) \/
    (calc_jl_for_ion s symbol 1 5 = Raised UserWarning /\ exists d, calc_scattering_amplitude_tabulated symbol s = Value (x, d))) symbols rows.
Proof. exact rows_own. Qed.
Print Assumptions C113_rows.
(** Neutral atoms up to krypton, but neon: there is a table, and each row is the atomic number in the forward direction. *)
Theorem C113_forward_partial : forall atoms, atoms <> [] ->
  List.Forall (fun a : Z * string * list ascii => let '(z, name, t) := a in element z name /\ (z <= 36)%Z /\ z <> 10%Z /\ name_text t /\ titled t = list_ascii_of_string name) atoms ->
  exists rows, crystal_amplitudes 0 (map snd atoms) = Table rows /\ Forall2 (fun a x => Rabs (x - IZR (fst (fst a))) <= 6 / 100) atoms rows.
Proof. exact light_table. Qed.
Print Assumptions C113_forward_partial.
Example C113_forward_met : light (8%Z, "O"%string, text "O") /\ light (19%Z, "K"%string, text "k").
Proof. exact light_met. Qed.
(** A symbol that is no element, as the D of deuterium: the dictionary of the crystal is not made at all, at any angle. *)
Theorem C113_unknown_refuted : forall s symbols t, name_text t -> ~ In (titled t) (map list_ascii_of_string periodic_table) -> In t symbols ->
  (exists e, crystal_amplitudes s symbols = Failed e) /\ crystal_amplitudes s [t] = Failed (Some KeyError).
Proof. exact unknown_fails. Qed.
Print Assumptions C113_unknown_refuted.
Example C113_unknown_met : name_text (text "D") /\ ~ In (titled (text "D")) (map text periodic_table).
Proof. exact deuterium_met. Qed.
(** One ion without an amplitude takes away the rows of all other atoms. *)
Theorem C113_lost_refuted : (exists x, crystal_amplitudes 0 [text "Fe"] = Table [x]) /\ crystal_amplitudes 0 [text "Fe"; text "K1-"] = NoTable.
Proof. exact lost_row. Qed.
Print Assumptions C113_lost_refuted.
