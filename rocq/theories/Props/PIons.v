(** C107, C108: ion symbols and the electrons of ions. *)
From Coq Require Import ZArith List Ascii String.
From Verif Require Import Spec.IonSpec Model.Ions Proofs.IonsP Proofs.ShellsP.
Import ListNotations.
Open Scope Z_scope.

(** A name, a number and a sign, in capitals or small letters and with blanks around: the element, the charge, no isotope. *)
Theorem C107_charge : forall w1 name num c q w2, blank_text w1 -> blank_text w2 -> name_text name -> number_text num -> signed c (decimal num) q ->
  ion_parts (w1 ++ (name ++ num ++ [c]) ++ w2) = Value (titled name, q, None).
Proof. exact charged_ion. Qed.
Print Assumptions C107_charge.
Example C107_charge_met : name_text (list_ascii_of_string "fE") /\ titled (list_ascii_of_string "fE") = list_ascii_of_string "Fe" /\ number_text (list_ascii_of_string "3") /\
  signed "+" (decimal (list_ascii_of_string "3")) 3 /\ blank_text (list_ascii_of_string " ").
Proof. exact ion_met. Qed.
(** A name alone, and a name with the isotope number in front. *)
Theorem C107_neutral : forall w1 name w2, blank_text w1 -> blank_text w2 -> name_text name -> ion_parts (w1 ++ name ++ w2) = Value (titled name, 0, None).
Proof. exact neutral_ion. Qed.
Print Assumptions C107_neutral.
Theorem C107_isotope : forall w1 iso name w2, blank_text w1 -> blank_text w2 -> number_text iso -> name_text name ->
  ion_parts (w1 ++ (iso ++ name) ++ w2) = Value (titled name, 0, Some (decimal iso)).
Proof. exact isotope_neutral. Qed.
Print Assumptions C107_isotope.
(** Isotope number and charge together, the form of the docstring's example "13C2-": for no such symbol is the element found. *)
Theorem C107_isotope_charge_refuted : forall w1 iso name num c q w2, blank_text w1 -> blank_text w2 -> number_text iso -> name_text name -> number_text num -> signed c (decimal num) q ->
  forall q' i, ion_parts (w1 ++ (iso ++ name ++ num ++ [c]) ++ w2) <> Value (titled name, q', i).
Proof. exact isotope_charged. Qed.
Print Assumptions C107_isotope_charge_refuted.
Example C107_isotope_charge_met : number_text (list_ascii_of_string "13") /\ name_text (list_ascii_of_string "C") /\ number_text (list_ascii_of_string "2") /\ signed "-" (decimal (list_ascii_of_string "2")) (-2) /\
  ion_parts (list_ascii_of_string "13C2-") = Raises IndexError /\ ion_parts (list_ascii_of_string "2H1+") = Raises ValueError /\
  ion_parts (list_ascii_of_string "2H10+") = Value (list_ascii_of_string "H1", 0, Some 2).
Proof. exact isotope_met. Qed.
(** A sign without a number: the sign becomes a part of the name and the charge is 0. *)
Theorem C107_bare_sign_refuted : forall w1 name c w2, blank_text w1 -> blank_text w2 -> name_text name -> c = "+"%char \/ c = "-"%char ->
  ion_parts (w1 ++ (name ++ [c]) ++ w2) = Value (titled name ++ [c], 0, None).
Proof. exact bare_sign. Qed.
Print Assumptions C107_bare_sign_refuted.

(** A positive charge takes the electrons of the last sub-shells of the text. *)
Theorem C108_cation : forall t A n l e B q, spells t (A ++ (n, l, e) :: B) -> Forall occupied (A ++ (n, l, e) :: B) -> 0 < q -> electrons B <= q < electrons B + e ->
  exists t', add_ion_charge_to_shell t q = Value t' /\ spells t' (A ++ [(n, l, e - (q - electrons B))]).
Proof. exact cation. Qed.
Print Assumptions C108_cation.
(** A negative charge fills the first sub-shells with room. *)
Theorem C108_anion : forall t A n l e B k, spells t (A ++ (n, l, e) :: B) -> Forall occupied (A ++ (n, l, e) :: B) -> room A < k <= room A + room_of (n, l, e) ->
  exists t', add_ion_charge_to_shell t (- k) = Value t' /\ spells t' (map filled A ++ (n, l, e + (k - room A)) :: B).
Proof. exact anion. Qed.
Print Assumptions C108_anion.
Example C108_shell_met : spells iron_shell [(3, "d"%char, 6); (4, "s"%char, 2)] /\ Forall occupied [(3, "d"%char, 6); (4, "s"%char, 2)] /\
  electrons [(4, "s"%char, 2)] <= 3 < electrons [(4, "s"%char, 2)] + 6 /\ room [] < 2 <= room [] + room_of (3, "d"%char, 6) /\
  add_ion_charge_to_shell iron_shell 3 = Value (list_ascii_of_string "3d5").
Proof. exact iron_met. Qed.
(** Every charge: the electrons are those of the text less the charge, no sub-shell holds more than it can, and the request is refused
    exactly when there are not enough electrons or not enough room. *)
Theorem C108_any_charge : forall t L, spells t L -> Forall occupied L -> forall q,
  (- room L <= q <= electrons L -> exists t' L', add_ion_charge_to_shell t q = Value t' /\ spells t' L' /\ electrons L' = electrons L - q /\ Forall occupied L') /\
  (q < - room L \/ electrons L < q -> add_ion_charge_to_shell t q = Raises UserWarning).
Proof. exact any_charge. Qed.
Print Assumptions C108_any_charge.
(** The elements: atomic number less charge electrons in the configuration; positive charges are accepted up to the number of electrons
    outside the noble gas before the element. *)
Theorem C108_elements_partial : forall z name, element z name -> z < 118 -> exists r, 0 <= r /\ forall q,
  (- r <= q <= z - core z -> exists t L, get_full_shell (list_ascii_of_string name) q = Value t /\ spells t L /\ electrons L = z - q /\ Forall occupied L) /\
  (q < - r \/ z - core z < q -> get_full_shell (list_ascii_of_string name) q = Raises UserWarning).
Proof. exact elements. Qed.
Print Assumptions C108_elements_partial.
Example C108_elements_met : element 26 "Fe" /\ core 26 = 18 /\ element 8 "O" /\ core 8 = 2 /\
  get_full_shell (list_ascii_of_string "Fe") 3 = Value (list_ascii_of_string "1s2 2s2 2p6 3s2 3p6 3d5") /\
  get_full_shell (list_ascii_of_string "O") (-2) = Value (list_ascii_of_string "1s2 2s2 2p6") /\
  get_full_shell (list_ascii_of_string "O") (-3) = Raises UserWarning.
Proof. exact elements_met. Qed.
(** The number of electrons counted for an ion symbol. *)
Theorem C108_ion_electrons : forall z name nm w1 w2 num c q, element z name -> z < 118 -> name_text nm -> titled nm = list_ascii_of_string name -> blank_text w1 -> blank_text w2 ->
  number_text num -> signed c (decimal num) q -> 0 <= q <= z - core z ->
  exists t L, get_atom_name_ion_charge_shell (w1 ++ (nm ++ num ++ [c]) ++ w2) = Value (list_ascii_of_string name, q, t) /\ spells t L /\ n_total_el t = Value (z - q) /\ electrons L = z - q.
Proof. exact ion_shell. Qed.
Print Assumptions C108_ion_electrons.
(** Names that are not chemical symbols, the D of deuterium among them, raise KeyError. *)
Theorem C108_unknown : forall name q, ~ In name (map list_ascii_of_string periodic_table) -> get_full_shell name q = Raises KeyError.
Proof. exact unknown. Qed.
Print Assumptions C108_unknown.
Example C108_deuterium : get_full_shell (list_ascii_of_string "D") 0 = Raises KeyError.
Proof. exact deuterium. Qed.
(** Element 118: its last sub-shell is written without a number. *)
Theorem C108_oganesson_refuted : (forall q, q <> 0 -> get_full_shell (list_ascii_of_string "Og") q = Raises ValueError) /\
  exists t, get_full_shell (list_ascii_of_string "Og") 0 = Value t /\ n_total_el t = Raises ValueError.
Proof. exact oganesson. Qed.
Print Assumptions C108_oganesson_refuted.
