(** C110, C111: the tables of X-ray amplitudes and of magnetic form factors. *)
From Coq Require Import Reals ZArith String List Ascii.
From Coquelicot Require Import Coquelicot.
From Verif Require Import Spec.IonSpec Spec.FormSpec Model.Strings Model.Ions Model.AtomFactors Model.FormTables Proofs.FormTablesP.
Import ListNotations.
Open Scope R_scope.

(** Elements 1-98 except silicon, in capitals or small letters: an amplitude is found, and in the forward direction it is the atomic
    number to 0.06. *)
Theorem C110_elements_partial : forall z name t, element z name -> (z <= 98)%Z -> z <> 14%Z -> ion_of t name 0 -> name_text t ->
  exists f d, calc_scattering_amplitude_tabulated t 0 = Value (f, d) /\ Rabs (f - IZR z) <= 6 / 100.
Proof. exact forward_neutral. Qed.
Print Assumptions C110_elements_partial.
(** Silicon has no amplitude. *)
Theorem C110_silicon_refuted : forall t s, titled t = list_ascii_of_string "Si" -> name_text t -> calc_scattering_amplitude_tabulated t s = Raises KeyError.
Proof. exact silicon. Qed.
Print Assumptions C110_silicon_refuted.
(** Ions: whenever there is an amplitude, it is the number of electrons in the forward direction. *)
Theorem C110_ions : forall z name txt num c q, element z name -> name_text txt -> titled txt = list_ascii_of_string name -> number_text num -> signed c (decimal num) q ->
  calc_scattering_amplitude_tabulated (txt ++ num ++ [c]) 0 = Raises KeyError \/
  exists f d, calc_scattering_amplitude_tabulated (txt ++ num ++ [c]) 0 = Value (f, d) /\ Rabs (f - IZR (z - q)) <= 6 / 100.
Proof. exact forward_ion. Qed.
Print Assumptions C110_ions.
(** The second value is the derivative of the first, for every symbol and angle. *)
Theorem C110_derivative : forall ion s f d, calc_scattering_amplitude_tabulated ion s = Value (f, d) ->
  exists F : R -> R, (forall t : R, exists d' : R, calc_scattering_amplitude_tabulated ion t = Value (F t, d')) /\ F s = f /\ is_derive F s d.
Proof. exact derivative. Qed.
Print Assumptions C110_derivative.
(** The amplitude decreases with the angle, except for the eight ions of [rising]; that of K1+ grows beyond its forward value. *)
Theorem C110_decreasing_partial : forall ion s t fs ds ft dt,
  ~ In (capitalize ion) (map list_ascii_of_string ["K1+"; "Ca2+"; "Sc3+"; "Ti3+"; "Ti4+"; "V5+"; "Pd4+"; "Sn4+"]%string) -> 0 <= s <= t ->
  calc_scattering_amplitude_tabulated ion s = Value (fs, ds) -> calc_scattering_amplitude_tabulated ion t = Value (ft, dt) -> ft <= fs.
Proof. exact decreasing. Qed.
Print Assumptions C110_decreasing_partial.
Theorem C110_decreasing_refuted : exists f d g e, calc_scattering_amplitude_tabulated (list_ascii_of_string "K1+") 0 = Value (f, d) /\
  calc_scattering_amplitude_tabulated (list_ascii_of_string "K1+") 100 = Value (g, e) /\ f < g.
Proof. exact potassium. Qed.
Print Assumptions C110_decreasing_refuted.
(** Magnetic form factors: 1 in the forward direction, to 0.006, for the ions of the list, whatever the Lande factor and kappa. *)
Theorem C111_forward_partial : forall w1 t w2 name q, blank_text w1 -> blank_text w2 -> ion_of t name q -> In (name, q) magnetic_ions ->
  exists j0 j2, get_j0_j2_parameters (w1 ++ t ++ w2) = Value (j0, j2) /\ forall lande kappa, Rabs (calc_form_factor false 0 lande kappa j0 j2 - 1) <= 6 / 1000.
Proof. exact magnetic_forward. Qed.
Print Assumptions C111_forward_partial.
(** Every other ion, without a warning: 0 at every angle. *)
Theorem C111_unknown_refuted : forall w1 t w2 name q, blank_text w1 -> blank_text w2 -> ion_of t name q -> ~ In (name, q) magnetic_ions ->
  exists j0 j2, get_j0_j2_parameters (w1 ++ t ++ w2) = Value (j0, j2) /\ forall only_orbital s lande kappa, calc_form_factor only_orbital s lande kappa j0 j2 = 0.
Proof. exact magnetic_unknown. Qed.
Print Assumptions C111_unknown_refuted.
Example C110_C111_met : element 26 "Fe" /\ name_text (text "fE") /\ titled (text "fE") = text "Fe" /\ number_text (text "3") /\ signed "+" (decimal (text "3")) 3 /\
  calc_scattering_amplitude_tabulated (text "fE3+") 0 <> Raises KeyError /\ ~ In (capitalize (text "fE3+")) (map text rising) /\ ion_of (text "fE3+") "Fe" 3 /\ In ("Fe"%string, 3%Z) magnetic_ions /\
  ion_of (text "si") "Si" 0 /\ ~ In ("Si"%string, 0%Z) magnetic_ions.
Proof. exact table_met. Qed.
