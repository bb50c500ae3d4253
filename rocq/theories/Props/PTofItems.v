(** C114: the background and the incident spectrum of a time-of-flight experiment in the fit. *)
From Coq Require Import Reals List String.
From Verif Require Import Spec.TofItemSpec Model.Background Model.TofItems Proofs.TofItemsP.
Import ListNotations.
Open Scope list_scope.
Open Scope R_scope.

(** The background of the object is the series of cosines with its coefficients and half period time_max; coefficients not given count as zero. *)
Theorem C114_background : forall b t,
  item_background b t = cosine_series (fun i => coeff_value (nth i (tb_attrs b) None)) (S (List.length (tb_rest b))) (tb_time_max b) t.
Proof. exact item_series. Qed.
Print Assumptions C114_background.
(** The background of the fit has the same coefficients, but the longest measured time as half period. *)
Theorem C114_fit : forall times b k T, (k < List.length times)%nat -> In T times -> (forall x, In x times -> x <= T) ->
  nth k (fit_background times b) 0 = cosine_series (fun i => coeff_value (nth i (tb_attrs b) None)) (S (List.length (tb_rest b))) T (nth k times 0).
Proof. exact fit_series. Qed.
Print Assumptions C114_fit.
(** It is the background of the object when time_max is the longest time measured. *)
Theorem C114_same_partial : forall times b k, (k < List.length times)%nat -> In (tb_time_max b) times -> (forall x, In x times -> x <= tb_time_max b) ->
  nth k (fit_background times b) 0 = item_background b (nth k times 0).
Proof. exact fit_same. Qed.
Print Assumptions C114_same_partial.
(** Otherwise it is not: for every time_max there are coefficients and a measured time below it where the two differ, *)
Theorem C114_time_max_refuted : forall T, 0 < T -> exists b times t,
  tb_time_max b = T /\ times = [t] /\ 0 < t < T /\ nth 0 (fit_background times b) 0 <> item_background b t.
Proof. exact fit_differs. Qed.
Print Assumptions C114_time_max_refuted.
(** and a longer range of measured times changes the background at a time that is in both. *)
Theorem C114_range_refuted : forall t, 0 < t -> exists b, nth 0 (fit_background [t; 2 * t] b) 0 <> nth 0 (fit_background [t] b) 0.
Proof. exact range_differs. Qed.
Print Assumptions C114_range_refuted.
(** Each coefficient goes to the fit with its own refinement flag. *)
Theorem C114_flags : forall b, List.length (get_flags_coefficients b) = List.length (get_coefficients b) /\
  forall k c f, nth k (tb_attrs b) None = Some (c, f) -> nth_error (get_coefficients b) k = Some c /\ nth_error (get_flags_coefficients b) k = Some f.
Proof. exact flags_match. Qed.
Print Assumptions C114_flags.
(** Fitted coefficients written back to the object are the coefficients it gives for the next fit, with the same flags. *)
Theorem C114_written_back : forall b cs, List.length cs = List.length (get_coefficients b) ->
  get_coefficients (put_back b cs) = cs /\ tb_time_max (put_back b cs) = tb_time_max b /\ get_flags_coefficients (put_back b cs) = get_flags_coefficients b.
Proof. exact written_back. Qed.
Print Assumptions C114_written_back.
Example C114_met : fit_background [1; 2] (mkTBkg 2 (3, true) [None; Some (4, false)]) = [-1; 7] /\
  get_coefficients (mkTBkg 2 (3, true) [None; Some (4, false); None]) = [3; 0; 4] /\
  get_flags_coefficients (mkTBkg 2 (3, true) [None; Some (4, false); None]) = [true; false; false].
Proof. exact ex_met. Qed.
(** The spectrum of the object and that of the fit are the documented one, *)
Theorem C114_spectrum : forall kind a t, fit_spectrum kind a t = item_spectrum kind a t /\
  item_spectrum kind a t = if String.eqb kind "Empirical-Exponents" then empirical_spectrum a t else maxwell_spectrum a t.
Proof. exact spectrum_documented. Qed.
Print Assumptions C114_spectrum.
(** and positive for positive amplitudes. *)
Theorem C114_spectrum_positive : forall kind a t, 0 < t -> 0 <= a 0%nat -> 0 < a 1%nat -> 0 <= a 3%nat -> 0 <= a 5%nat -> 0 <= a 7%nat -> 0 < item_spectrum kind a t.
Proof. exact spectrum_positive. Qed.
Print Assumptions C114_spectrum_positive.
(** But an experiment that has an incident spectrum gives no dictionary, so it cannot be fitted; without one it does. *)
Theorem C114_incident_refuted : forall items, (exists l, data_dictionary items = Some l) <-> forall kind a flags, ~ In (TIncident kind a flags) items.
Proof. exact dictionary_iff. Qed.
Print Assumptions C114_incident_refuted.
