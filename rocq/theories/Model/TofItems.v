(** Model of the items for the background and the incident spectrum of a time-of-flight experiment and of their use in the fit:
    C_item_loop_classes/cl_1_tof_background.py, cl_1_tof_intensity_incident.py, E_data_classes/cl_2_tof.py, procedure_rhochi/rhochi_tof.py.
    Floats are reals; an attribute that is not defined is None (an attribute defined as the Python None is not modelled). *)
From Coq Require Import Reals List String.
From Verif Require Import Model.Background.
Import ListNotations.
Open Scope list_scope.
Open Scope R_scope.

(** cl_1_tof_background.py l.11-48: time_max and coeff1 are mandatory, coeff2 .. coeff18 optional; each coefficient with its refinement flag
    (l.68-69: False by default).  The number of optional coefficients is not fixed to 17. *)
Record tbkg := mkTBkg { tb_time_max : R; tb_first : R * bool; tb_rest : list (option (R * bool)) }.
Definition tb_attrs (b : tbkg) : list (option (R * bool)) := Some (tb_first b) :: tb_rest b.
(** l.95-166 calc_background at one time: a term is added for each coefficient that is defined *)
Fixpoint add_terms (l : list (option (R * bool))) (k : nat) (time_rel res : R) : R :=
  match l with
  | [] => res
  | Some (c, _) :: r => add_terms r (S k) time_rel (res + c * cos (INR k * time_rel))
  | None :: r => add_terms r (S k) time_rel res
  end.
Definition item_background (b : tbkg) (time : R) : R :=
  let time_rel := time / tb_time_max b * PI in add_terms (tb_rest b) 1 time_rel (fst (tb_first b) * cos (0 * time_rel)).
(** l.168-183 get_coefficients: the value or zero for all, cut after the last one that is defined (the branch for TypeError is not modelled) *)
Fixpoint last_number {A : Type} (l : list (option A)) (numb last : nat) : nat :=
  match l with [] => last | Some _ :: r => last_number r (S numb) numb | None :: r => last_number r (S numb) last end.
Definition coeff_value (o : option (R * bool)) : R := match o with Some (c, _) => c | None => 0 end.
Definition get_coefficients (b : tbkg) : list R := firstn (last_number (tb_attrs b) 1 1) (map coeff_value (tb_attrs b)).
(** l.185-196 get_flags_coefficients *)
Definition coeff_flag (o : option (R * bool)) : bool := match o with Some (_, f) => f | None => false end.
Definition get_flags_coefficients (b : tbkg) : list bool := firstn (last_number (tb_attrs b) 1 1) (map coeff_flag (tb_attrs b)).
(** cl_2_tof.py l.229-233: the fitted values are written to coeff1, coeff2, ...; an attribute that was not defined becomes defined *)
Fixpoint put (l : list (option (R * bool))) (cs : list R) : list (option (R * bool)) :=
  match l, cs with
  | o :: l', c :: cs' => Some (c, coeff_flag o) :: put l' cs'
  | _, _ => l
  end.
Definition put_back (b : tbkg) (cs : list R) : tbkg :=
  match cs with [] => b | c :: r => mkTBkg (tb_time_max b) (c, snd (tb_first b)) (put (tb_rest b) r) end.
(** rhochi_tof.py l.144-153: the background of the fit; the dictionary has the key background_time_max (cl_1_tof_background.py l.200), which is
    not used: x_min and x_max keep their default values. *)
Definition fit_background (times : list R) (b : tbkg) : list R := calc_background_by_cosines times (get_coefficients b) 0 None.

(** cl_1_tof_intensity_incident.py l.82-120 TOFIntensityIncident.calc_spectrum *)
Definition item_spectrum (spectrum : string) (a : nat -> R) (time : R) : R :=
  let time_sq := time * time in let time_4 := time_sq * time_sq in
  if String.eqb spectrum "Empirical-Exponents" then
    a 0%nat + a 1%nat * exp (- a 2%nat * time) + a 3%nat * exp (- a 4%nat * time_sq) + a 5%nat * exp (- a 6%nat * time * time_sq) + a 7%nat * exp (- a 8%nat * time_4)
  else
    a 0%nat + a 1%nat * exp (- a 2%nat * time_sq) / (time * time_4) + a 3%nat * exp (- a 4%nat * time_sq) + a 5%nat * exp (- a 6%nat * time * time_sq) +
      a 7%nat * exp (- a 8%nat * (time_sq * time_sq)).
(** rhochi_tof.py l.53-75 calc_spectrum_incident (the same text as powder_diffraction_tof.py l.9-35 calc_spectrum); no derivatives are calculated *)
Definition fit_spectrum (type : string) (a : nat -> R) (time : R) : R :=
  let time_sq := time * time in let time_4 := time_sq * time_sq in
  if String.eqb type "Empirical-Exponents" then
    a 0%nat + a 1%nat * exp (- a 2%nat * time) + a 3%nat * exp (- a 4%nat * time_sq) + a 5%nat * exp (- a 6%nat * time * time_sq) + a 7%nat * exp (- a 8%nat * time_4)
  else
    a 0%nat + a 1%nat * exp (- a 2%nat * time_sq) / (time * time_4) + a 3%nat * exp (- a 4%nat * time_sq) + a 5%nat * exp (- a 6%nat * time * time_sq) +
      a 7%nat * exp (- a 8%nat * (time_sq * time_sq)).

(** The entries of the dictionary of an experiment that come from these two items. *)
Inductive titem := TBackground (b : tbkg) | TIncident (spectrum : string) (a : nat -> R) (flags : nat -> bool).
Inductive tentry := EBackground (time_max : R) (coefficients : list R) (flags : list bool) | EIncident (type : string) (a : nat -> R) (flags : nat -> bool).
(** cl_1_tof_background.py l.198-203; cl_1_tof_intensity_incident.py l.156-161: get_dictionary of the spectrum refers to the name
    tof_intensity_incident, which is not defined in it nor in its file: NameError (None). *)
Definition item_dictionary (x : titem) : option tentry :=
  match x with
  | TBackground b => Some (EBackground (tb_time_max b) (get_coefficients b) (get_flags_coefficients b))
  | TIncident _ _ _ => None
  end.
(** B_parent_classes/cl_3_data.py l.589-598 DataN.get_dictionary (the other items of the experiment are left out) *)
Fixpoint data_dictionary (items : list titem) : option (list tentry) :=
  match items with
  | [] => Some []
  | x :: r => match item_dictionary x, data_dictionary r with Some e, Some l => Some (e :: l) | _, _ => None end
  end.
