(** C112: X-ray amplitudes of ions from Slater orbitals. *)
From Coq Require Import Reals ZArith String List Ascii.
From Verif Require Import Spec.IonSpec Spec.FormSpec Model.Strings Model.Ions Model.IonFactor Proofs.ShellsP Proofs.IonTableP.
Import ListNotations.
Open Scope R_scope.

(** Any ion of the elements up to krypton except neon: the amplitude in the forward direction is the number of electrons to a thousandth,
    or an exception is raised. *)
Theorem C112_forward_partial : forall z name w1 t w2 q kappa l_max, element z name -> (z <= 36)%Z -> z <> 10%Z -> blank_text w1 -> blank_text w2 -> ion_of t name q -> (q < z)%Z -> 0 < kappa ->
  (exists e, calc_jl_for_ion 0 (w1 ++ t ++ w2) kappa l_max = Raised e) \/
  exists j rest, calc_jl_for_ion 0 (w1 ++ t ++ w2) kappa l_max = Good (Some (j :: rest)) /\ Rabs (j - IZR (z - q)) <= IZR (z - q) / 1000.
Proof. exact forward. Qed.
Print Assumptions C112_forward_partial.
(** Neutral atoms: nothing is raised, but for seven elements. *)
Theorem C112_atoms_partial : forall z name w1 t w2 kappa l_max, element z name -> (z <= 36)%Z -> z <> 10%Z -> ~ In name ["K"; "Ca"; "Ga"; "Ge"; "As"; "Se"; "Kr"]%string ->
  blank_text w1 -> blank_text w2 -> ion_of t name 0 -> 0 < kappa ->
  exists j rest, calc_jl_for_ion 0 (w1 ++ t ++ w2) kappa l_max = Good (Some (j :: rest)) /\ Rabs (j - IZR z) <= IZR z / 1000.
Proof. exact forward_atom. Qed.
Print Assumptions C112_atoms_partial.
(** Molybdenum, atomic number 42, scatters like more than 53 electrons: two of its orbitals in the table are normalised to more than 2. *)
Theorem C112_molybdenum_refuted : element 42 "Mo" /\ forall w1 t w2 kappa l_max, blank_text w1 -> blank_text w2 -> ion_of t "Mo" 0 -> 0 < kappa ->
  exists j rest, calc_jl_for_ion 0 (w1 ++ t ++ w2) kappa l_max = Good (Some (j :: rest)) /\ 53 < j.
Proof. exact (conj (conj eq_refl eq_refl) molybdenum). Qed.
Print Assumptions C112_molybdenum_refuted.
(** A proton has no sub-shell: IndexError instead of 0. *)
Theorem C112_proton_refuted : forall s kappa l_max, calc_jl_for_ion s (list_ascii_of_string "H1+") kappa l_max = Raised IndexError.
Proof. exact proton. Qed.
Print Assumptions C112_proton_refuted.
Example C112_met : element 26 "Fe" /\ ion_of (text "fe3+") "Fe" 3 /\ ion_of (text "MO") "Mo" 0 /\
  exists sh L, get_full_shell (text "Fe") 3 = Value sh /\ config sh = Some L /\ found_all (text "Fe") L = true.
Proof. exact forward_met. Qed.
