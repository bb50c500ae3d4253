(** Model of cryspy/E_data_classes/cl_1_crystal.py l.689-715 (in Crystal.get_dictionary): the table of X-ray amplitudes of the atoms of a
    crystal, for one value of sin(theta)/lambda (the code tabulates 501 values at once).  The table of dispersion of l.710-713 is not
    modelled, but the exceptions of l.709 are. *)
From Coq Require Import Reals ZArith String List Ascii.
From Verif Require Import Model.Strings Model.Ions Model.Slater Model.FormTables Model.IonFactor.
Import ListNotations.
Open Scope R_scope.

(** Fails None: an exception that [exn] does not name *)
Inductive entry := Amplitude (x : R) | NoAmplitude | Fails (e : option exn).
(** l.698-705 *)
Definition amplitude_of (s : R) (type_symbol : str) : entry :=
  match calc_jl_for_ion s type_symbol 1 5 with
  | Good (Some (x :: _)) => Amplitude x
  | Good _ => Fails None
  | Raised UserWarning =>
    match calc_scattering_amplitude_tabulated type_symbol s with
    | Value p => Amplitude (fst p)
    | Raises KeyError => NoAmplitude
    | Raises e => Fails (Some e)
    end
  | Raised e => Fails (Some e)
  | UnboundLocalError => Fails None
  end.
(** NoTable: the dictionary has no key table_atom_scattering_amplitude *)
Inductive table := Table (rows : list R) | NoTable | Failed (e : option exn).
(** l.697-715; [flag]: flag_atom_scattering_amplitude; numpy.stack of an empty list raises ValueError *)
Fixpoint amplitudes_loop (s : R) (flag : bool) (rows : list R) (symbols : list str) : table :=
  match symbols with
  | [] => if flag then match rows with [] => Failed (Some ValueError) | _ => Table rows end else NoTable
  | type_symbol :: r =>
    match amplitude_of s type_symbol with
    | Fails e => Failed e
    | a =>
      let '(flag, rows) := match a with Amplitude x => (flag, if flag then rows ++ [x] else rows) | _ => (false, rows) end in
      match get_atom_name_ion_charge_shell type_symbol with
      | Raises e => Failed (Some e)
      | Value _ => amplitudes_loop s flag rows r
      end
    end
  end.
Definition crystal_amplitudes (s : R) (symbols : list str) : table := amplitudes_loop s true [] symbols.
