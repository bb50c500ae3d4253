(** Model of cryspy/A_functions_base/charge_form_factor.py l.6-9 and l.116-152: calc_jl_for_shell_of_ion and calc_jl_for_ion, the X-ray
    amplitudes of ions from Slater orbitals, for one value of sin(theta)/lambda; with the table of Model/RadialTable.v (elements up to
    krypton, and molybdenum: for others the KeyError of the model says nothing about the code). *)
From Coq Require Import Reals ZArith String List Ascii.
From Verif Require Import Model.Strings Model.Numbers Model.Ions Model.Slater Model.RadialTable.
Import ListNotations.
Open Scope R_scope.

(** UnboundLocalError is the one of calc_jl, which the outcomes of Model/Ions.v do not name. *)
Inductive result (A : Type) := Good (a : A) | Raised (e : exn) | UnboundLocalError.
Arguments Good {A} a. Arguments Raised {A} e. Arguments UnboundLocalError {A}.
Definition try {A B} (x : outcome A) (f : A -> result B) : result B := match x with Value a => f a | Raises e => Raised e end.

Definition slater_of (o : Z * nat * Z) : slater := let '(c, n, z) := o in (IZR c / 100000000, n, IZR z / 1000000).
Definition same_text (a b : str) : bool := if list_eq_dec ascii_dec a b then true else false.
Fixpoint find_orbital (t : list (string * string * list (Z * nat * Z))) (atom shell : str) : option (list (Z * nat * Z)) :=
  match t with
  | [] => None
  | (a, s, o) :: r => if same_text (text a) atom then if same_text (text s) shell then Some o else find_orbital r atom shell else find_orbital r atom shell
  end.
(** jl*n_el, and += *)
Definition times (n : Z) (jl : list R) : list R := map (fun x => x * IZR n) jl.
Definition plus (n : Z) (res : option (list R)) (jl : list R) : list R :=
  match res with None => times n jl | Some s => map (fun p => fst p + snd p) (combine s (times n jl)) end.
(** l.121-145: the loop over the sub-shells; the KeyError of the table becomes a UserWarning *)
Fixpoint shells_loop (table : list (string * string * list (Z * nat * Z))) (sthovl : R) (atom : str) (kappa : R) (l_max : nat) (res : option (list R)) (l : list str) : result (option (list R)) :=
  match l with
  | [] => Good res
  | orbital :: r =>
    try (read_orbital orbital) (fun x => let '(n_shell, orbit_name, n_el) := x in
      match find_orbital table (capitalize atom) (lower (print_Z n_shell ++ [orbit_name])) with
      | None => Raised UserWarning
      | Some o =>
        match calc_jl sthovl (map slater_of o) kappa l_max with
        | None => UnboundLocalError
        | Some jl => shells_loop table sthovl atom kappa l_max (Some (plus n_el res jl)) r
        end
      end)
  end.
(** l.116-146; None is Python's None, for a shell of blanks *)
Definition calc_jl_for_shell_of_ion (sthovl : R) (ion_name shell : str) (kappa : R) (l_max : nat) : result (option (list R)) :=
  match shell with
  | _ :: _ :: _ =>
    try (get_atom_name_ion_charge_shell ion_name) (fun x => let '(atom_name, _, full) := x in
    try (n_total_el full) (fun _ => shells_loop radial_table sthovl atom_name kappa l_max None (split_ws [] (strip shell))))
  | _ => Raised IndexError
  end.
(** l.149-152 *)
Definition calc_jl_for_ion (sthovl : R) (ion_name : str) (kappa : R) (l_max : nat) : result (option (list R)) :=
  try (get_atom_name_ion_charge_shell ion_name) (fun x => let '(_, _, full) := x in calc_jl_for_shell_of_ion sthovl ion_name full kappa l_max).
