(** Model of cryspy/A_functions_base/charge_form_factor.py l.11-98: ion symbols, and the electron configuration of an ion.
    Strings are lists of ASCII characters (Model/Strings.v); the digits of other alphabets and the underscores that int() accepts are not
    modelled. *)
From Coq Require Import ZArith NArith List Ascii Bool String.
From Verif Require Import Model.Strings Model.Numbers.
Import ListNotations.
Open Scope Z_scope.

Inductive exn := UserWarning | ValueError | IndexError | KeyError.
Inductive outcome (A : Type) := Value (a : A) | Raises (e : exn).
Arguments Value {A} a. Arguments Raises {A} e.
Definition bind {A B} (x : outcome A) (f : A -> outcome B) : outcome B := match x with Value a => f a | Raises e => Raises e end.

(** str.lower, str.capitalize *)
Definition to_lower (c : ascii) : ascii := let n := code c in if (Nat.leb 65 n && Nat.leb n 90)%bool then ch (n + 32) else c.
Definition to_upper (c : ascii) : ascii := let n := code c in if (Nat.leb 97 n && Nat.leb n 122)%bool then ch (n - 32) else c.
Definition lower (s : str) : str := map to_lower s.
Definition capitalize (s : str) : str := match s with [] => [] | c :: r => to_upper c :: lower r end.

(** int(text) *)
Definition py_int (s0 : str) : outcome Z :=
  let s := strip s0 in
  let '(sg, r) := match s with
                  | c :: r => if Ascii.eqb c c_plus then (1, r) else if Ascii.eqb c c_minus then (-1, r) else (1, s)
                  | [] => (1, s) end in
  match r with
  | [] => Raises ValueError
  | _ => if forallb is_digit r then Value (sg * Z.of_N (num_value r)) else Raises ValueError
  end.

(** l.20-28: the loop over the letters; the digits of the isotope number read so far, and the position of the first digit that does not
    belong to them (None: the loop ends without one). *)
Fixpoint scan_letters (i : nat) (isotope : str) (s : str) : str * option nat :=
  match s with
  | [] => (isotope, None)
  | c :: r => if is_digit c then
                if Nat.eqb i (List.length isotope) then scan_letters (S i) (isotope ++ [c]) r else (isotope, Some i)
              else scan_letters (S i) isotope r
  end.
(** l.11-44: get_atomic_symbol_ion_charge_isotope_number_by_ion_symbol. *)
Definition ion_parts (ion_name : str) : outcome (str * Z * option Z) :=
  let sh := lower (strip ion_name) in
  let '(isotope, charge_position) := scan_letters 0 [] sh in
  let '(isotope_position, isotope_number) :=
    match isotope with [] => (0%nat, None) | _ => (List.length isotope, Some (Z.of_N (num_value isotope))) end in
  match charge_position with
  | Some cp =>
    let atom_name := capitalize (slice isotope_position (cp + isotope_position) sh) in
    let ion_charge := skipn (cp + isotope_position) sh in
    match rev ion_charge with
    | [] => Raises IndexError
    | c :: r => bind (py_int (c :: rev r)) (fun q => Value (atom_name, q, isotope_number))
    end
  | None => Value (capitalize (skipn isotope_position sh), 0, isotope_number)
  end.

(** l.91-95: get_shell_orbit_electrons. *)
Definition orbital : Type := Z * ascii * Z.
Definition read_orbital (o : str) : outcome orbital :=
  match o with
  | [] => Raises IndexError
  | c :: r =>
    bind (py_int [c]) (fun n_shell =>
      match r with
      | [] => Raises IndexError
      | l :: e => bind (py_int e) (fun n_el => Value (n_shell, l, n_el))
      end)
  end.
(** f"{n_shell:}{orbit_name:}{n_el:}" *)
Definition print_orbital (n_shell : Z) (orbit_name : ascii) (n_el : Z) : str := print_Z n_shell ++ orbit_name :: print_Z n_el.
(** l.52-53, 75: max_electrons[shells.index(orbit_name)] *)
Definition max_electrons (orbit_name : ascii) : outcome Z :=
  if Ascii.eqb orbit_name "s" then Value 2 else if Ascii.eqb orbit_name "p" then Value 6 else
  if Ascii.eqb orbit_name "d" then Value 10 else if Ascii.eqb orbit_name "f" then Value 14 else Raises ValueError.
(** l.59-69: the loop over the orbitals from the last one, for a positive charge; the charge left and the orbitals appended. *)
Fixpoint remove_electrons (ion_charge : Z) (l_new : list str) (l : list str) : outcome (Z * list str) :=
  match l with
  | [] => Value (ion_charge, l_new)
  | o :: rest =>
    bind (read_orbital o) (fun x => let '(n_shell, orbit_name, n_el) := x in
      if ion_charge <? n_el then remove_electrons 0 (l_new ++ [print_orbital n_shell orbit_name (n_el - ion_charge)]) rest
      else if n_el <=? ion_charge then remove_electrons (ion_charge - n_el) l_new rest
      else if ion_charge =? 0 then remove_electrons ion_charge (l_new ++ [o]) rest
      else remove_electrons ion_charge l_new rest)
  end.
(** l.72-86: the loop for a negative charge. *)
Fixpoint add_electrons (ion_charge : Z) (l_new : list str) (l : list str) : outcome (Z * list str) :=
  match l with
  | [] => Value (ion_charge, l_new)
  | o :: rest =>
    bind (read_orbital o) (fun x => let '(n_shell, orbit_name, n_el) := x in
    bind (max_electrons orbit_name) (fun n_max =>
      let n_add_max := n_max - n_el in
      if 0 <? n_add_max then
        if Z.abs ion_charge <=? n_add_max then add_electrons 0 (l_new ++ [print_orbital n_shell orbit_name (n_el - ion_charge)]) rest
        else add_electrons (ion_charge + n_add_max) (l_new ++ [print_orbital n_shell orbit_name n_max]) rest
      else add_electrons ion_charge (l_new ++ [o]) rest))
  end.
(** l.51-89: add_ion_charge_to_shell. *)
Definition add_ion_charge_to_shell (shell : str) (ion_charge : Z) : outcome str :=
  if ion_charge =? 0 then Value shell
  else
    bind (if 0 <? ion_charge then bind (remove_electrons ion_charge [] (rev (split_ws [] (strip shell)))) (fun x => Value (fst x, rev (snd x)))
          else add_electrons ion_charge [] (split_ws [] (strip shell)))
         (fun x => if fst x =? 0 then Value (join c_space (snd x)) else Raises UserWarning).

(** DATABASE["Elements"]["Orbital occupancy", atom_name], from database.pickle: the 118 elements in the order of the table. *)
Definition occupancies : list (string * string) := [
  ("H", "1s1"); ("He", "1s2"); ("Li", "[He] 2s1"); ("Be", "[He] 2s2");
  ("B", "[He] 2s2 2p1"); ("C", "[He] 2s2 2p2"); ("N", "[He] 2s2 2p3"); ("O", "[He] 2s2 2p4");
  ("F", "[He] 2s2 2p5"); ("Ne", "[He] 2s2 2p6"); ("Na", "[Ne] 3s1"); ("Mg", "[Ne] 3s2");
  ("Al", "[Ne] 3s2 3p1"); ("Si", "[Ne] 3s2 3p2"); ("P", "[Ne] 3s2 3p3"); ("S", "[Ne] 3s2 3p4");
  ("Cl", "[Ne] 3s2 3p5"); ("Ar", "[Ne] 3s2 3p6"); ("K", "[Ar] 4s1"); ("Ca", "[Ar] 4s2");
  ("Sc", "[Ar] 3d1 4s2"); ("Ti", "[Ar] 3d2 4s2"); ("V", "[Ar] 3d3 4s2"); ("Cr", "[Ar] 3d4 4s2");
  ("Mn", "[Ar] 3d5 4s2"); ("Fe", "[Ar] 3d6 4s2"); ("Co", "[Ar] 3d7 4s2"); ("Ni", "[Ar] 3d8 4s2");
  ("Cu", "[Ar] 3d9 4s2"); ("Zn", "[Ar] 3d10 4s2"); ("Ga", "[Ar] 3d10 4s2 4p1"); ("Ge", "[Ar] 3d10 4s2 4p2");
  ("As", "[Ar] 3d10 4s2 4p3"); ("Se", "[Ar] 3d10 4s2 4p4"); ("Br", "[Ar] 3d10 4s2 4p5"); ("Kr", "[Ar] 3d10 4s2 4p6");
  ("Rb", "[Kr] 5s1"); ("Sr", "[Kr] 5s2"); ("Y", "[Kr] 4d1 5s2"); ("Zr", "[Kr] 4d2 5s2");
  ("Nb", "[Kr] 4d3 5s2"); ("Mo", "[Kr] 4d4 5s2"); ("Tc", "[Kr] 4d5 5s2"); ("Ru", "[Kr] 4d6 5s2");
  ("Rh", "[Kr] 4d7 5s2"); ("Pd", "[Kr] 4d8 5s2"); ("Ag", "[Kr] 4d9 5s2"); ("Cd", "[Kr] 4d10 5s2");
  ("In", "[Kr] 4d10 5s2 5p1"); ("Sn", "[Kr] 4d10 5s2 5p2"); ("Sb", "[Kr] 4d10 5s2 5p3"); ("Te", "[Kr] 4d10 5s2 5p4");
  ("I", "[Kr] 4d10 5s2 5p5"); ("Xe", "[Kr] 4d10 5s2 5p6"); ("Cs", "[Xe] 6s1"); ("Ba", "[Xe] 6s2");
  ("La", "[Xe] 5d1 6s2"); ("Ce", "[Xe] 4f1 5d1 6s2"); ("Pr", "[Xe] 4f3 6s2"); ("Nd", "[Xe] 4f4 6s2");
  ("Pm", "[Xe] 4f5 6s2"); ("Sm", "[Xe] 4f6 6s2"); ("Eu", "[Xe] 4f7 6s2"); ("Gd", "[Xe] 4f7 5d1 6s2");
  ("Tb", "[Xe] 4f9 6s2"); ("Dy", "[Xe] 4f10 6s2"); ("Ho", "[Xe] 4f11 6s2"); ("Er", "[Xe] 4f12 6s2");
  ("Tm", "[Xe] 4f13 6s2"); ("Yb", "[Xe] 4f14 6s2"); ("Lu", "[Xe] 4f14 5d1 6s2"); ("Hf", "[Xe] 4f14 5d2 6s2");
  ("Ta", "[Xe] 4f14 5d3 6s2"); ("W", "[Xe] 4f14 5d4 6s2"); ("Re", "[Xe] 4f14 5d5 6s2"); ("Os", "[Xe] 6s2 4f14 5d6");
  ("Ir", "[Xe] 4f14 5d7 6s2"); ("Pt", "[Xe] 4f14 5d9 6s1"); ("Au", "[Xe] 4f14 5d10 6s1"); ("Hg", "[Xe] 4f14 5d10 6s2");
  ("Tl", "[Xe] 4f14 5d10 6s2 6p1"); ("Pb", "[Xe] 4f14 5d10 6s2 6p2"); ("Bi", "[Xe] 4f14 5d10 6s2 6p3"); ("Po", "[Xe] 4f14 5d10 6s2 6p4");
  ("At", "[Xe] 4f14 5d10 6s2 6p5"); ("Rn", "[Xe] 4f14 5d10 6s2 6p6"); ("Fr", "[Rn] 7s1"); ("Ra", "[Rn] 7s2");
  ("Ac", "[Rn] 6d1 7s2"); ("Th", "[Rn] 6d2 7s2"); ("Pa", "[Rn] 5f2 6d1 7s2"); ("U", "[Rn] 5f3 6d1 7s2");
  ("Np", "[Rn] 5f4 6d1 7s2"); ("Pu", "[Rn] 5f6 7s2"); ("Am", "[Rn] 5f7 7s2"); ("Cm", "[Rn] 5f7 6d1 7s2");
  ("Bk", "[Rn] 5f9 7s2"); ("Cf", "[Rn] 5f10 7s2"); ("Es", "[Rn] 5f11 7s2"); ("Fm", "[Rn] 5f12 7s2");
  ("Md", "[Rn] 5f13 7s2"); ("No", "[Rn] 5f14 7s2"); ("Lr", "[Rn] 5f14 6d1 7s2"); ("Rf", "[Rn] 5f14 6d2 7s2");
  ("Db", "[Rn] 5f14 6d3 7s2"); ("Sg", "[Rn] 5f14 6d4 7s2"); ("Bh", "[Rn] 5f14 6d5 7s2"); ("Hs", "[Rn] 5f14 6d6 7s2");
  ("Mt", "[Rn] 5f14 6d7 7s2"); ("Ds", "[Rn] 5f14 6d8 7s2"); ("Rg", "[Rn] 5f14 6d9 7s2"); ("Cn", "[Rn] 5f14 6d10 7s2");
  ("Nh", "[Rn] 5f14 6d10 7s2 7p1"); ("Fl", "[Rn] 5f14 6d10 7s2 7p2"); ("Mc", "[Rn] 5f14 6d10 7s2 7p3"); ("Lv", "[Rn] 5f14 6d10 7s2 7p4");
  ("Ts", "[Rn] 5f14 6d10 7s2 7p5"); ("Og", "[Rn] 5f14 6d10 7s2 7p")
]%string.
Definition text (s : string) : str := list_ascii_of_string s.
Definition occupancy (atom_name : str) : outcome str :=
  match find (fun x => if list_eq_dec ascii_dec (text (fst x)) atom_name then true else false) occupancies with
  | Some x => Value (text (snd x))
  | None => Raises KeyError
  end.
(** l.98-110: get_full_shell.  The recursion follows the cores of the table; [fuel] bounds its depth, which is at most seven for the table. *)
Fixpoint full_shell (fuel : nat) (atom_name : str) (ion_charge : Z) : outcome str :=
  match fuel with
  | O => Raises KeyError
  | S f =>
    bind (occupancy atom_name) (fun core_sh =>
      match split_on "]" [] core_sh with
      | [] => Raises IndexError
      | [whole] => add_ion_charge_to_shell (strip whole) ion_charge
      | core :: shell_end :: _ =>
        bind (full_shell f (skipn 1 core) 0) (fun shell_start_full =>
        bind (add_ion_charge_to_shell (strip shell_end) ion_charge) (fun e => Value (shell_start_full ++ c_space :: e)))
      end)
  end.
Definition get_full_shell (atom_name : str) (ion_charge : Z) : outcome str := full_shell 118 atom_name ion_charge.
(** l.46-49: get_atom_name_ion_charge_shell. *)
Definition get_atom_name_ion_charge_shell (ion_name : str) : outcome (str * Z * str) :=
  bind (ion_parts ion_name) (fun x => let '(atom_name, ion_charge, _) := x in
  bind (get_full_shell atom_name ion_charge) (fun s => Value (atom_name, ion_charge, s))).
(** l.116: the number of electrons counted in calc_jl_for_shell_of_ion. *)
Fixpoint count_electrons (l : list str) : outcome Z :=
  match l with [] => Value 0 | o :: r => bind (read_orbital o) (fun x => bind (count_electrons r) (fun n => Value (snd x + n))) end.
Definition n_total_el (shell : str) : outcome Z := count_electrons (split_ws [] shell).
