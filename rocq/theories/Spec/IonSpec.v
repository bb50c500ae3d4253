(** Independent vocabulary for ion symbols and electron configurations. *)
From Coq Require Import ZArith List Ascii String.
From Verif Require Import Spec.Text.
Import ListNotations.
Open Scope Z_scope.

(** the characters 0-9, and the number a list of them stands for *)
Definition is_decimal (c : ascii) : bool := (Nat.leb 48 (nat_of_ascii c) && Nat.leb (nat_of_ascii c) 57)%bool.
Definition decimal (s : list ascii) : Z := fold_left (fun a c => 10 * a + (Z.of_nat (nat_of_ascii c) - 48)) s 0.
Definition number_text (s : list ascii) : Prop := s <> [] /\ Forall (fun c => is_decimal c = true) s.
(** an element name: letters *)
Definition name_text (s : list ascii) : Prop := s <> [] /\ Forall (fun c => is_letter c = true) s.
Definition blank_text (s : list ascii) : Prop := Forall (fun c => c = " "%char) s.
(** the name with a capital and small letters *)
Definition small (c : ascii) : ascii := if Nat.leb (nat_of_ascii c) 90 then ascii_of_nat (nat_of_ascii c + 32) else c.
Definition large (c : ascii) : ascii := if Nat.leb (nat_of_ascii c) 90 then c else ascii_of_nat (nat_of_ascii c - 32).
Definition titled (s : list ascii) : list ascii := match s with [] => [] | c :: r => large c :: map small r end.
(** the charge written as a number and a sign *)
Definition signed (c : ascii) (n : Z) (q : Z) : Prop := (c = "+"%char /\ q = n) \/ (c = "-"%char /\ q = - n).

(** A sub-shell: principal number, letter, electrons; capacities 2, 6, 10, 14. *)
Definition subshell : Type := Z * ascii * Z.
Definition capacity (l : ascii) : option Z :=
  if Ascii.eqb l "s" then Some 2 else if Ascii.eqb l "p" then Some 6 else if Ascii.eqb l "d" then Some 10 else if Ascii.eqb l "f" then Some 14 else None.
Fixpoint electrons (L : list subshell) : Z := match L with [] => 0 | (_, _, e) :: r => e + electrons r end.
Definition room_of (o : subshell) : Z := let '(_, l, e) := o in match capacity l with Some m => m - e | None => 0 end.
Fixpoint room (L : list subshell) : Z := match L with [] => 0 | o :: r => room_of o + room r end.
Definition filled (o : subshell) : subshell := let '(n, l, e) := o in (n, l, e + room_of o).
(** between one electron and the capacity *)
Definition occupied (o : subshell) : Prop := let '(n, l, e) := o in 0 < e /\ exists m, capacity l = Some m /\ e <= m.
(** its text: 3d10 *)
Inductive subshell_text : list ascii -> subshell -> Prop :=
| Subshell_text : forall c l e, is_decimal c = true -> capacity l <> None -> number_text e -> subshell_text (c :: l :: e) (decimal [c], l, decimal e).
(** a configuration: texts of sub-shells separated by blanks *)
Inductive spells : list ascii -> list subshell -> Prop :=
| Spells_none : spells [] []
| Spells_blank : forall t L, spells t L -> spells (" "%char :: t) L
| Spells_last : forall w o, subshell_text w o -> spells w [o]
| Spells_more : forall w o t L, subshell_text w o -> spells t L -> spells (w ++ " "%char :: t) (o :: L).

(** The chemical symbols in the order of the atomic numbers. *)
Definition periodic_table : list string := [
  "H"; "He";
  "Li"; "Be"; "B"; "C"; "N"; "O"; "F"; "Ne";
  "Na"; "Mg"; "Al"; "Si"; "P"; "S"; "Cl"; "Ar";
  "K"; "Ca"; "Sc"; "Ti"; "V"; "Cr"; "Mn"; "Fe"; "Co"; "Ni"; "Cu"; "Zn"; "Ga"; "Ge"; "As"; "Se"; "Br"; "Kr";
  "Rb"; "Sr"; "Y"; "Zr"; "Nb"; "Mo"; "Tc"; "Ru"; "Rh"; "Pd"; "Ag"; "Cd"; "In"; "Sn"; "Sb"; "Te"; "I"; "Xe";
  "Cs"; "Ba"; "La"; "Ce"; "Pr"; "Nd"; "Pm"; "Sm"; "Eu"; "Gd"; "Tb"; "Dy"; "Ho"; "Er"; "Tm"; "Yb"; "Lu";
  "Hf"; "Ta"; "W"; "Re"; "Os"; "Ir"; "Pt"; "Au"; "Hg"; "Tl"; "Pb"; "Bi"; "Po"; "At"; "Rn";
  "Fr"; "Ra"; "Ac"; "Th"; "Pa"; "U"; "Np"; "Pu"; "Am"; "Cm"; "Bk"; "Cf"; "Es"; "Fm"; "Md"; "No"; "Lr";
  "Rf"; "Db"; "Sg"; "Bh"; "Hs"; "Mt"; "Ds"; "Rg"; "Cn"; "Nh"; "Fl"; "Mc"; "Lv"; "Ts"; "Og"]%string.
Definition element (z : Z) (name : string) : Prop := 0 < z /\ nth_error periodic_table (Z.to_nat (z - 1)) = Some name.
(** the electrons of the last noble gas before the element *)
Definition core (z : Z) : Z := fold_left (fun a g => if g <? z then g else a) [2; 10; 18; 36; 54; 86] 0.
