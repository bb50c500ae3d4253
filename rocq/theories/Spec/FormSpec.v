(** Independent vocabulary for the tables of form factors. *)
From Coq Require Import ZArith List Ascii String.
From Verif Require Import Spec.Text Spec.IonSpec.
Import ListNotations.
Open Scope Z_scope.

(** The text of an ion: a name of letters, then nothing or a number and a sign. *)
Inductive ion_text : list ascii -> list ascii -> Z -> Prop :=
| Ion_neutral : forall txt, name_text txt -> ion_text txt (titled txt) 0
| Ion_charged : forall txt num c q, name_text txt -> number_text num -> signed c (decimal num) q -> ion_text (txt ++ num ++ [c]) (titled txt) q.
Definition ion_of (t : list ascii) (name : string) (q : Z) : Prop := ion_text t (list_ascii_of_string name) q.
(** The ions with a magnetic form factor in the file: name and charge. *)
Definition magnetic_ions : list (string * Z) := [
("O", -2); ("N", 2); ("Sc", 0); ("Sc", 1); ("Sc", 2); ("Ti", 0); ("Ti", 1); ("Ti", 2); ("Ti", 3); ("V", 0); ("V", 1); ("V", 2); ("V", 3); ("V", 4);
("Cr", 0); ("Cr", 1); ("Cr", 2); ("Cr", 3); ("Cr", 4); ("Mn", 0); ("Mn", 1); ("Mn", 2); ("Mn", 3); ("Mn", 4); ("Fe", 0); ("Fe", 1); ("Fe", 2); ("Fe",
3); ("Fe", 4); ("Co", 0); ("Co", 1); ("Co", 2); ("Co", 3); ("Co", 4); ("Ni", 0); ("Ni", 1); ("Ni", 2); ("Ni", 3); ("Ni", 4); ("Cu", 0); ("Cu", 1);
("Cu", 2); ("Cu", 3); ("Cu", 4); ("Y", 0); ("Zr", 0); ("Zr", 1); ("Nb", 0); ("Nb", 1); ("Mo", 0); ("Mo", 1); ("Tc", 0); ("Tc", 1); ("Ru", 0); ("Ru",
1); ("Rh", 0); ("Rh", 1); ("Pd", 0); ("Pd", 1); ("Ce", 2); ("Nd", 2); ("Nd", 3); ("Sm", 2); ("Sm", 3); ("Eu", 2); ("Eu", 3); ("Gd", 2); ("Gd", 3);
("Tb", 2); ("Tb", 3); ("Dy", 2); ("Dy", 3); ("Ho", 2); ("Ho", 3); ("Er", 2); ("Er", 3); ("Tm", 2); ("Tm", 3); ("Yb", 2); ("Yb", 3); ("Pr", 3); ("U",
3); ("U", 4); ("U", 5); ("Np", 3); ("Np", 4); ("Np", 5); ("Np", 6); ("Pu", 3); ("Pu", 4); ("Pu", 5); ("Pu", 6); ("Am", 2); ("Am", 3); ("Am", 4);
("Am", 5); ("Am", 6); ("Am", 7)
]%string.
