(** Independent vocabulary: generators of the point groups behind the 18 cases of Peterse & Palm,
    Acta Cryst. (1966) 20, 147, and of the lattice symmetry of each crystal family. *)
From Coq Require Import Reals ZArith List String Ascii.
From Verif Require Import Spec.Lin3 Spec.Cell Spec.Symm.
Import ListNotations.
Open Scope R_scope.

Definition rot_op (m : M3 Z) : Op := mkE (mkV 0 0 0)%Z 1%Z m.
(** rotation axes (improper operations give the same conditions on even tensors) *)
Definition two_a : M3 Z := (mkM 1 0 0  0 (-1) 0  0 0 (-1))%Z.     (* x,-y,-z *)
Definition two_b : M3 Z := (mkM (-1) 0 0  0 1 0  0 0 (-1))%Z.     (* -x,y,-z *)
Definition two_c : M3 Z := (mkM (-1) 0 0  0 (-1) 0  0 0 1)%Z.     (* -x,-y,z *)
Definition two_110 : M3 Z := (mkM 0 1 0  1 0 0  0 0 (-1))%Z.      (* y,x,-z *)
Definition two_1m10 : M3 Z := (mkM 0 (-1) 0  (-1) 0 0  0 0 (-1))%Z. (* -y,-x,-z *)
Definition two_011 : M3 Z := (mkM (-1) 0 0  0 0 1  0 1 0)%Z.      (* -x,z,y *)
Definition two_01m1 : M3 Z := (mkM (-1) 0 0  0 0 (-1)  0 (-1) 0)%Z. (* -x,-z,-y *)
Definition four_c : M3 Z := (mkM 0 (-1) 0  1 0 0  0 0 1)%Z.       (* -y,x,z *)
Definition four_a : M3 Z := (mkM 1 0 0  0 0 (-1)  0 1 0)%Z.       (* x,-z,y *)
Definition three_111 : M3 Z := (mkM 0 0 1  1 0 0  0 1 0)%Z.       (* z,x,y *)
Definition hex_two_a : M3 Z := (mkM 1 (-1) 0  0 (-1) 0  0 0 (-1))%Z. (* x-y,-y,-z : axis a, hexagonal axes *)
Definition hex_two_120 : M3 Z := (mkM (-1) 1 0  0 1 0  0 0 (-1))%Z.  (* -x+y,y,-z : axis [120] *)
Definition hex_three_c : M3 Z := (mkM 0 (-1) 0  1 (-1) 0  0 0 1)%Z.  (* -y,x-y,z *)
Definition hex_six_c : M3 Z := (mkM 1 (-1) 0  1 0 0  0 0 1)%Z.       (* x-y,x,z *)

(** Site symmetry generators of case 0 (no constraint) ... 18. *)
Definition case_generators (numb : Z) : list (M3 Z) :=
  match numb with
  | 1 => [two_b] | 2 => [two_c] | 3 => [two_a] | 4 => [two_a; two_b]
  | 5 => [two_c; two_110] | 6 => [two_1m10] | 7 => [two_110] | 8 => [four_c]
  | 9 => [two_a; two_011] | 10 => [two_01m1] | 11 => [two_011] | 12 => [four_a]
  | 13 => [hex_two_120] | 14 => [hex_two_120; hex_two_a] | 15 => [hex_two_a] | 16 => [hex_three_c]
  | 17 => [three_111; two_c] | 18 => [three_111]
  | _ => [] end%Z.

(** A symmetric tensor (beta) is invariant under the rotations: R b R^T = b. *)
Definition tensor_invariant (gens : list (M3 Z)) (b : Q6 R) : Prop :=
  forall r, In r gens -> forall i j, conj (rot_real (rot_op r)) (qget b) i j = qget b i j.

Inductive family := Triclinic | Monoclinic_b | Monoclinic_c | Monoclinic_a | Orthorhombic | Tetragonal | Hexagonal | Rhombohedral | Cubic.
Definition lattice_generators (f : family) : list (M3 Z) :=
  match f with
  | Triclinic => [] | Monoclinic_b => [two_b] | Monoclinic_c => [two_c] | Monoclinic_a => [two_a]
  | Orthorhombic => [two_a; two_b] | Tetragonal => [four_c; two_a] | Hexagonal => [hex_six_c; two_110]
  | Rhombohedral => [three_111; two_1m10] | Cubic => [three_111; four_c] end.
(** The cell has the lattice symmetry of the family. *)
Definition cell_obeys (f : family) (uc : U6 R) : Prop := forall r, In r (lattice_generators f) -> metric_invariant uc (rot_op r).
(** Angles given in degrees. *)
Definition radians (u : U6 R) : U6 R := mkU (u_a u) (u_b u) (u_c u) (u_al u * PI / 180) (u_be u * PI / 180) (u_ga u * PI / 180).
Definition proper_deg (u : U6 R) : Prop := 0 < u_a u /\ 0 < u_b u /\ 0 < u_c u /\ 0 < u_al u < 180 /\ 0 < u_be u < 180 /\ 0 < u_ga u < 180.
Definition proper_rad (u : U6 R) : Prop := 0 < u_a u /\ 0 < u_b u /\ 0 < u_c u /\ 0 < u_al u < PI /\ 0 < u_be u < PI /\ 0 < u_ga u < PI.

(** Crystal family of a Bravais type (Pearson letters) in a given coordinate-system setting.  Monoclinic settings
    carry the unique axis in their code (b1, -b1, c2, ...); hexagonal axes are used for hP always and for hR in
    setting h. *)
Definition unique_axis (code : string) : ascii :=
  match code with
  | String "-"%char (String c _) => c
  | String c _ => c
  | EmptyString => "b"%char end.
Inductive lattice_type : string -> string -> family -> Prop :=
| L_a : forall code, lattice_type "aP" code Triclinic
| L_mb : forall cen code, unique_axis code = "b"%char -> lattice_type (String "m" cen) code Monoclinic_b
| L_mc : forall cen code, unique_axis code = "c"%char -> lattice_type (String "m" cen) code Monoclinic_c
| L_ma : forall cen code, unique_axis code = "a"%char -> lattice_type (String "m" cen) code Monoclinic_a
| L_o : forall cen code, lattice_type (String "o" cen) code Orthorhombic
| L_t : forall cen code, lattice_type (String "t" cen) code Tetragonal
| L_hP : forall code, lattice_type "hP" code Hexagonal
| L_hRh : lattice_type "hR" "h" Hexagonal
| L_hRr : lattice_type "hR" "r" Rhombohedral
| L_c : forall cen code, lattice_type (String "c" cen) code Cubic.
