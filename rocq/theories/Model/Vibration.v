(** Model of cryspy/A_functions_base/function_1_atomic_vibrations.py, of AtomSite.calc_constr_number
    (C_item_loop_classes/cl_1_atom_site.py l.158-234) and of calc_sc_v_unit_cell_parameters
    (E_data_classes/cl_1_crystal.py l.1250-1325). *)
From Coq Require Import Reals ZArith List String Ascii.
From Verif Require Import Spec.Lin3 Spec.Symm Spec.Cell Model.MatrixOps.
Import ListNotations.
Open Scope R_scope.

(** function_1_atomic_vibrations.py l.42-303 vibration_constraints; generated from the assignments of each branch. *)
Definition vibration_constraints (numb : Z) (param_i sigma_i : Q6 R) (ref_i : Q6 bool) : Q6 R * Q6 R * Q6 bool * Q6 bool :=
  let '(mkQ p_11 p_22 p_33 p_12 p_13 p_23) := param_i in
  let '(mkQ s_11 s_22 s_33 s_12 s_13 s_23) := sigma_i in
  let '(mkQ p_11_ref p_22_ref p_33_ref p_12_ref p_13_ref p_23_ref) := ref_i in
  let p_11_constr := false in let p_22_constr := false in let p_33_constr := false in
  let p_12_constr := false in let p_13_constr := false in let p_23_constr := false in
  if (numb =? 1)%Z then
    let p_12 := 0 in
    let s_12 := 0 in
    let p_12_ref := false in
    let p_12_constr := true in
    let p_23 := 0 in
    let s_23 := 0 in
    let p_23_ref := false in
    let p_23_constr := true in
    (mkQ p_11 p_22 p_33 p_12 p_13 p_23, mkQ s_11 s_22 s_33 s_12 s_13 s_23, mkQ p_11_ref p_22_ref p_33_ref p_12_ref p_13_ref p_23_ref,
    mkQ p_11_constr p_22_constr p_33_constr p_12_constr p_13_constr p_23_constr)
  else if (numb =? 2)%Z then
    let p_13 := 0 in
    let s_13 := 0 in
    let p_13_ref := false in
    let p_13_constr := true in
    let p_23 := 0 in
    let s_23 := 0 in
    let p_23_ref := false in
    let p_23_constr := true in
    (mkQ p_11 p_22 p_33 p_12 p_13 p_23, mkQ s_11 s_22 s_33 s_12 s_13 s_23, mkQ p_11_ref p_22_ref p_33_ref p_12_ref p_13_ref p_23_ref,
    mkQ p_11_constr p_22_constr p_33_constr p_12_constr p_13_constr p_23_constr)
  else if (numb =? 3)%Z then
    let p_12 := 0 in
    let s_12 := 0 in
    let p_12_ref := false in
    let p_12_constr := true in
    let p_13 := 0 in
    let s_13 := 0 in
    let p_13_ref := false in
    let p_13_constr := true in
    (mkQ p_11 p_22 p_33 p_12 p_13 p_23, mkQ s_11 s_22 s_33 s_12 s_13 s_23, mkQ p_11_ref p_22_ref p_33_ref p_12_ref p_13_ref p_23_ref,
    mkQ p_11_constr p_22_constr p_33_constr p_12_constr p_13_constr p_23_constr)
  else if (numb =? 4)%Z then
    let p_12 := 0 in
    let s_12 := 0 in
    let p_12_ref := false in
    let p_12_constr := true in
    let p_13 := 0 in
    let s_13 := 0 in
    let p_13_ref := false in
    let p_13_constr := true in
    let p_23 := 0 in
    let s_23 := 0 in
    let p_23_ref := false in
    let p_23_constr := true in
    (mkQ p_11 p_22 p_33 p_12 p_13 p_23, mkQ s_11 s_22 s_33 s_12 s_13 s_23, mkQ p_11_ref p_22_ref p_33_ref p_12_ref p_13_ref p_23_ref,
    mkQ p_11_constr p_22_constr p_33_constr p_12_constr p_13_constr p_23_constr)
  else if (numb =? 5)%Z then
    let p_22 := p_11 in
    let s_22 := s_11 in
    let p_22_ref := false in
    let p_22_constr := true in
    let p_13 := 0 in
    let s_13 := 0 in
    let p_13_ref := false in
    let p_13_constr := true in
    let p_23 := 0 in
    let s_23 := 0 in
    let p_23_ref := false in
    let p_23_constr := true in
    (mkQ p_11 p_22 p_33 p_12 p_13 p_23, mkQ s_11 s_22 s_33 s_12 s_13 s_23, mkQ p_11_ref p_22_ref p_33_ref p_12_ref p_13_ref p_23_ref,
    mkQ p_11_constr p_22_constr p_33_constr p_12_constr p_13_constr p_23_constr)
  else if (numb =? 6)%Z then
    let p_22 := p_11 in
    let s_22 := s_11 in
    let p_22_ref := false in
    let p_22_constr := true in
    let p_23 := p_13 in
    let s_23 := s_13 in
    let p_23_ref := false in
    let p_23_constr := true in
    (mkQ p_11 p_22 p_33 p_12 p_13 p_23, mkQ s_11 s_22 s_33 s_12 s_13 s_23, mkQ p_11_ref p_22_ref p_33_ref p_12_ref p_13_ref p_23_ref,
    mkQ p_11_constr p_22_constr p_33_constr p_12_constr p_13_constr p_23_constr)
  else if (numb =? 7)%Z then
    let p_22 := p_11 in
    let s_22 := s_11 in
    let p_22_ref := false in
    let p_22_constr := true in
    let p_23 := (-1) * p_13 in
    let s_23 := s_13 in
    let p_23_ref := false in
    let p_23_constr := true in
    (mkQ p_11 p_22 p_33 p_12 p_13 p_23, mkQ s_11 s_22 s_33 s_12 s_13 s_23, mkQ p_11_ref p_22_ref p_33_ref p_12_ref p_13_ref p_23_ref,
    mkQ p_11_constr p_22_constr p_33_constr p_12_constr p_13_constr p_23_constr)
  else if (numb =? 8)%Z then
    let p_22 := p_11 in
    let s_22 := s_11 in
    let p_22_ref := false in
    let p_22_constr := true in
    let p_12 := 0 in
    let s_12 := 0 in
    let p_12_ref := false in
    let p_12_constr := true in
    let p_13 := 0 in
    let s_13 := 0 in
    let p_13_ref := false in
    let p_13_constr := true in
    let p_23 := 0 in
    let s_23 := 0 in
    let p_23_ref := false in
    let p_23_constr := true in
    (mkQ p_11 p_22 p_33 p_12 p_13 p_23, mkQ s_11 s_22 s_33 s_12 s_13 s_23, mkQ p_11_ref p_22_ref p_33_ref p_12_ref p_13_ref p_23_ref,
    mkQ p_11_constr p_22_constr p_33_constr p_12_constr p_13_constr p_23_constr)
  else if (numb =? 9)%Z then
    let p_33 := p_22 in
    let s_33 := s_22 in
    let p_33_ref := false in
    let p_33_constr := true in
    let p_12 := 0 in
    let s_12 := 0 in
    let p_12_ref := false in
    let p_12_constr := true in
    let p_13 := 0 in
    let s_13 := 0 in
    let p_13_ref := false in
    let p_13_constr := true in
    (mkQ p_11 p_22 p_33 p_12 p_13 p_23, mkQ s_11 s_22 s_33 s_12 s_13 s_23, mkQ p_11_ref p_22_ref p_33_ref p_12_ref p_13_ref p_23_ref,
    mkQ p_11_constr p_22_constr p_33_constr p_12_constr p_13_constr p_23_constr)
  else if (numb =? 10)%Z then
    let p_33 := p_22 in
    let s_33 := s_22 in
    let p_33_ref := false in
    let p_33_constr := true in
    let p_13 := p_12 in
    let s_13 := s_12 in
    let p_13_ref := false in
    let p_13_constr := true in
    (mkQ p_11 p_22 p_33 p_12 p_13 p_23, mkQ s_11 s_22 s_33 s_12 s_13 s_23, mkQ p_11_ref p_22_ref p_33_ref p_12_ref p_13_ref p_23_ref,
    mkQ p_11_constr p_22_constr p_33_constr p_12_constr p_13_constr p_23_constr)
  else if (numb =? 11)%Z then
    let p_33 := p_22 in
    let s_33 := s_22 in
    let p_33_ref := false in
    let p_33_constr := true in
    let p_13 := (-1) * p_12 in
    let s_13 := s_12 in
    let p_13_ref := false in
    let p_13_constr := true in
    (mkQ p_11 p_22 p_33 p_12 p_13 p_23, mkQ s_11 s_22 s_33 s_12 s_13 s_23, mkQ p_11_ref p_22_ref p_33_ref p_12_ref p_13_ref p_23_ref,
    mkQ p_11_constr p_22_constr p_33_constr p_12_constr p_13_constr p_23_constr)
  else if (numb =? 12)%Z then
    let p_33 := p_22 in
    let s_33 := s_22 in
    let p_33_ref := false in
    let p_33_constr := true in
    let p_12 := 0 in
    let s_12 := 0 in
    let p_12_ref := false in
    let p_12_constr := true in
    let p_13 := 0 in
    let s_13 := 0 in
    let p_13_ref := false in
    let p_13_constr := true in
    let p_23 := 0 in
    let s_23 := 0 in
    let p_23_ref := false in
    let p_23_constr := true in
    (mkQ p_11 p_22 p_33 p_12 p_13 p_23, mkQ s_11 s_22 s_33 s_12 s_13 s_23, mkQ p_11_ref p_22_ref p_33_ref p_12_ref p_13_ref p_23_ref,
    mkQ p_11_constr p_22_constr p_33_constr p_12_constr p_13_constr p_23_constr)
  else if (numb =? 13)%Z then
    let p_12 := (5 / 10) * p_22 in
    let s_12 := (5 / 10) * s_22 in
    let p_12_ref := false in
    let p_12_constr := true in
    let p_23 := 0 in
    let s_23 := 0 in
    let p_23_ref := false in
    let p_23_constr := true in
    (mkQ p_11 p_22 p_33 p_12 p_13 p_23, mkQ s_11 s_22 s_33 s_12 s_13 s_23, mkQ p_11_ref p_22_ref p_33_ref p_12_ref p_13_ref p_23_ref,
    mkQ p_11_constr p_22_constr p_33_constr p_12_constr p_13_constr p_23_constr)
  else if (numb =? 14)%Z then
    let p_12 := (5 / 10) * p_22 in
    let s_12 := (5 / 10) * s_22 in
    let p_12_ref := false in
    let p_12_constr := true in
    let p_13 := 0 in
    let s_13 := 0 in
    let p_13_ref := false in
    let p_13_constr := true in
    let p_23 := 0 in
    let s_23 := 0 in
    let p_23_ref := false in
    let p_23_constr := true in
    (mkQ p_11 p_22 p_33 p_12 p_13 p_23, mkQ s_11 s_22 s_33 s_12 s_13 s_23, mkQ p_11_ref p_22_ref p_33_ref p_12_ref p_13_ref p_23_ref,
    mkQ p_11_constr p_22_constr p_33_constr p_12_constr p_13_constr p_23_constr)
  else if (numb =? 15)%Z then
    let p_12 := (5 / 10) * p_22 in
    let s_12 := (5 / 10) * s_22 in
    let p_12_ref := false in
    let p_12_constr := true in
    let p_23 := 2 * p_13 in
    let s_23 := 2 * s_13 in
    let p_23_ref := false in
    let p_23_constr := true in
    (mkQ p_11 p_22 p_33 p_12 p_13 p_23, mkQ s_11 s_22 s_33 s_12 s_13 s_23, mkQ p_11_ref p_22_ref p_33_ref p_12_ref p_13_ref p_23_ref,
    mkQ p_11_constr p_22_constr p_33_constr p_12_constr p_13_constr p_23_constr)
  else if (numb =? 16)%Z then
    let p_22 := p_11 in
    let s_22 := s_11 in
    let p_22_ref := false in
    let p_22_constr := true in
    let p_12 := (5 / 10) * p_11 in
    let s_12 := (5 / 10) * s_11 in
    let p_12_ref := false in
    let p_12_constr := true in
    let p_13 := 0 in
    let s_13 := 0 in
    let p_13_ref := false in
    let p_13_constr := true in
    let p_23 := 0 in
    let s_23 := 0 in
    let p_23_ref := false in
    let p_23_constr := true in
    (mkQ p_11 p_22 p_33 p_12 p_13 p_23, mkQ s_11 s_22 s_33 s_12 s_13 s_23, mkQ p_11_ref p_22_ref p_33_ref p_12_ref p_13_ref p_23_ref,
    mkQ p_11_constr p_22_constr p_33_constr p_12_constr p_13_constr p_23_constr)
  else if (numb =? 17)%Z then
    let p_22 := p_11 in
    let s_22 := s_11 in
    let p_22_ref := false in
    let p_22_constr := true in
    let p_33 := p_11 in
    let s_33 := s_11 in
    let p_33_ref := false in
    let p_33_constr := true in
    let p_12 := 0 in
    let s_12 := 0 in
    let p_12_ref := false in
    let p_12_constr := true in
    let p_13 := 0 in
    let s_13 := 0 in
    let p_13_ref := false in
    let p_13_constr := true in
    let p_23 := 0 in
    let s_23 := 0 in
    let p_23_ref := false in
    let p_23_constr := true in
    (mkQ p_11 p_22 p_33 p_12 p_13 p_23, mkQ s_11 s_22 s_33 s_12 s_13 s_23, mkQ p_11_ref p_22_ref p_33_ref p_12_ref p_13_ref p_23_ref,
    mkQ p_11_constr p_22_constr p_33_constr p_12_constr p_13_constr p_23_constr)
  else if (numb =? 18)%Z then
    let p_22 := p_11 in
    let s_22 := s_11 in
    let p_22_ref := false in
    let p_22_constr := true in
    let p_33 := p_11 in
    let s_33 := s_11 in
    let p_33_ref := false in
    let p_33_constr := true in
    let p_13 := p_12 in
    let s_13 := s_12 in
    let p_13_ref := false in
    let p_13_constr := true in
    let p_23 := p_12 in
    let s_23 := s_12 in
    let p_23_ref := false in
    let p_23_constr := true in
    (mkQ p_11 p_22 p_33 p_12 p_13 p_23, mkQ s_11 s_22 s_33 s_12 s_13 s_23, mkQ p_11_ref p_22_ref p_33_ref p_12_ref p_13_ref p_23_ref,
    mkQ p_11_constr p_22_constr p_33_constr p_12_constr p_13_constr p_23_constr)
  else (mkQ p_11 p_22 p_33 p_12 p_13 p_23, mkQ s_11 s_22 s_33 s_12 s_13 s_23, mkQ p_11_ref p_22_ref p_33_ref p_12_ref p_13_ref p_23_ref,
    mkQ p_11_constr p_22_constr p_33_constr p_12_constr p_13_constr p_23_constr).

(** cl_1_atom_site.py l.166-187: image of the test tensor (107, 181, 41, 7, 19, 1) under one operation and the sums over
    the site operations.  Integers: the operations are integer matrices (floats in the source, exact). *)
Definition test_image (m : M3 Z) : Q6 Z :=
  let '(mkM o_11 o_12 o_13 o_21 o_22 o_23 o_31 o_32 o_33) := m in
  let b_11 := 107%Z in let b_22 := 181%Z in let b_33 := 41%Z in let b_12 := 7%Z in let b_13 := 19%Z in let b_23 := 1%Z in
  (mkQ
   (o_11*o_11*b_11 + o_12*o_12*b_22 + o_13*o_13*b_33 + o_11*o_12*b_12 + o_11*o_13*b_13 + o_12*o_13*b_23 + o_12*o_11*b_12 + o_13*o_11*b_13 + o_13*o_12*b_23)
   (o_21*o_21*b_11 + o_22*o_22*b_22 + o_23*o_23*b_33 + o_21*o_22*b_12 + o_21*o_23*b_13 + o_22*o_23*b_23 + o_22*o_21*b_12 + o_23*o_21*b_13 + o_23*o_22*b_23)
   (o_31*o_31*b_11 + o_32*o_32*b_22 + o_33*o_33*b_33 + o_31*o_32*b_12 + o_31*o_33*b_13 + o_32*o_33*b_23 + o_32*o_31*b_12 + o_33*o_31*b_13 + o_33*o_32*b_23)
   (o_11*o_21*b_11 + o_12*o_22*b_22 + o_13*o_23*b_33 + o_11*o_22*b_12 + o_11*o_23*b_13 + o_12*o_23*b_23 + o_12*o_21*b_12 + o_13*o_21*b_13 + o_13*o_22*b_23)
   (o_11*o_31*b_11 + o_12*o_32*b_22 + o_13*o_33*b_33 + o_11*o_32*b_12 + o_11*o_33*b_13 + o_12*o_33*b_23 + o_12*o_31*b_12 + o_13*o_31*b_13 + o_13*o_32*b_23)
   (o_21*o_31*b_11 + o_22*o_32*b_22 + o_23*o_33*b_33 + o_21*o_32*b_12 + o_21*o_33*b_13 + o_22*o_33*b_23 + o_22*o_31*b_12 + o_23*o_31*b_13 + o_23*o_32*b_23))%Z.
Definition z_sum {A} (f : A -> Z) (l : list A) : Z := fold_right (fun a s => (f a + s)%Z) 0%Z l.
(** cl_1_atom_site.py l.186-234: the decision tree (the comparison with the literal 22 is in the source). *)
Definition calc_constr_number (site : list (M3 Z)) : Z :=
  let r_11 := z_sum (fun m => q_11 (test_image m)) site in let r_22 := z_sum (fun m => q_22 (test_image m)) site in
  let r_33 := z_sum (fun m => q_33 (test_image m)) site in let r_12 := z_sum (fun m => q_12 (test_image m)) site in
  let r_13 := z_sum (fun m => q_13 (test_image m)) site in let r_23 := z_sum (fun m => q_23 (test_image m)) site in
  (if r_13 =? 0 then
     if r_23 =? 0 then
       if r_12 =? 0 then
         if r_11 =? r_22 then (if r_22 =? r_33 then 17 else 8)
         else if r_22 =? r_33 then 12 else 4
       else if r_11 =? r_22 then (if r_22 =? 2*r_12 then 16 else 5)
       else if r_22 =? 2*r_12 then 14 else 2
     else if r_22 =? r_33 then 9 else 3
   else if r_23 =? 0 then (if r_22 =? 2*r_12 then 13 else 1)
   else if r_23 =? r_13 then (if r_22 =? r_33 then 18 else 6)
   else if r_12 =? r_13 then 10
   else if r_11 =? 22 then 7
   else if r_22 =? r_33 then 11
   else if r_22 =? 2*r_12 then 15
   else 0)%Z.

(** str.startswith and str.lower for one-letter codes. *)
Definition startswith (s pre : string) : bool := String.prefix pre s.
Definition lower_ascii (c : ascii) : ascii :=
  let n := nat_of_ascii c in if (Nat.leb 65 n && Nat.leb n 90)%bool then ascii_of_nat (n + 32) else c.
Fixpoint lower (s : string) : string := match s with EmptyString => EmptyString | String c r => String (lower_ascii c) (lower r) end.

(** function_1_atomic_vibrations.py l.306-402 apply_constraint_on_cell_by_type_cell (angles in degrees). *)
Definition apply_constraint_on_cell (cell_param cell_sigma : U6 R) (cell_ref : U6 bool) (type_cell it_code : string)
  : U6 R * U6 R * U6 bool * U6 bool :=
  let '(mkU a b c alpha beta gamma) := cell_param in
  let '(mkU a_s b_s c_s al_s be_s ga_s) := cell_sigma in
  let '(mkU a_r b_r c_r al_r be_r ga_r) := cell_ref in
  let rhombo := (mkU a a a alpha alpha alpha, mkU a_s a_s a_s al_s al_s al_s, mkU a_r false false al_r false false, mkU false true true false true true) in
  let hexa := (mkU a a c 90 90 120, mkU a_s a_s c_s 0 0 0, mkU a_r false c_r false false false, mkU false true false true true true) in
  if String.eqb type_cell "aP" then
    (mkU a b c alpha beta gamma, mkU a_s b_s c_s al_s be_s ga_s, mkU a_r b_r c_r al_r be_r ga_r, mkU false false false false false false)
  else if startswith type_cell "m" then
    (mkU a b c 90 beta 90, mkU a_s b_s c_s 0 be_s 0, mkU a_r b_r c_r false be_r false, mkU false false false true false true)
  else if startswith type_cell "o" then
    (mkU a b c 90 90 90, mkU a_s b_s c_s 0 0 0, mkU a_r b_r c_r false false false, mkU false false false true true true)
  else if startswith type_cell "t" then
    (mkU a a c 90 90 90, mkU a_s a_s c_s 0 0 0, mkU a_r false c_r false false false, mkU false true false true true true)
  else if startswith type_cell "hP" then (if String.eqb (lower it_code) "h" then hexa else rhombo)
  else if String.eqb type_cell "hR" then (if String.eqb (lower it_code) "h" then hexa else rhombo)
  else if startswith type_cell "c" then
    (mkU a a a 90 90 90, mkU a_s a_s a_s 0 0 0, mkU a_r false false false false false, mkU false true true true true true)
  else
    (mkU a b c alpha beta gamma, mkU a_s b_s c_s al_s be_s ga_s, mkU a_r b_r c_r al_r be_r ga_r, mkU false false false false false false).

(** E_data_classes/cl_1_crystal.py l.1250-1325 calc_sc_v_unit_cell_parameters: sc_uc (6x6, rows as U6 of U6) and v_uc. *)
Definition u_row (p : ux) (x : R) : U6 R := uset (mkU 0 0 0 0 0 0) p x.
Definition eye6 : U6 (U6 R) := mkU (u_row Ua 1) (u_row Ub 1) (u_row Uc 1) (u_row Ual 1) (u_row Ube 1) (u_row Uga 1).
Definition set_el (m : U6 (U6 R)) (i j : ux) (x : R) : U6 (U6 R) := uset m i (uset (uget m i) j x).
Definition calc_sc_v_unit_cell_parameters (type_cell it_code : string) : U6 (U6 R) * U6 R :=
  let sc := eye6 in let v := mkU 0 0 0 0 0 0 in
  let ab m := set_el (set_el (set_el (set_el m Ua Ua 1) Ua Ub 0) Ub Ua 1) Ub Ub 0 in
  let abc m := let m := set_el (set_el (set_el m Ua Ua 1) Ua Ub 0) Ua Uc 0 in
               let m := set_el (set_el (set_el m Ub Ua 1) Ub Ub 0) Ub Uc 0 in
               set_el (set_el (set_el m Uc Ua 1) Uc Ub 0) Uc Uc 0 in
  let ang m := let m := set_el (set_el (set_el m Ual Ual 1) Ual Ube 0) Ual Uga 0 in
               let m := set_el (set_el (set_el m Ube Ual 1) Ube Ube 0) Ube Uga 0 in
               set_el (set_el (set_el m Uga Ual 1) Uga Ube 0) Uga Uga 0 in
  let no_ang m := set_el (set_el (set_el m Ual Ual 0) Ube Ube 0) Uga Uga 0 in
  let hexa := (no_ang (ab sc), mkU 0 0 0 (PI / 2) (PI / 2) (PI * 2 / 3)) in
  let rhombo := (ang (abc sc), v) in
  if String.eqb type_cell "aP" then (sc, v)
  else if startswith type_cell "m" then (set_el (set_el sc Ual Ual 0) Uga Uga 0, mkU 0 0 0 (PI / 2) 0 (PI / 2))
  else if startswith type_cell "o" then (no_ang sc, mkU 0 0 0 (PI / 2) (PI / 2) (PI / 2))
  else if startswith type_cell "t" then (no_ang (ab sc), mkU 0 0 0 (PI / 2) (PI / 2) (PI / 2))
  else if startswith type_cell "hP" then (if String.eqb (lower it_code) "h" then hexa else rhombo)
  else if String.eqb type_cell "hR" then (if String.eqb (lower it_code) "h" then hexa else rhombo)
  else if startswith type_cell "c" then (no_ang (abc sc), mkU 0 0 0 (PI / 2) (PI / 2) (PI / 2))
  else (sc, v).
(** unit_cell_parameters = sc_uc . unit_cell_parameters + v_uc (rhochi_pd.py l.209-211, rhochi_pd2d.py l.263-265, rhochi_tof.py l.278-281) *)
Definition u_row_dot (r u : U6 R) : R :=
  u_a r * u_a u + u_b r * u_b u + u_c r * u_c u + u_al r * u_al u + u_be r * u_be u + u_ga r * u_ga u.
Definition apply_sc_uc (sc : U6 (U6 R) * U6 R) (u : U6 R) : U6 R :=
  mkU (u_row_dot (u_a (fst sc)) u + u_a (snd sc)) (u_row_dot (u_b (fst sc)) u + u_b (snd sc)) (u_row_dot (u_c (fst sc)) u + u_c (snd sc))
      (u_row_dot (u_al (fst sc)) u + u_al (snd sc)) (u_row_dot (u_be (fst sc)) u + u_be (snd sc)) (u_row_dot (u_ga (fst sc)) u + u_ga (snd sc)).
