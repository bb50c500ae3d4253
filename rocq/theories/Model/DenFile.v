(** Model of the density files: /repo/cryspy/A_functions_base/function_3_den_file.py l.17-205.
    A file is a list of lines, a line a list of tokens.  Simplifications: floats are real numbers, a float printed with k
    decimals is the real number rounded to k decimals; the fixed widths are not modelled (numbers printed one after another are taken to be
    separated, which holds for lengths and angles below 1000 and, because of the replacement at l.70, for the operations). *)
From Coq Require Import Reals ZArith List Bool.
From Verif Require Import Spec.Lin3 Spec.Cell Spec.Symm Model.MatrixOps Model.Symmetry Model.DensityMaps Model.SiteSymm.
Import ListNotations.
Open Scope list_scope.
Open Scope R_scope.

Inductive token := TI (z : Z) | TF (x : R).
(** int(...), float(...); int of a number printed with a point raises ValueError *)
Definition to_int (t : token) : option Z := match t with TI z => Some z | TF _ => None end.
Definition to_float (t : token) : R := match t with TI z => IZR z | TF x => x end.
Definition bind {A B} (o : option A) (f : A -> option B) : option B := match o with Some a => f a | None => None end.
Fixpoint opt_map {A B} (f : A -> option B) (l : list A) : option (list B) :=
  match l with [] => Some [] | x :: r => bind (f x) (fun y => bind (opt_map f r) (fun s => Some (y :: s))) end.

(** What is read from a file or written to it: points_abc, cell_parameters, sym_elems, indexes_xyz with densities, centrosymmetry, np_shift. *)
Record den := mkDen { dn_points : V3 Z; dn_cell : U6 R; dn_ops : list Op; dn_rows : list (V3 Z * (R * R * R)); dn_centro : bool; dn_shift : list (V3 Z * Z) }.

(** function_2_sym_elems.py l.127-142 calc_numerators_denominator_for_b_i (one operation) *)
Definition numerators (b1 b2 b3 : R) : V3 Z * Z :=
  let n1 := rint (48 * b1) in let n2 := rint (48 * b2) in let n3 := rint (48 * b3) in
  let g := Z.gcd (Z.gcd (Z.gcd n1 n2) n3) 48 in
  (mkV (n1 / g) (n2 / g) (n3 / g), 48 / g)%Z.

(** * read_den_file, l.17-107 *)
(** l.46-64: the density of one point *)
Definition read_row (hh : list token) : option (V3 Z * (R * R * R)) :=
  match hh with
  | x :: y :: z :: d :: r =>
    bind (to_int x) (fun ix => bind (to_int y) (fun iy => bind (to_int z) (fun iz =>
      let den := to_float d in
      let '(den_f, den_a) := match r with [f; a] => (to_float f, to_float a) | _ => if Rle_dec 0 den then (den, 0) else (0, den) end in
      Some (mkV ix iy iz, (den, den_f, den_a)))))
  | _ => None
  end.
(** l.68-91: one operation; hh[0], hh[3], hh[6] are the first row of the matrix *)
Definition read_op (hh : list token) : option Op :=
  match hh with
  | h0 :: h1 :: h2 :: h3 :: h4 :: h5 :: h6 :: h7 :: h8 :: h9 :: h10 :: h11 :: _ =>
    bind (opt_map to_int [h0; h1; h2; h3; h4; h5; h6; h7; h8]) (fun i =>
      match i with
      | [i0; i1; i2; i3; i4; i5; i6; i7; i8] =>
        let '(num, d) := numerators (to_float h9) (to_float h10) (to_float h11) in Some (mkE num d (mkM i0 i3 i6 i1 i4 i7 i2 i5 i8))
      | _ => None
      end)
  | _ => None
  end.
(** l.93-103 *)
Definition read_shift (hh : list token) : option (V3 Z * Z) :=
  match hh with h0 :: h1 :: h2 :: _ => Some (numerators (to_float h0) (to_float h1) (to_float h2)) | _ => None end.
Definition slice {A} (a b : nat) (l : list A) : list A := firstn (b - a) (skipn a l).
(** l.17-107; None: ValueError or IndexError.  Negative numbers of lines are not modelled. *)
Definition read_den_file (l_content : list (list token)) : option den :=
  match nth_error l_content 1 with
  | Some [t] =>
    bind (to_int t) (fun number_lines =>
      let N := Z.to_nat number_lines in
      match nth_error l_content (N + 2), nth_error l_content (N + 3) with
      | Some (h0 :: h1 :: h2 :: h3 :: h4 :: h5 :: _), Some head =>
        let rad := PI / 180 in
        let cell := mkU (to_float h0) (to_float h1) (to_float h2) (to_float h3 * rad) (to_float h4 * rad) (to_float h5 * rad) in
        bind (opt_map to_int head) (fun hd =>
          match hd with
          | [points_a; points_b; points_c; n_el_symm; centr; n_shift] =>
            let ns := Z.to_nat n_el_symm in let nh := Z.to_nat n_shift in
            bind (opt_map read_row (slice 2 (N + 2) l_content)) (fun rows =>
            bind (opt_map read_op (slice (N + 4) (N + 4 + ns) l_content)) (fun ops =>
            bind (opt_map read_shift (slice (N + 4 + ns) (N + 4 + ns + nh) l_content)) (fun shifts =>
              Some (mkDen (mkV points_a points_b points_c) cell ops rows (negb (centr =? 0)%Z) shifts))))
          | _ => None
          end)
      | _, _ => None
      end)
  | _ => None
  end.

(** * save_to_den_file, l.110-189 *)
(** l.129-151: densities of shape [3, n], [2, n] or [n] *)
Definition row_of_three (d : R * R * R) : R * R * R := d.
Definition row_of_two (d : R * R) : R * R * R := (fst d - snd d, fst d, snd d).
Definition row_of_one (d : R) : R * R * R := if Rle_dec 0 d then (d, d, 0) else (d, 0, d).
Definition write_row (r : V3 Z * (R * R * R)) : list token :=
  let '(p, (d, f, a)) := r in [TI (v_1 p); TI (v_2 p); TI (v_3 p); TF (np_round 7 d); TF (np_round 7 f); TF (np_round 7 a)].
(** l.162-165: cell_parameters as they are given *)
Definition write_cell (u : U6 R) : list token :=
  [TF (np_round 5 (u_a u)); TF (np_round 5 (u_b u)); TF (np_round 5 (u_c u)); TF (np_round 5 (u_al u)); TF (np_round 5 (u_be u)); TF (np_round 5 (u_ga u))].
(** l.172-185 *)
Definition write_op (e : Op) : list token :=
  let '(mkM r_11 r_12 r_13 r_21 r_22 r_23 r_31 r_32 r_33) := e_r e in
  let b i := TF (np_round 5 (IZR i / IZR (e_d e))) in
  [TI r_11; TI r_21; TI r_31; TI r_12; TI r_22; TI r_32; TI r_13; TI r_23; TI r_33; b (v_1 (e_b e)); b (v_2 (e_b e)); b (v_3 (e_b e))].
(** l.186-187: the first three rows of shift, without the denominators *)
Definition write_shift (s : V3 Z * Z) : list token := [TF (np_round 4 (IZR (v_1 (fst s)))); TF (np_round 4 (IZR (v_2 (fst s)))); TF (np_round 4 (IZR (v_3 (fst s))))].
Definition save_to_den_file (x : den) : list (list token) :=
  [ [] ; [TI (Z.of_nat (List.length (dn_rows x)))] ] ++ map write_row (dn_rows x) ++
  [ write_cell (dn_cell x);
    [TI (v_1 (dn_points x)); TI (v_2 (dn_points x)); TI (v_3 (dn_points x)); TI (Z.of_nat (List.length (dn_ops x)));
     TI (if dn_centro x then 1 else 0); TI (Z.of_nat (List.length (dn_shift x)))] ] ++
  map write_op (dn_ops x) ++ map write_shift (dn_shift x).

(** * recalc_den_file_to_p1, l.191-205 *)
Definition recalc_den_file_to_p1 (den_file_input : list (list token)) : option (list (list token)) :=
  bind (read_den_file den_file_input) (fun x =>
  bind (transform_to_p1 (dn_points x) (dn_ops x) (dn_shift x) (dn_centro x) (dn_rows x)) (fun rows =>
    let sym_elems_p1 := [mkE (mkV 0 0 0) 1 (mkM 1 0 0 0 1 0 0 0 1)]%Z in
    let np_shift_p1 := [(mkV 0 0 0, 1)]%Z in
    Some (save_to_den_file (mkDen (dn_points x) (dn_cell x) sym_elems_p1 rows false np_shift_p1)))).
