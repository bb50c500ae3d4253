(** Model of cryspy/C_item_loop_classes/cl_2_space_group.py l.463-540 (calc_symop_for_xyz, calc_el_symm_for_xyz) and of
    cryspy/C_item_loop_classes/cl_1_atom_site_susceptibility.py l.18-50, l.124-203.  Real arithmetic instead of floats. *)
From Coq Require Import Reals ZArith List Bool Arith String.
From Verif Require Import Spec.Lin3 Spec.Cell Spec.Symm Spec.LinN Model.Vibration Model.Constraints Model.LocalSusc.
Import ListNotations.
Open Scope list_scope.
Open Scope R_scope.

(** numpy.rint: to the nearest integer, halves to the even one. *)
Definition rint (x : R) : Z :=
  let n := Int_part x in let f := x - IZR n in
  if Rlt_dec f (1 / 2) then n else if Rlt_dec (1 / 2) f then (n + 1)%Z else if Z.even n then n else (n + 1)%Z.
(** numpy.round(x, decimals=k) *)
Definition np_round (k : nat) (x : R) : R := IZR (rint (x * 10 ^ k)) / 10 ^ k.

(** l.522-524 (l.484-486): the image of the point under one element, modulo 1, rounded to five digits. *)
Definition round_image (x : V3 R) (e : Op) : V3 R :=
  let c i := np_round 5 (mod1 (sum3 (fun j => IZR (mget (e_r e) i j) * vget x j) + IZR (vget (e_b e) i) / IZR (e_d e))) in
  mkV (c X1) (c X2) (c X3).
(** numpy.unique(..., axis=1, return_inverse=True): the distinct columns in lexicographic order; position of a column. *)
Definition v_eqb (a b : V3 R) : bool :=
  (if Req_EM_T (v_1 a) (v_1 b) then true else false) && (if Req_EM_T (v_2 a) (v_2 b) then true else false)
  && (if Req_EM_T (v_3 a) (v_3 b) then true else false).
Definition v_ltb (a b : V3 R) : bool :=
  if Rlt_dec (v_1 a) (v_1 b) then true else if Rlt_dec (v_1 b) (v_1 a) then false
  else if Rlt_dec (v_2 a) (v_2 b) then true else if Rlt_dec (v_2 b) (v_2 a) then false
  else if Rlt_dec (v_3 a) (v_3 b) then true else false.
Fixpoint insert_unique (a : V3 R) (l : list (V3 R)) : list (V3 R) :=
  match l with
  | [] => [a]
  | b :: r => if v_eqb a b then b :: r else if v_ltb a b then a :: b :: r else b :: insert_unique a r
  end.
Definition np_unique (l : list (V3 R)) : list (V3 R) := fold_right insert_unique [] l.
Fixpoint index_of (a : V3 R) (l : list (V3 R)) : nat :=
  match l with [] => 0%nat | b :: r => if v_eqb a b then 0%nat else S (index_of a r) end.
(** l.534 (l.493): the first distinct image with squared distance below 0.00001 (fractional coordinates, no wrapping). *)
Definition near (x c : V3 R) : bool :=
  if Rlt_dec ((v_1 x - v_1 c) ^ 2 + (v_2 x - v_2 c) ^ 2 + (v_3 x - v_3 c) ^ 2) (1 / 100000) then true else false.
Fixpoint first_near (x : V3 R) (l : list (V3 R)) : option nat :=
  match l with [] => None | c :: r => if near x c then Some 0%nat else option_map S (first_near x r) end.
(** l.501-540 calc_el_symm_for_xyz (l.463-499 calc_symop_for_xyz selects the same elements). None: IndexError of [0][0]. *)
Definition calc_el_symm_for_xyz (symop : list Op) (v : V3 R) : option (list Op) :=
  let x := mkV (mod1 (v_1 v)) (mod1 (v_2 v)) (mod1 (v_3 v)) in
  let xyz_s := map (round_image x) symop in
  let xyz_s_un := np_unique xyz_s in
  match first_near x xyz_s_un with
  | None => None
  | Some ind => Some (filter (fun e => Nat.eqb (index_of (round_image x e) xyz_s_un) ind) symop)
  end.

(** cl_1_atom_site_susceptibility.py l.31-50 calc_constr_matrix on n x n matrices (index functions).
    The tolerance of the pivot test is a parameter; numpy.isclose(p, 0., atol=1e-10) is |p| <= 1e-10. *)
Definition reduce_step (tol : R) (i : nat) (u : mat) : mat :=
  if Rle_dec (Rabs (u i i)) tol then u
  else
    let line_1 := fun j => u i j / u i i in
    fun a j => if Nat.eqb a i then line_1 j else if Nat.ltb a i then u a j - line_1 j * u a i else u a j.
(** the outer loop: i_x = k, k-1, ..., 1 *)
Fixpoint reduce_from (tol : R) (k : nat) (u : mat) : mat :=
  match k with O => u | S k' => reduce_from tol k' (reduce_step tol k u) end.
Definition constr_matrix_unrounded (tol : R) (n : nat) (matrix : mat) : mat :=
  let m_u := reduce_from tol (n - 1) (fun i j => matrix i j - delta i j) in
  fun i j => delta i j - m_u i j.
Definition calc_constr_matrix (n : nat) (matrix : mat) : mat :=
  fun i j => np_round 10 (constr_matrix_unrounded (1 / 10 ^ 10) n matrix i j).

(** numpy.linalg.det, modelled by the expansion along the first row (rows given as a list). *)
Definition drop_nth {A} (k : nat) (l : list A) : list A := firstn k l ++ skipn (S k) l.
Fixpoint altsum (s : R) (l : list R) : R := match l with [] => 0 | x :: r => s * x + altsum (- s) r end.
Fixpoint det_rows (n : nat) (m : list (list R)) : R :=
  match n, m with
  | S n', r :: rest =>
      altsum 1 (map (fun k => nth k r 0 * det_rows n' (map (drop_nth k) rest)) (seq 0 (List.length m)))
  | _, _ => 1
  end.
Definition det_list (m : list (list R)) : R := det_rows (List.length m) m.
(** l.19-28 calc_independent_lines; numpy.isclose(x, 0.) is |x| <= 1e-8. *)
Definition sub_matrix (m : mat) (l : list nat) : list (list R) := map (fun i => map (fun j => m i j) l) l.
Definition indep_step (m : mat) (l_ind : list nat) (i : nat) : list nat :=
  if Rle_dec (Rabs (det_list (sub_matrix m (l_ind ++ [i])))) (1 / 100000000) then l_ind else l_ind ++ [i].
Definition calc_independent_lines (n : nat) (m : mat) : list nat :=
  fold_left (indep_step m) (seq 1 (n - 1)) [0%nat].

(** l.124-203 apply_space_group_constraint for an atom of type Cani, with sc_chi the matrix of the site (n = 6): values,
    uncertainties, refinement flags and constraint flags (index functions, order 11, 22, 33, 12, 13, 23). *)
Definition not_zero5 (x : R) : bool := if Rle_dec (Rabs (np_round 5 x)) (1 / 100000000) then false else true.
Definition constr_values (n : nat) (sc : mat) (chi : vec) : vec := mulmv n sc chi.
Definition constr_sigma (n : nat) (sc : mat) (s : vec) : vec := fun i => sqrt (sumn n (fun k => Rsqr (sc i k) * Rsqr (s k))).
Definition constr_con (n : nat) (sc : mat) : nat -> bool := fun i => negb (existsb (Nat.eqb i) (calc_independent_lines n sc)).
Definition constr_ref (n : nat) (sc : mat) (ref : nat -> bool) : nat -> bool :=
  fun i => existsb (fun k => not_zero5 (sc i k) && ref k) (seq 0 n) && negb (constr_con n sc i).

(** The six numbers in the order 11, 22, 33, 12, 13, 23 of l.149-159. *)
Definition q_nth {A} (d : A) (q : Q6 A) (i : nat) : A :=
  match i with 0%nat => q_11 q | 1%nat => q_22 q | 2%nat => q_33 q | 3%nat => q_12 q | 4%nat => q_13 q | 5%nat => q_23 q | _ => d end.
Definition q_of {A} (f : nat -> A) : Q6 A := mkQ (f 0%nat) (f 1%nat) (f 2%nat) (f 3%nat) (f 4%nat) (f 5%nat).
Definition sc_mat (sc : Q6 (Q6 R)) : mat := fun i j => q_nth 0 (q_nth (mkQ 0 0 0 0 0 0) sc i) j.
(** cl_1_atom_site.py l.141-156 calc_sc_chi of an atom site (no time reversal: 13 rows, translations replaced by zeros). *)
Definition site_sc_chi (symop : list Op) (uc : U6 R) (xyz : V3 R) : option (Q6 (Q6 R)) :=
  option_map (fun l => calc_sc_chi (map (fun e => (e, 1%Z)) l) uc) (calc_el_symm_for_xyz symop xyz).
(** cl_1_atom_site_susceptibility.py l.124-203 for one item whose label is found (l.130-132); None: the IndexError of
    calc_el_symm_for_xyz. *)
Definition is_cani (it : sus_item) : bool :=
  match su_type it with None => false | Some t => startswith (lower t) "cani" end.
Definition apply_space_group_constraint (symop : list Op) (uc : U6 R) (xyz : V3 R) (it : sus_item) : option sus_item :=
  match site_sc_chi symop uc xyz with
  | None => None
  | Some sc =>
      let m := calc_constr_matrix 6 (sc_mat sc) in
      Some (if is_cani it then
        mkSus (su_type it) (q_of (constr_values 6 m (q_nth 0 (su_chi it)))) (q_of (constr_sigma 6 m (q_nth 0 (su_sigma it))))
              (q_of (constr_ref 6 m (q_nth false (su_ref it)))) (q_of (constr_con 6 m))
      else it)
  end.
