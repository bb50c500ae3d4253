(** Model of cryspy/procedure_rhochi/rhochi_by_dictionary.py and of the part of
    B_parent_classes/cl_4_global.py (GlobalN.get_dictionary) which makes linear constraints out of marks.

    The nested dictionary is a store: one real number for each way (way[0], way[1], way[2]).  chi-square with its
    derivatives is computed by calc_chi_sq_for_*_by_dictionary; here that is an argument [ev], any function of the cache
    dictionary and of the store.  numpy.linalg.inv is an argument [inv] returning None where numpy raises.  Floats are reals. *)
From Coq Require Import Reals List Arith Ascii String Bool.
From Verif Require Import Spec.LinN.
Import ListNotations.
Open Scope R_scope.

Definition way := (string * string * list nat)%type.
Definition way_eq_dec : forall a b : way, {a = b} + {a <> b}.
Proof. repeat decide equality. Defined.
Definition store := way -> R.
Definition upd (s : store) (w : way) (v : R) : store := fun w' => if way_eq_dec w' w then v else s w'.

(** list.index (ValueError = None) *)
Fixpoint index_of (w : way) (l : list way) : option nat :=
  match l with [] => None | x :: m => if way_eq_dec x w then Some O else option_map S (index_of w m) end.

Definition constr := list (R * way).
(** l.80-86 form_matrix_q: rows; an entry is assigned, not added *)
Definition upd_row (r : vec) (j : nat) (v : R) : vec := fun k => if Nat.eq_dec k j then v else r k.
Fixpoint fill_row (names : list way) (c : constr) (row : vec) : option vec :=
  match c with
  | [] => Some row
  | (coeff, p_name) :: m => match index_of p_name names with None => None | Some ind => fill_row names m (upd_row row ind coeff) end
  end.
Fixpoint form_matrix_q (lc : list constr) (names : list way) : option (list vec) :=
  match lc with
  | [] => Some []
  | c :: m => match fill_row names c (fun _ => 0) with None => None | Some r =>
                match form_matrix_q m names with None => None | Some rs => Some (r :: rs) end end
  end.
Definition mat_of_rows (rows : list vec) : mat := fun i j => nth i rows (fun _ => 0) j.

(** l.69-77 calc_shift_p_by_constraints_hamilton; n parameters, m constraints *)
Definition calc_shift_p_by_constraints_hamilton (inv : nat -> mat -> option mat) (n m : nat) (delta_p : vec) (dder_chi_sq : mat) (matrix_q : mat) : option vec :=
  let q_t := transpose matrix_q in
  let q_dder_chi_sq := mulmm n matrix_q dder_chi_sq in
  let q_dder_chi_sq_qt := mulmm n q_dder_chi_sq q_t in
  match inv m q_dder_chi_sq_qt with
  | None => None
  | Some inv_q_dder_qt => Some (fun j => - mulvm n delta_p (mulmm m q_t (mulmm m inv_q_dder_qt q_dder_chi_sq)) j)
  end.

(** result of rhochi_calc_chi_sq_by_dictionary *)
Record chi_out := mkE { e_chi : R; e_n : nat; e_der : vec; e_dder : mat; e_names : list way }.

(** l.103-104 (and l.228-231 with minus): for way, d_p in zip(names, delta): dict[way] += d_p *)
Fixpoint add_steps (sgn : R) (names : list way) (k : nat) (d : vec) (s : store) : store :=
  match names with [] => s | w :: m => add_steps sgn m (S k) d (upd s w (s w + sgn * d k)) end.

(** l.89-105 rhochi_one_iteration_by_dictionary, given the output of the chi-square calculation *)
Definition one_iteration (inv : nat -> mat -> option mat) (lc : option (list constr)) (e : chi_out) (s : store) : option (vec * store) :=
  let n := List.length (e_names e) in
  match inv n (e_dder e) with
  | None => None
  | Some h =>
    let delta_p := fun i => - mulmv n h (e_der e) i in
    match lc with
    | None => Some (delta_p, add_steps 1 (e_names e) 0 delta_p s)
    | Some c =>
      match form_matrix_q c (e_names e) with
      | None => None
      | Some rows =>
        match calc_shift_p_by_constraints_hamilton inv n (List.length c) delta_p (e_dder e) (mat_of_rows rows) with
        | None => None
        | Some shift => let delta_p := fun i => delta_p i + shift i in Some (delta_p, add_steps 1 (e_names e) 0 delta_p s)
        end
      end
    end
  end.

(** l.203-233 rhochi_lsq_by_dictionary.  The evaluation [ev use_precalculated cache store] returns the chi-square data and
    the new content of the cache dictionary.  [cache1], [cache2] are the contents of the dictionaries first bound to
    dict_in_out and dict_in_out_2; after l.226 the variable dict_in_out denotes the second dictionary object ([same]).  n_point of the last evaluation is returned by
    the code; it is not modelled. *)
Record lsq_out (C : Type) := mkL { l_out : chi_out; l_delta : vec; l_dict : C; l_store : store }.
Arguments mkL {C}. Arguments l_out {C}. Arguments l_delta {C}. Arguments l_dict {C}. Arguments l_store {C}.
Section Lsq.
Context {C : Type} (inv : nat -> mat -> option mat) (lc : option (list constr)) (ev : bool -> C -> store -> chi_out * C).
Fixpoint lsq_loop (fuel : nat) (e : chi_out) (d : vec) (s : store) (cache1 cache2 : C) (same : bool) : option (lsq_out C) :=
  match fuel with
  | O => None
  | S fuel =>
    let '(e2, cache2) := ev true cache2 s in
    match one_iteration inv lc e2 s with
    | None => None
    | Some (d2, s2) =>
      if Rlt_dec (e_chi e2) (e_chi e) then lsq_loop fuel e2 d2 s2 cache1 cache2 true
      else
        let s3 := add_steps (-1) (e_names e2) 0 d2 s2 in
        let s4 := add_steps (-1) (e_names e) 0 d s3 in
        Some (mkL e d (if same then cache2 else cache1) s4)
    end
  end.
Definition lsq (fuel : nat) (empty : C) (s : store) : option (lsq_out C) :=
  let '(e, cache1) := ev false empty s in
  match one_iteration inv lc e s with None => None | Some (d, s1) => lsq_loop fuel e d s1 cache1 empty false end.
End Lsq.

(** l.134-136 names of parameters set by a constraint and names of the fitted parameters; linear_constraint[1][1] of a
    constraint with one term raises IndexError (here: the constraint is given as its first two terms) *)
Definition constr2 := ((R * way) * (R * way))%type.
Definition names_fixed (lc : list constr2) : list way := map (fun c => snd (snd c)) lc.
Definition names_free (lc : list constr2) (names : list way) : list way :=
  filter (fun w => if in_dec way_eq_dec w (names_fixed lc) then false else true) names.
(** l.157-158 *)
Fixpoint set_params (names : list way) (p : list R) (s : store) : store :=
  match names, p with w :: m, v :: q => set_params m q (upd s w v) | _, _ => s end.
(** l.160-165 the constrained parameters *)
Fixpoint set_constrained (free : list way) (p : list R) (lc : list constr2) (s : store) : option store :=
  match lc with
  | [] => Some s
  | ((c0, first_name), (c1, second_name)) :: m =>
    let coeff := - c1 / c0 in
    match index_of first_name free with
    | None => None
    | Some i => match nth_error p i with None => None | Some v => set_constrained free p m (upd s second_name (coeff * v)) end
    end
  end.
(** the store at the moment tempfunc (l.156-175) calculates chi-square *)
Definition tempfunc_store (lc : list constr2) (names : list way) (p : list R) (s : store) : option store :=
  set_constrained (names_free lc names) p lc (set_params (names_free lc names) p s).
(** l.186: the minimiser calls tempfunc at some list of points; the store after all of them *)
Fixpoint minimise_store (lc : list constr2) (names : list way) (points : list (list R)) (s : store) : option store :=
  match points with
  | [] => Some s
  | p :: m => match tempfunc_store lc names p s with None => None | Some s' => minimise_store lc names m s' end
  end.

(** l.354-371 assembly of the total chi-square.  [names] is parameter_name_sum = list(set(parameter_name_full)), in
    whatever order Python's set gives. *)
Definition add_at (v : vec) (i : nat) (x : R) : vec := fun k => if Nat.eq_dec k i then v k + x else v k.
Definition add_at2 (m : mat) (i j : nat) (x : R) : mat := fun a b => if Nat.eq_dec a i then (if Nat.eq_dec b j then m a b + x else m a b) else m a b.
Definition pos (names : list way) (w : way) : nat := match index_of w names with Some i => i | None => List.length names end.
(** inner loop l.366-370, [l] = l_pn[i_pn_1+1:], k = i_pn_2+i_pn_1+1 *)
Fixpoint acc_row (names : list way) (ind_1 i1 : nat) (l : list way) (k : nat) (ddc : mat) (m : mat) : mat :=
  match l with
  | [] => m
  | pn_2 :: l' =>
    let ind_2 := pos names pn_2 in
    acc_row names ind_1 i1 l' (S k) ddc (add_at2 (add_at2 m ind_1 ind_2 (ddc i1 k)) ind_2 ind_1 (ddc k i1))
  end.
Fixpoint acc_exp (names : list way) (l : list way) (i1 : nat) (dc : vec) (ddc : mat) (st : vec * mat) : vec * mat :=
  match l with
  | [] => st
  | pn_1 :: l' =>
    let ind_1 := pos names pn_1 in
    let '(v, m) := st in
    acc_exp names l' (S i1) dc ddc (add_at v ind_1 (dc i1), acc_row names ind_1 i1 l' (S i1) ddc (add_at2 m ind_1 ind_1 (ddc i1 i1)))
  end.
Definition assemble (names : list way) (exps : list chi_out) : chi_out :=
  let '(der, dder) := fold_left (fun st e => acc_exp names (e_names e) 0 (e_der e) (e_dder e) st) exps (fun _ => 0, fun _ _ => 0) in
  mkE (fold_left (fun a e => a + e_chi e) exps 0) (fold_left (fun a e => a + e_n e)%nat exps O) der dder names.

(** cl_4_global.py l.583-608: constraints from the marks of the refined parameters.
    str.rstrip("-+") *)
Fixpoint rstrip_pm (s : string) : string :=
  match s with
  | EmptyString => EmptyString
  | String a t =>
    match rstrip_pm t with
    | EmptyString => if (Ascii.eqb a "-"%char || Ascii.eqb a "+"%char)%bool then EmptyString else String a EmptyString
    | r => String a r
    end
  end.
(** str.endswith("-") *)
Fixpoint endswith_minus (s : string) : bool :=
  match s with EmptyString => false | String a EmptyString => Ascii.eqb a "-"%char | String _ t => endswith_minus t end.
(** the loop over constraint_labels[ind_1+1:] for the variables after the first one carrying the label *)
Definition later_constraints (label : string) (m1 : string) (n1 : way) (rest : list (string * way)) : list constr2 :=
  map (fun v => ((if endswith_minus m1 then -1 else 1, n1), (if endswith_minus (fst v) then 1 else -1, snd v)))
      (filter (fun v => String.eqb (rstrip_pm (fst v)) label) rest).
Fixpoint label_constraints (label : string) (vars : list (string * way)) : list constr2 :=
  match vars with
  | [] => []
  | (m1, n1) :: rest => if String.eqb (rstrip_pm m1) label then later_constraints label m1 n1 rest else label_constraints label rest
  end.
(** [labels] is set(constraint_labels).difference([""]) in the order of Python's set *)
Definition mark_constraints (labels : list string) (vars : list (string * way)) : list constr2 :=
  flat_map (fun l => label_constraints l vars) labels.
