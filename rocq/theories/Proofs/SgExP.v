(** Concrete cases for the property file. *)
From Coq Require Import Reals ZArith QArith List String Ascii Bool Lia.
From Verif Require Import Spec.Symm Spec.SgSpec Model.Strings Model.SgTables Model.WyckoffData Model.SpaceGroup Proofs.SgCheckP Proofs.SgAllP Proofs.SgNamesP Proofs.WyckAtomP Proofs.SgRef2P.
Import ListNotations.
Open Scope string_scope.
Open Scope list_scope.
Open Scope Z_scope.
Lemma ex_names : get_it_number_by_name_hm_short "F d -3 m" = Some 227 /\ get_name_hall_by_it_number 227 = Some "-F 4vw 2vw 3".
Proof. vm_compute. split; reflexivity. Qed.
Lemma ex_settings : offered (get_it_coordinate_system_codes_by_it_number 62) (Some "cab") /\ misplaced_centre 62 (Some "cab") = false /\ missing_setting 62 (Some "cab") = false.
Proof. split; [cbn; exists "cab"; split; [reflexivity|tauto]|]. split; vm_compute; reflexivity. Qed.
Definition zs_eqb (l m : list (Z * string)) : bool := lsame (fun a b => if fst a =? fst b then String.eqb (snd a) (snd b) else false) l m.
Lemma zs_eqb_ok : forall l m, zs_eqb l m = true -> l = m.
Proof.
  apply lsame_eq. intros [a s] [b t] H. cbn [fst snd] in H. destruct (Z.eqb_spec a b) as [->|]; [|discriminate]. apply String.eqb_eq in H. congruence.
Qed.
Definition pnma (g : SpaceGroup) : bool :=
  if ops_check (fun ops => Nat.eqb (List.length ops) 8) g then
    zs_eqb (map (fun w => (w_mult w, string_of_list_ascii (w_letter w))) (sg_wyckoff g)) [(8, "d"); (4, "c"); (4, "b"); (4, "a")] else false.
Lemma ex_pnma : exists g ops, space_group 62 (Some "cab") = Some g /\ get_symm_elems (sg_full g) = Some ops /\ List.length ops = 8%nat /\
  map (fun w => (w_mult w, string_of_list_ascii (w_letter w))) (sg_wyckoff g) = [(8, "d"); (4, "c"); (4, "b"); (4, "a")].
Proof.
  destruct (found 62 (Some "cab") pnma) as [g [G H]]; [vm_compute; reflexivity|]. unfold pnma in H. destruct (ops_check _ g) eqn:C; [|discriminate]. apply ops_check_ok in C as [ops [O L]].
  exists g, ops. split; [exact G|]. split; [exact O|]. split; [now apply Nat.eqb_eq|now apply zs_eqb_ok].
Qed.
Definition immm (g : SpaceGroup) : bool :=
  match apply_constraints_on_atom (sg_shift g) (sg_wyckoff g) (1 # 10) 0 0 with
  | Some (m, l, (a, b, c), q) => if m =? 4 then if str_eqb l (chars "e") then if lsame qsame q [1 # 10; 0; 0]%Q then if a then false else if b then c else false else false else false else false
  | None => false end.
Lemma immm_ok : forall g, immm g = true -> apply_constraints_on_atom (sg_shift g) (sg_wyckoff g) (1 # 10) 0 0 = Some (4, chars "e", (false, true, true), [1 # 10; 0; 0]%Q).
Proof.
  intros g H. unfold immm in H. destruct (apply_constraints_on_atom _ _ _ _ _) as [[[[m l] [[a b] c]] q]|]; [|discriminate]. destruct (Z.eqb_spec m 4) as [->|]; [|discriminate].
  destruct (str_eqb l (chars "e")) eqn:L; [|discriminate]. apply String.eqb_eq in L. apply (f_equal list_ascii_of_string) in L. rewrite !list_ascii_of_string_of_list_ascii in L. subst l.
  destruct (lsame qsame q _) eqn:Q; [|discriminate]. apply (lsame_eq _ _ qsame_eq) in Q. subst q. destruct a; [discriminate|]. destruct b; [|discriminate]. destruct c; [|discriminate]. reflexivity.
Qed.
Lemma ex_immm : exists g, space_group 71 (Some "abc") = Some g /\
  apply_constraints_on_atom (sg_shift g) (sg_wyckoff g) (1 # 10) 0 0 = Some (4, chars "e", (false, true, true), [1 # 10; 0; 0]%Q) /\
  odd_position 71 (Some "abc") (chars "e") = false /\ doubled_position 71 (Some "abc") (chars "e") = false.
Proof.
  destruct (found 71 (Some "abc") immm) as [g [G H]]; [vm_compute; reflexivity|]. exists g. split; [exact G|]. split; [now apply immm_ok|]. split; vm_compute; reflexivity.
Qed.
