(** Wyckoff positions are orbits. *)
From Coq Require Import Reals ZArith QArith Qreals List String Bool Lia.
From Verif Require Import Spec.Lin3 Spec.Symm Spec.SgSpec Model.Strings Model.Symmetry Model.SgTables Model.WyckoffData Model.SpaceGroup Proofs.SymmBaseP Proofs.SgCheckP Proofs.SgAllP.
Import ListNotations.
Open Scope string_scope.
Open Scope list_scope.
Open Scope Z_scope.


Definition pos_ok (shift : list (list Q)) (no : list Op) (w : WPos) : bool :=
  match wyckoff_full shift (w_coords w) with
  | Some full => match ops_of_pos full with Some ps => position_check no (w_mult w) ps | None => false end
  | None => false end.
Definition wyck_ok (it : Z) (code : option string) (g : SpaceGroup) (o : option (list Op)) : bool :=
  match o with
  | Some ops => match norms ops with
                | Some no => forallb (fun w => if odd_position it code (w_letter w) then true else pos_ok (sg_shift g) no w) (sg_wyckoff g)
                | None => false end
  | None => false end.
Lemma wyck_all : eacho settings (fun it code g o => match g with None => true | Some g => wyck_ok it code g o end) = true.
Proof. vm_compute. reflexivity. Qed.
Lemma positions : forall it code g, 1 <= it <= 230 -> offered (get_it_coordinate_system_codes_by_it_number it) code -> space_group it code = Some g ->
  exists ops, get_symm_elems (sg_full g) = Some ops /\
  forall w, In w (sg_wyckoff g) -> odd_position it code (w_letter w) = false ->
    exists full, wyckoff_full (sg_shift g) (w_coords w) = Some full /\ wyckoff_position ops (w_mult w) full.
Proof.
  intros it code g I O B. generalize (eacho_ok _ wyck_all it code g I O B). cbv beta iota. unfold wyck_ok.
  destruct (get_symm_elems (sg_full g)) as [ops|]; [|discriminate]. destruct (norms ops) as [no|] eqn:NO; [|discriminate]. intros H.
  exists ops. split; [reflexivity|]. intros w W N. rewrite forallb_forall in H. specialize (H w W). rewrite N in H. unfold pos_ok in H.
  destruct (wyckoff_full (sg_shift g) (w_coords w)) as [full|]; [|discriminate]. destruct (ops_of_pos full) as [ps|] eqn:PS; [|discriminate].
  exists full. split; [reflexivity|]. eapply position_check_ok; eassumption.
Qed.
