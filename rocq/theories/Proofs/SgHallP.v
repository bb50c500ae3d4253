(** The operations of the standard setting are those of the Hall symbol. *)
From Coq Require Import Reals ZArith QArith Qreals List String Bool Lia.
From Verif Require Import Spec.Lin3 Spec.Symm Spec.SgSpec Model.Strings Model.Symmetry Model.SgTables Model.WyckoffData Model.SpaceGroup Proofs.SymmBaseP Proofs.SgCheckP Proofs.SgAllP.
Import ListNotations.
Open Scope string_scope.
Open Scope list_scope.
Open Scope Z_scope.

Definition defaults : list (Z * option string) := map (fun it => (it, chosen it)) numbers.
Definition hall_ok (g : SpaceGroup) (o : option (list Op)) : bool :=
  match sg_hall g, o with
  | Some h, Some ops =>
      match hall_generators h with
      | Some gens => match norms gens, norms ops with Some ng, Some no => generation_check ng no | _, _ => false end
      | None => false end
  | _, _ => false end.
Lemma hall_all : eacho defaults (fun it _ g o => if one_of it [144; 228] then true else match g with Some g => hall_ok g o | None => false end) = true.
Proof. vm_compute. reflexivity. Qed.
Lemma hall : forall it, 1 <= it <= 230 -> it <> 144 -> it <> 228 ->
  exists g h gens ops, new_space_group (by_number it) = Some g /\ sg_hall g = Some h /\ hall_generators h = Some gens /\
    get_symm_elems (sg_full g) = Some ops /\ generated_by gens ops.
Proof.
  intros it H N1 N2. assert (D : In (it, chosen it) defaults) by (unfold defaults; apply (in_map (fun it => (it, chosen it))), numbers_in, H).
  generalize (eacho_in _ _ hall_all it (chosen it) D). cbv beta. unfold one_of. cbn [existsb].
  destruct (Z.eqb_spec it 144); [contradiction|]. destruct (Z.eqb_spec it 228); [contradiction|]. cbn [orb]. rewrite (new_by_number it H).
  destruct (space_group it (chosen it)) as [g|]; [|discriminate]. cbn [ops_of]. unfold hall_ok.
  destruct (sg_hall g) as [h|] eqn:EH; [|discriminate]. destruct (get_symm_elems (sg_full g)) as [ops|] eqn:EO; [|discriminate].
  destruct (hall_generators h) as [gens|] eqn:EG; [|discriminate]. destruct (norms gens) as [ng|] eqn:NG; [|discriminate].
  destruct (norms ops) as [no|] eqn:NO; [|discriminate]. intros C. exists g, h, gens, ops. repeat (split; [assumption || reflexivity|]).
  eapply generation_check_ok; eassumption.
Qed.
