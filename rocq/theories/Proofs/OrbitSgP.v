(** The reduced operations of every setting give, with their negatives, a Laue group with each rotation once. *)
From Coq Require Import Reals ZArith QArith List String Bool Lia.
From Verif Require Import Spec.Lin3 Spec.Symm Spec.HklSpec Spec.Orbit Spec.SgSpec Model.Strings Model.SgTables Model.WyckoffData Model.SpaceGroup Proofs.SymmBaseP Proofs.SgCheckP Proofs.SgDataP Proofs.OrbitsP.
Import ListNotations.
Open Scope list_scope.
Open Scope Z_scope.

Definition meq (a b : M3 Z) : bool :=
  match a, b with mkM a1 a2 a3 a4 a5 a6 a7 a8 a9, mkM b1 b2 b3 b4 b5 b6 b7 b8 b9 =>
    if a1 =? b1 then if a2 =? b2 then if a3 =? b3 then if a4 =? b4 then if a5 =? b5 then if a6 =? b6 then if a7 =? b7 then if a8 =? b8 then a9 =? b9
    else false else false else false else false else false else false else false else false end.
Lemma meq_ok : forall a b, meq a b = true <-> a = b.
Proof.
  intros [a1 a2 a3 a4 a5 a6 a7 a8 a9] [b1 b2 b3 b4 b5 b6 b7 b8 b9]. unfold meq.
  repeat match goal with |- context [if ?x =? ?y then _ else _] => destruct (Z.eqb_spec x y) as [<-|]; [|split; [discriminate|intros E; injection E; intros; exfalso; auto]] end.
  rewrite Z.eqb_eq. split; [intros ->; reflexivity|intros E; injection E; auto].
Qed.
Definition pm (a b : M3 Z) : bool := if meq a b then true else meq a (neg3 b).
Lemma pm_ok : forall a b, pm a b = true <-> up_to_sign true a b.
Proof.
  intros a b. unfold pm, up_to_sign. destruct (meq a b) eqn:E.
  - apply meq_ok in E. subst b. split; [intros _; left; reflexivity|reflexivity].
  - rewrite meq_ok. split.
    + intros ->. right. split; [reflexivity|]. intros [] []; reflexivity.
    + intros [H|[_ H]].
      * exfalso. assert (a = b) by (destruct a, b; f_equal; [apply (H X1 X1)|apply (H X1 X2)|apply (H X1 X3)|apply (H X2 X1)|apply (H X2 X2)|apply (H X2 X3)|apply (H X3 X1)|apply (H X3 X2)|apply (H X3 X3)]).
        apply meq_ok in H0. congruence.
      * destruct a, b. unfold neg3, m3. cbn. f_equal; [apply (H X1 X1)|apply (H X1 X2)|apply (H X1 X3)|apply (H X2 X1)|apply (H X2 X2)|apply (H X2 X3)|apply (H X3 X1)|apply (H X3 X2)|apply (H X3 X3)].
Qed.
Fixpoint distinct (l : list (M3 Z)) : bool := match l with [] => true | a :: r => if existsb (pm a) r then false else distinct r end.
Definition laue_check (rs : list (M3 Z)) : bool :=
  if distinct rs then
    if existsb (fun r => pm r id3) rs then
      if forallb (fun a => forallb (fun b => let c := mul3 a b in existsb (fun r => pm r c) rs) rs) rs then
        forallb (fun a => existsb (fun b => pm (mul3 a b) id3) rs) rs
      else false else false else false.
Lemma product_ok : forall a b, is_rotation_product (mul3 a b) a b.
Proof. intros a b [] []; reflexivity. Qed.
Lemma laue_check_ok : forall red, laue_check (map e_r red) = true -> laue_list red.
Proof.
  intros red H. unfold laue_check in H. destruct (distinct (map e_r red)) eqn:D; [|discriminate]. destruct (existsb _ _) eqn:I in H; [|discriminate].
  destruct (forallb _ _) eqn:P in H; [|discriminate]. split; [split; [|split]|].
  - apply existsb_exists in I as (r & Hr & E). apply in_map_iff in Hr as (e & <- & He). exists e. split; [exact He|]. apply pm_ok in E. exact E.
  - intros e f He Hf. rewrite forallb_forall in P. specialize (P (e_r e) (in_map _ _ _ He)). rewrite forallb_forall in P. specialize (P (e_r f) (in_map _ _ _ Hf)).
    cbv zeta in P. apply existsb_exists in P as (r & Hr & E). apply in_map_iff in Hr as (g & <- & Hg). exists g, (mul3 (e_r e) (e_r f)).
    split; [exact Hg|]. split; [apply product_ok|]. now apply pm_ok.
  - intros e He. rewrite forallb_forall in H. specialize (H (e_r e) (in_map _ _ _ He)). apply existsb_exists in H as (r & Hr & E). apply in_map_iff in Hr as (g & <- & Hg).
    exists g, (mul3 (e_r e) (e_r g)). split; [exact Hg|]. split; [apply product_ok|]. now apply pm_ok.
  - clear - D. induction red as [|e red IH]; constructor.
    + cbn [map distinct] in D. destruct (existsb (pm (e_r e)) (map e_r red)) eqn:X; [discriminate|]. apply Forall_forall. intros f Hf U. apply pm_ok in U.
      assert (T : existsb (pm (e_r e)) (map e_r red) = true) by (apply existsb_exists; exists (e_r f); split; [now apply in_map|exact U]). congruence.
    + apply IH. cbn [map distinct] in D. destruct (existsb (pm (e_r e)) (map e_r red)); [discriminate|exact D].
Qed.
Definition laue_of (o : option (list Op)) : bool := match o with Some red => laue_check (map e_r red) | None => false end.
Lemma laue_all : each settings (fun it code g => match g with None => true | Some g => laue_of (get_symm_elems (sg_reduced g)) end) = true.
Proof. vm_compute. reflexivity. Qed.
Theorem laue_groups : forall it code g, 1 <= it <= 230 -> offered (get_it_coordinate_system_codes_by_it_number it) code -> space_group it code = Some g ->
  exists red, get_symm_elems (sg_reduced g) = Some red /\ laue_list red.
Proof.
  intros it code g I O B. generalize (each_ok _ laue_all it code I O). cbv beta. rewrite B. unfold laue_of.
  destruct (get_symm_elems (sg_reduced g)) as [red|]; [|discriminate]. intros H. exists red. split; [reflexivity|]. now apply laue_check_ok.
Qed.
