(** calc_hkl_equiv: the Laue orbit of a reflection. *)
From Coq Require Import Reals ZArith QArith List Bool Arith Lia Permutation Sorting.Sorted.
From Coquelicot Require Import Complex.
From Verif Require Import Spec.Lin3 Spec.Cell Spec.Symm Spec.Scatter Spec.HklSpec Spec.Orbit Model.Strings Model.Numbers Model.UnitCell Model.Symmetry Model.StructFactor Model.HklList Model.Orbits
  Proofs.SymmBaseP Proofs.SymmGroupP Proofs.ScatterP Proofs.StructFactorP2 Proofs.HklListP.
Import ListNotations.
Open Scope list_scope.
Open Scope Z_scope.

Lemma uniq_in : forall l y, In y (fold_right insert_hkl [] l) <-> In y l.
Proof. intros l y. induction l as [|z l IH]; cbn [fold_right]; [tauto|]. rewrite insert_hkl_in, IH. cbn. intuition congruence. Qed.
Lemma uniq_sorted : forall l, StronglySorted lexlt (fold_right insert_hkl [] l).
Proof. induction l as [|x l IH]; cbn [fold_right]; [constructor|]. apply insert_sorted. exact IH. Qed.
Lemma uniq_nodup : forall l, NoDup (fold_right insert_hkl [] l).
Proof. intros l. apply sorted_nodup, uniq_sorted. Qed.
(** Two strictly sorted lists with the same elements are equal. *)
Lemma lexlt_irrefl : forall a, ~ lexlt a a.
Proof. intros a H. unfold lexlt in H. rewrite lex_lt_spec in H. lia. Qed.
Lemma sorted_ext : forall l l', StronglySorted lexlt l -> StronglySorted lexlt l' -> (forall x, In x l <-> In x l') -> l = l'.
Proof.
  induction l as [|a l IH]; intros [|b l'] S S' E.
  - reflexivity.
  - exfalso. apply (proj2 (E b)). now left.
  - exfalso. apply (proj1 (E a)). now left.
  - inversion S as [|? ? S1 F1]; subst. inversion S' as [|? ? S2 F2]; subst. rewrite Forall_forall in F1, F2.
    assert (a = b).
    { destruct (proj1 (E a) (or_introl eq_refl)) as [->|Ha]; [reflexivity|]. destruct (proj2 (E b) (or_introl eq_refl)) as [->|Hb]; [reflexivity|].
      exfalso. apply (lexlt_irrefl a). eapply lexlt_trans; [apply F1, Hb|apply F2, Ha]. }
    subst b. f_equal. apply IH; try assumption. intros x. split; intros Hx.
    + destruct (proj1 (E x) (or_intror Hx)) as [<-|H]; [|exact H]. exfalso. apply (lexlt_irrefl a). now apply F1.
    + destruct (proj2 (E x) (or_intror Hx)) as [<-|H]; [|exact H]. exfalso. apply (lexlt_irrefl a). now apply F2.
Qed.

Lemma equiv_members : forall red h g, In g (fst (calc_hkl_equiv red h)) <-> equivalent red true h g.
Proof. intros red h g. unfold calc_hkl_equiv. cbn [fst]. rewrite uniq_in. rewrite <- eqv_members. reflexivity. Qed.
Lemma equiv_nodup : forall red h, NoDup (fst (calc_hkl_equiv red h)).
Proof. intros red h. apply uniq_nodup. Qed.

Lemma filter_length : forall A (p : A -> bool) l, (List.length (filter p l) + List.length (filter (fun x => negb (p x)) l))%nat = List.length l.
Proof. intros A p l. induction l as [|x l IH]; [reflexivity|]. cbn [filter]. destruct (p x); cbn [negb List.length]; lia. Qed.
Lemma NoDup_app_intro : forall A (l m : list A), NoDup l -> NoDup m -> (forall x, In x l -> In x m -> False) -> NoDup (l ++ m).
Proof.
  intros A l m N M H. induction N as [|x l Hx N IH]; [exact M|]. cbn. constructor.
  - rewrite in_app_iff. intros [K|K]; [exact (Hx K)|]. apply (H x); [now left|exact K].
  - apply IH. intros y Hy K. apply (H y); [now right|exact K].
Qed.
(** ** Fibres of a map *)
Section Fib.
Variables (A B : Type) (eqb : B -> B -> bool).
Hypothesis eqb_ok : forall a b, eqb a b = true <-> a = b.
Variable f : A -> B.
Lemma fibres : forall (u : list B) (L : list A), List.NoDup u -> (forall x, In x L -> In (f x) u) ->
  List.length L = fold_right Nat.add 0%nat (map (fun b => List.length (filter (fun x => eqb (f x) b) L)) u).
Proof.
  intros u. induction u as [|b u IH]; intros L N H.
  - destruct L as [|x L]; [reflexivity|]. destruct (H x (or_introl eq_refl)).
  - inversion N as [|? ? Nb Nu]; subst. cbn [map fold_right].
    rewrite <- (filter_length A (fun x => eqb (f x) b) L). f_equal.
    rewrite (IH (filter (fun x => negb (eqb (f x) b)) L) Nu).
    + f_equal. apply map_ext_in. intros c Hc. f_equal. 
      induction L as [|x L IHL]; [reflexivity|]. cbn [filter].
      assert (HL : forall y, In y L -> In (f y) (b :: u)) by (intros y Hy; apply H; now right). specialize (IHL HL).
      destruct (eqb (f x) b) eqn:Eb; cbn [negb filter].
      * destruct (eqb (f x) c) eqn:Ec; [|exact IHL]. exfalso. apply eqb_ok in Eb, Ec. congruence.
      * destruct (eqb (f x) c); [f_equal|]; exact IHL.
    + intros x Hx. apply filter_In in Hx as [Hx E]. destruct (H x Hx) as [Eb|G]; [|exact G]. exfalso.
      assert (T : eqb (f x) b = true) by (apply eqb_ok; symmetry; exact Eb). rewrite T in E. discriminate.
Qed.
Lemma fibres_const : forall (u : list B) (L : list A) (m : nat), NoDup u -> (forall x, In x L -> In (f x) u) ->
  (forall b, In b u -> List.length (filter (fun x => eqb (f x) b) L) = m) -> List.length L = (m * List.length u)%nat.
Proof.
  intros u L m N H C. rewrite (fibres u L N H). clear N H. induction u as [|b u IH]; [cbn; lia|]. cbn [map fold_right List.length].
  rewrite C by (now left). rewrite IH by (intros c Hc; apply C; now right). lia.
Qed.
End Fib.

(** ** The signed rotations *)
Definition sgn_rot : Type := M3 Z * Z.
Definition signed (red : list Op) : list (Op * Z) := map (fun e => (e, 1)) red ++ map (fun e => (e, -1)) red.
Definition image (h : V3 Z) (q : Op * Z) : V3 Z := zv (fun i => snd q * zrow h (e_r (fst q)) i).
Lemma image_pos : forall h e, image h (e, 1) = hkl_r h e.
Proof. intros [a b c] [bb d [m1 m2 m3 m4 m5 m6 m7 m8 m9]]. unfold image, zv, zrow, hkl_r. cbn [zv fst snd vget mget e_r v_1 v_2 v_3 m_11 m_12 m_13 m_21 m_22 m_23 m_31 m_32 m_33]. f_equal; ring. Qed.
Lemma image_neg : forall h e, image h (e, -1) = z_opp_v (hkl_r h e).
Proof. intros [a b c] [bb d [m1 m2 m3 m4 m5 m6 m7 m8 m9]]. unfold image, zv, zrow, hkl_r, z_opp_v. cbn [zv fst snd vget mget e_r v_1 v_2 v_3 m_11 m_12 m_13 m_21 m_22 m_23 m_31 m_32 m_33]. f_equal; ring. Qed.
Lemma images_map : forall red h, map (hkl_r h) red ++ map z_opp_v (map (hkl_r h) red) = map (image h) (signed red).
Proof.
  intros red h. unfold signed. rewrite map_app, !map_map. f_equal; apply map_ext; intros e; symmetry; [apply image_pos|apply image_neg].
Qed.
Lemma signed_in : forall red e s, In (e, s) (signed red) <-> In e red /\ sgn_ok true s.
Proof.
  intros red e s. unfold signed, sgn_ok. rewrite in_app_iff, !in_map_iff. split.
  - intros [(x & E & H)|(x & E & H)]; injection E as -> <-; auto.
  - intros [H [->|[-> _]]]; [left|right]; exists e; auto.
Qed.
Lemma signed_len : forall red, List.length (signed red) = (2 * List.length red)%nat.
Proof. intros red. unfold signed. rewrite app_length, !map_length. lia. Qed.

Lemma fop_in : forall A (P : A -> A -> Prop) l, (forall a b, P a b -> P b a) -> ForallOrdPairs P l -> forall a b, In a l -> In b l -> a = b \/ P a b.
Proof.
  intros A P l Sy F. induction F as [|x l Hx F IH]; intros a b Ha Hb; [destruct Ha|]. rewrite Forall_forall in Hx.
  destruct Ha as [<-|Ha], Hb as [<-|Hb]; auto.
Qed.
Lemma uts_sym : forall c a b, up_to_sign c a b -> up_to_sign c b a.
Proof. intros c a b [H|[C H]]; [left|right; split; [exact C|]]; intros i j; rewrite H; ring. Qed.
Lemma fop_nodup : forall A (P : A -> A -> Prop) l, (forall a, ~ P a a) -> ForallOrdPairs P l -> NoDup l.
Proof.
  intros A P l I F. induction F as [|x l Hx F IH]; constructor; [|exact IH]. intros H. rewrite Forall_forall in Hx. exact (I x (Hx x H)).
Qed.

Section Orbit.
Variable red : list Op.
Hypothesis L : laue_list red.
Let G : rotation_group red true := proj1 L.
Lemma laue_eq : forall e f, In e red -> In f red -> up_to_sign true (e_r e) (e_r f) -> e = f.
Proof.
  intros e f He Hf U. destruct (fop_in _ (fun e f => ~ up_to_sign true (e_r e) (e_r f)) red (fun a b H K => H (uts_sym _ _ _ K)) (proj2 L) e f He Hf) as [E|E]; [exact E|contradiction].
Qed.
Lemma red_nodup : NoDup red.
Proof. refine (fop_nodup _ _ red _ (proj2 L)). intros a H. apply H. left. reflexivity. Qed.
Lemma signed_nodup : NoDup (signed red).
Proof.
  unfold signed. apply NoDup_app_intro.
  - apply FinFun.Injective_map_NoDup; [|apply red_nodup]. intros a b E. now injection E.
  - apply FinFun.Injective_map_NoDup; [|apply red_nodup]. intros a b E. now injection E.
  - intros x Hx Hy. apply in_map_iff in Hx as (a & <- & _). apply in_map_iff in Hy as (b & E & _). discriminate.
Qed.
(** A rotation of the list is not zero. *)
Lemma rot_nonzero : forall e, In e red -> ~ (forall i j, mget (e_r e) i j = 0).
Proof.
  intros e He Z0. destruct G as (_ & _ & Gi). destruct (Gi e He) as (f & r & Hf & P & U). apply uts_iff in U as (s & S & U).
  specialize (P X1 X1). rewrite !Z0 in P. rewrite (U X1 X1) in P. cbn in P. destruct S as [->|[-> _]]; lia.
Qed.
(** Products with signs. *)
Lemma signed_mul : forall q a, In q (signed red) -> In a (signed red) -> exists p, In p (signed red) /\
  (forall i j, snd p * mget (e_r (fst p)) i j = snd q * snd a * (mget (e_r (fst q)) i X1 * mget (e_r (fst a)) X1 j + mget (e_r (fst q)) i X2 * mget (e_r (fst a)) X2 j + mget (e_r (fst q)) i X3 * mget (e_r (fst a)) X3 j)).
Proof.
  intros [e s] [f t] Hq Ha. apply signed_in in Hq as [He S]. apply signed_in in Ha as [Hf T]. destruct G as (_ & Gp & _).
  destruct (Gp e f He Hf) as (k & r & Hk & P & U). apply uts_iff in U as (u & Us & U). exists (k, s * t * u). split.
  - apply signed_in. split; [exact Hk|]. apply sgn_mul; [apply sgn_mul|]; assumption.
  - intros i j. cbn [fst snd]. rewrite (U i j), <- (P i j). pose proof (sgn_sq true u Us). transitivity (s * t * (u * u) * mget r i j); [ring|rewrite H; ring].
Qed.
Definition pmat (p : Op * Z) (i j : ix) : Z := snd p * mget (e_r (fst p)) i j.
Lemma pmat_inj : forall p q, In p (signed red) -> In q (signed red) -> (forall i j, pmat p i j = pmat q i j) -> p = q.
Proof.
  intros [e s] [f t] Hp Hq E. apply signed_in in Hp as [He S]. apply signed_in in Hq as [Hf T]. unfold pmat in E. cbn [fst snd] in E.
  assert (e = f).
  { apply laue_eq; try assumption. apply uts_iff. exists (s * t). split; [now apply sgn_mul|]. intros i j.
    pose proof (sgn_sq true s S). transitivity (s * (s * mget (e_r e) i j)); [transitivity ((s * s) * mget (e_r e) i j); [rewrite H|]; ring|]. rewrite E. ring. }
  subst f. f_equal. destruct S as [->|[-> _]], T as [->|[-> _]]; try reflexivity; exfalso; apply (rot_nonzero e He); intros i j; specialize (E i j); lia.
Qed.
Lemma signed_inv : forall q, In q (signed red) -> exists p, In p (signed red) /\ forall i j, pmat q i X1 * pmat p X1 j + pmat q i X2 * pmat p X2 j + pmat q i X3 * pmat p X3 j = mget (mkM 1 0 0 0 1 0 0 0 1) i j.
Proof.
  intros [e s] Hq. apply signed_in in Hq as [He S]. destruct G as (_ & _ & Gi). destruct (Gi e He) as (f & r & Hf & P & U). apply uts_iff in U as (t & T & U).
  exists (f, s * t). split; [apply signed_in; split; [exact Hf|now apply sgn_mul]|]. intros i j. unfold pmat. cbn [fst snd].
  pose proof (sgn_sq true s S) as S2. pose proof (sgn_sq true t T) as T2.
  transitivity ((s * s) * t * (mget (e_r e) i X1 * mget (e_r f) X1 j + mget (e_r e) i X2 * mget (e_r f) X2 j + mget (e_r e) i X3 * mget (e_r f) X3 j)); [ring|].
  rewrite <- P, U, S2. transitivity ((t * t) * mget (mkM 1 0 0 0 1 0 0 0 1) i j); [ring|rewrite T2; ring].
Qed.
Lemma image_get : forall h p i, vget (image h p) i = vget h X1 * pmat p X1 i + vget h X2 * pmat p X2 i + vget h X3 * pmat p X3 i.
Proof. intros h p i. unfold image. rewrite zv_get. unfold zrow, pmat. ring. Qed.
(** Right multiplication by a signed rotation, as a function on the list. *)
Definition times (a q : Op * Z) : Op * Z :=
  match find (fun p => forallb (fun i => forallb (fun j => Z.eqb (pmat p i j) (pmat q i X1 * pmat a X1 j + pmat q i X2 * pmat a X2 j + pmat q i X3 * pmat a X3 j)) [X1; X2; X3]) [X1; X2; X3]) (signed red) with
  | Some p => p | None => q end.
Lemma times_ok : forall a q, In a (signed red) -> In q (signed red) -> In (times a q) (signed red) /\
  forall i j, pmat (times a q) i j = pmat q i X1 * pmat a X1 j + pmat q i X2 * pmat a X2 j + pmat q i X3 * pmat a X3 j.
Proof.
  intros a q Ha Hq. unfold times. destruct (find _ (signed red)) as [p|] eqn:F.
  - apply find_some in F as [Hp F]. split; [exact Hp|]. intros i j. rewrite forallb_forall in F. specialize (F i ltac:(destruct i; cbn; auto)).
    rewrite forallb_forall in F. specialize (F j ltac:(destruct j; cbn; auto)). now apply Z.eqb_eq in F.
  - exfalso. destruct (signed_mul q a Hq Ha) as (p & Hp & E). pose proof (find_none _ _ F p Hp) as K. cbv beta in K.
    assert (T : forallb (fun i => forallb (fun j => Z.eqb (pmat p i j) (pmat q i X1 * pmat a X1 j + pmat q i X2 * pmat a X2 j + pmat q i X3 * pmat a X3 j)) [X1; X2; X3]) [X1; X2; X3] = true).
    { apply forallb_forall. intros i _. apply forallb_forall. intros j _. apply Z.eqb_eq. unfold pmat at 1. rewrite E. unfold pmat. ring. }
    congruence.
Qed.
Lemma times_image : forall h a q, In a (signed red) -> In q (signed red) -> image h (times a q) = image (image h q) a.
Proof.
  intros h a q Ha Hq. apply v3_ext. intros i. rewrite !image_get. destruct (times_ok a q Ha Hq) as [_ E]. rewrite !E. ring.
Qed.
Lemma times_inj : forall a q r, In a (signed red) -> In q (signed red) -> In r (signed red) -> times a q = times a r -> q = r.
Proof.
  intros a q r Ha Hq Hr E. apply pmat_inj; try assumption. destruct (signed_inv a Ha) as (b & Hb & I).
  assert (K : forall i j, pmat q i X1 * pmat a X1 j + pmat q i X2 * pmat a X2 j + pmat q i X3 * pmat a X3 j = pmat r i X1 * pmat a X1 j + pmat r i X2 * pmat a X2 j + pmat r i X3 * pmat a X3 j).
  { intros i j. rewrite <- (proj2 (times_ok a q Ha Hq)), <- (proj2 (times_ok a r Ha Hr)), E. reflexivity. }
  assert (W : forall p i j, pmat p i j = (pmat p i X1 * pmat a X1 X1 + pmat p i X2 * pmat a X2 X1 + pmat p i X3 * pmat a X3 X1) * pmat b X1 j
     + (pmat p i X1 * pmat a X1 X2 + pmat p i X2 * pmat a X2 X2 + pmat p i X3 * pmat a X3 X2) * pmat b X2 j
     + (pmat p i X1 * pmat a X1 X3 + pmat p i X2 * pmat a X2 X3 + pmat p i X3 * pmat a X3 X3) * pmat b X3 j).
  { intros p i j. transitivity (pmat p i X1 * mget (mkM 1 0 0 0 1 0 0 0 1) X1 j + pmat p i X2 * mget (mkM 1 0 0 0 1 0 0 0 1) X2 j + pmat p i X3 * mget (mkM 1 0 0 0 1 0 0 0 1) X3 j).
    - destruct j; cbn [mget m_11 m_12 m_13 m_21 m_22 m_23 m_31 m_32 m_33]; ring.
    - rewrite <- !I. ring. }
  intros i j. rewrite (W q), (W r), !K. reflexivity.
Qed.
Lemma fibre_le : forall h p g, In p (signed red) -> image h p = g ->
  (List.length (filter (fun q => hkl_eqb (image h q) h) (signed red)) <= List.length (filter (fun q => hkl_eqb (image h q) g) (signed red)))%nat.
Proof.
  intros h p g Hp E. rewrite <- (map_length (times p)). apply NoDup_incl_length.
  - assert (In_f : forall x, In x (filter (fun q => hkl_eqb (image h q) h) (signed red)) -> In x (signed red)) by (intros x Hx; apply filter_In in Hx; tauto).
    pose proof (NoDup_filter (fun q => hkl_eqb (image h q) h) signed_nodup) as N. revert N In_f. generalize (filter (fun q => hkl_eqb (image h q) h) (signed red)) as l.
    intros l N H. induction N as [|x l Hx N IH]; [constructor|]. cbn [map]. constructor.
    + intros K. apply in_map_iff in K as (y & Ey & Hy). apply times_inj in Ey; [subst y; contradiction|exact Hp|apply H; now right|apply H; now left].
    + apply IH. intros y Hy. apply H. now right.
  - intros x Hx. apply in_map_iff in Hx as (q & <- & Hq). apply filter_In in Hq as [Hq Eq]. apply hkl_eqb_eq in Eq. apply filter_In.
    split; [apply (times_ok p q Hp Hq)|]. apply hkl_eqb_eq. rewrite times_image by assumption. rewrite Eq. exact E.
Qed.
Lemma fibre_ge : forall h p g, In p (signed red) -> image h p = g ->
  (List.length (filter (fun q => hkl_eqb (image h q) g) (signed red)) <= List.length (filter (fun q => hkl_eqb (image h q) h) (signed red)))%nat.
Proof.
  intros h p g Hp E. destruct (signed_inv p Hp) as (b & Hb & I). rewrite <- (map_length (times b)). apply NoDup_incl_length.
  - assert (In_f : forall x, In x (filter (fun q => hkl_eqb (image h q) g) (signed red)) -> In x (signed red)) by (intros x Hx; apply filter_In in Hx; tauto).
    pose proof (NoDup_filter (fun q => hkl_eqb (image h q) g) signed_nodup) as N. revert N In_f. generalize (filter (fun q => hkl_eqb (image h q) g) (signed red)) as l.
    intros l N H. induction N as [|x l Hx N IH]; [constructor|]. cbn [map]. constructor.
    + intros K. apply in_map_iff in K as (y & Ey & Hy). apply times_inj in Ey; [subst y; contradiction|exact Hb|apply H; now right|apply H; now left].
    + apply IH. intros y Hy. apply H. now right.
  - intros x Hx. apply in_map_iff in Hx as (q & <- & Hq). apply filter_In in Hq as [Hq Eq]. apply hkl_eqb_eq in Eq. apply filter_In.
    split; [apply (times_ok b q Hb Hq)|]. apply hkl_eqb_eq. rewrite times_image by assumption. rewrite Eq, <- E.
    apply v3_ext. intros i. rewrite !image_get.
    transitivity (vget h X1 * mget (mkM 1 0 0 0 1 0 0 0 1) X1 i + vget h X2 * mget (mkM 1 0 0 0 1 0 0 0 1) X2 i + vget h X3 * mget (mkM 1 0 0 0 1 0 0 0 1) X3 i).
    + rewrite <- !I. ring.
    + destruct i; cbn [mget vget m_11 m_12 m_13 m_21 m_22 m_23 m_31 m_32 m_33 v_1 v_2 v_3]; ring.
Qed.
Definition fixing (h : V3 Z) : nat := List.length (filter (fun q => hkl_eqb (image h q) h) (signed red)).
Lemma orbit_stabilizer : forall h, (2 * List.length red)%nat = (fixing h * List.length (fst (calc_hkl_equiv red h)))%nat.
Proof.
  intros h. rewrite <- signed_len. unfold fixing. apply (fibres_const (Op * Z) (V3 Z) hkl_eqb hkl_eqb_eq (image h)).
  - apply equiv_nodup.
  - intros x Hx. unfold calc_hkl_equiv. cbn [fst]. rewrite uniq_in, images_map. now apply in_map.
  - intros g Hg. unfold calc_hkl_equiv in Hg. cbn [fst] in Hg. rewrite uniq_in, images_map in Hg. apply in_map_iff in Hg as (p & E & Hp).
    apply Nat.le_antisymm; [apply (fibre_ge h p g Hp E)|apply (fibre_le h p g Hp E)].
Qed.
Lemma red_pos : (0 < List.length red)%nat.
Proof. destruct G as ((e & He & _) & _). destruct red; [destruct He|cbn; lia]. Qed.
Lemma round_exact : forall a b : nat, (0 < b)%nat -> round_half_even (Z.of_nat (a * b) # Pos.of_nat b) = Z.of_nat a.
Proof.
  intros a b B. unfold round_half_even. cbn [Qnum Qden]. rewrite Nat2Z.inj_mul. replace (Z.pos (Pos.of_nat b)) with (Z.of_nat b) by lia.
  rewrite Z.mod_mul, Z.div_mul by lia. destruct (Z.ltb_spec (2 * 0) (Z.of_nat b)); [reflexivity|lia].
Qed.
Theorem multiplicity_fixing : forall h, snd (calc_hkl_equiv red h) = Z.of_nat (fixing h) /\
  snd (calc_hkl_equiv red h) * Z.of_nat (List.length (fst (calc_hkl_equiv red h))) = 2 * Z.of_nat (List.length red).
Proof.
  intros h. pose proof (orbit_stabilizer h) as O. pose proof red_pos as P.
  assert (E : snd (calc_hkl_equiv red h) = Z.of_nat (fixing h)).
  { unfold calc_hkl_equiv at 1. cbn [snd]. rewrite images_map, map_length, signed_len, O. rewrite <- images_map.
    change (fold_right insert_hkl [] (map (hkl_r h) red ++ map z_opp_v (map (hkl_r h) red))) with (fst (calc_hkl_equiv red h)). apply round_exact. nia. }
  split; [exact E|]. rewrite E. lia.
Qed.
Theorem equiv_class : forall h g, equivalent red true h g -> calc_hkl_equiv red g = calc_hkl_equiv red h.
Proof.
  intros h g E. assert (F : fst (calc_hkl_equiv red g) = fst (calc_hkl_equiv red h)).
  { apply sorted_ext; [apply uniq_sorted|apply uniq_sorted|]. intros x. rewrite !equiv_members. split; intros K.
    - eapply eqv_trans; eassumption.
    - eapply eqv_trans; [exact G| |exact K]. apply eqv_sym; assumption. }
  pose proof (proj2 (multiplicity_fixing h)) as A. pose proof (proj2 (multiplicity_fixing g)) as B. rewrite F in B.
  assert (NZ : Z.of_nat (List.length (fst (calc_hkl_equiv red h))) <> 0) by (pose proof red_pos; nia).
  rewrite (surjective_pairing (calc_hkl_equiv red g)), (surjective_pairing (calc_hkl_equiv red h)), F. f_equal. apply (Z.mul_reg_r _ _ _ NZ). congruence.
Qed.
(** The number of signed rotations fixing h, in the terms of the rotations. *)
Lemma fixing_split : forall h, fixing h = (List.length (filter (fun e => hkl_eqb (hkl_r h e) h) red) + List.length (filter (fun e => hkl_eqb (hkl_r h e) (z_opp_v h)) red))%nat.
Proof.
  intros h. unfold fixing, signed. rewrite filter_app, app_length. f_equal.
  - generalize red as l. induction l as [|e l IH]; [reflexivity|]. cbn [map filter]. rewrite image_pos. destruct (hkl_eqb (hkl_r h e) h); cbn [List.length]; rewrite IH; reflexivity.
  - generalize red as l. induction l as [|e l IH]; [reflexivity|]. cbn [map filter]. rewrite image_neg.
    assert (Q : hkl_eqb (z_opp_v (hkl_r h e)) h = hkl_eqb (hkl_r h e) (z_opp_v h)).
    { apply eq_true_iff_eq. rewrite !hkl_eqb_eq. destruct (hkl_r h e) as [a b c], h as [x y z]. unfold z_opp_v. cbn [v_1 v_2 v_3].
      split; intros K; pose proof (f_equal v_1 K) as K1; pose proof (f_equal v_2 K) as K2; pose proof (f_equal v_3 K) as K3; cbn [v_1 v_2 v_3] in K1, K2, K3; apply v3_ext; intros []; cbn [vget v_1 v_2 v_3]; lia. }
    rewrite Q. destruct (hkl_eqb (hkl_r h e) (z_opp_v h)); cbn [List.length]; rewrite IH; reflexivity.
Qed.
End Orbit.

Theorem hkl_equiv_count : forall red h, laue_list red -> let '(l, m) := calc_hkl_equiv red h in
  (m * Z.of_nat (List.length l) = 2 * Z.of_nat (List.length red))%Z /\
  exists plus minus, NoDup plus /\ NoDup minus /\ (forall e, In e plus <-> In e red /\ is_hR h e h) /\
    (forall e, In e minus <-> In e red /\ is_hR h e (mkV (- v_1 h) (- v_2 h) (- v_3 h))%Z) /\ m = Z.of_nat (List.length plus + List.length minus).
Proof.
  intros red h L. pose proof (multiplicity_fixing red L h) as [A B]. destruct (calc_hkl_equiv red h) as [l m] eqn:Q. cbn [fst snd] in *.
  split; [exact B|]. exists (filter (fun e => hkl_eqb (hkl_r h e) h) red), (filter (fun e => hkl_eqb (hkl_r h e) (z_opp_v h)) red).
  split; [apply NoDup_filter, red_nodup, L|]. split; [apply NoDup_filter, red_nodup, L|]. split; [|split].
  - intros e. rewrite filter_In, hkl_eqb_eq. split; intros [He E]; (split; [exact He|]).
    + intros i. rewrite <- E at 1. apply hkl_r_spec.
    + symmetry. now apply is_hR_unique.
  - intros e. rewrite filter_In, hkl_eqb_eq. assert (Z0 : z_opp_v h = mkV (- v_1 h) (- v_2 h) (- v_3 h)).
    { apply v3_ext. intros []; unfold z_opp_v; cbn [vget v_1 v_2 v_3]; ring. }
    rewrite Z0. split; intros [He E]; (split; [exact He|]).
    + intros i. rewrite <- E. apply hkl_r_spec.
    + symmetry. now apply is_hR_unique.
  - rewrite A, (fixing_split red h). reflexivity.
Qed.
