(** The whole map from an asymmetric unit: classes of grid points and sums over them (C102). *)
From Coq Require Import Reals ZArith List Lra Lia Bool Sorted Permutation.
From Verif Require Import Spec.Lin3 Spec.Symm Spec.DensityMap Model.MatrixOps Model.Symmetry Model.DensityMaps Proofs.SymmBaseP Proofs.SymmGridP Proofs.DensMapP Proofs.DensMapP2.
Import ListNotations.
Open Scope list_scope.
Open Scope Z_scope.

(** ** sums over classes, in any commutative monoid *)
Section Mon.
  Context {T B : Type} (op : T -> T -> T) (z : T).
  Hypothesis Comm : forall a b, op a b = op b a.
  Hypothesis Assoc : forall a b c, op a (op b c) = op (op a b) c.
  Hypothesis Zero : forall a, op z a = a.
  Definition msum {X} (f : X -> T) (l : list X) : T := fold_right op z (map f l).
  Lemma msum_perm : forall X (f : X -> T) l m, Permutation l m -> msum f l = msum f m.
  Proof.
    intros X f l m P. unfold msum. induction P; cbn [map fold_right]; [reflexivity|congruence| |congruence].
    rewrite !Assoc. f_equal. apply Comm.
  Qed.
  Lemma msum_single : forall (key : B -> Z) (f : B -> T) ks x, NoDup ks -> In (key x) ks ->
    forall g, (forall a, a <> key x -> g a = z) -> msum g ks = g (key x).
  Proof.
    intros key f ks x ND I g G. induction ks as [|k ks IH]; [contradiction|]. inversion ND as [|? ? NI ND2]; subst. unfold msum. cbn [map fold_right].
    destruct (Z.eq_dec k (key x)) as [->|N].
    - rewrite Comm. replace (fold_right op z (map g ks)) with z; [apply Zero|]. symmetry. clear - NI G Zero.
      induction ks as [|a ks IH]; [reflexivity|]. cbn [map fold_right]. rewrite G, Zero; [apply IH; intros K; apply NI; right; exact K|]. intros ->. apply NI. left. reflexivity.
    - rewrite (G k N), Zero. apply IH; [assumption|]. destruct I as [E|I]; [congruence|exact I].
  Qed.
  Lemma msum_add : forall X (f g : X -> T) l, msum (fun x => op (f x) (g x)) l = op (msum f l) (msum g l).
  Proof.
    intros X f g l. unfold msum. induction l as [|x l IH]; cbn [map fold_right]; [symmetry; apply Zero|]. rewrite IH.
    rewrite <- !Assoc. f_equal. rewrite !Assoc. f_equal. apply Comm.
  Qed.
  Lemma msum_zero : forall X (f : X -> T) l, (forall x, In x l -> f x = z) -> msum f l = z.
  Proof. intros X f l H. unfold msum. induction l as [|x l IH]; [reflexivity|]. cbn [map fold_right]. rewrite H, Zero; [apply IH; intros; apply H; right; assumption|left; reflexivity]. Qed.
  Lemma partition_sum : forall (key : B -> Z) (f : B -> T) ks P, NoDup ks -> (forall q, In q P -> In (key q) ks) ->
    msum f P = msum (fun a => msum f (filter (fun q => Z.eqb a (key q)) P)) ks.
  Proof.
    intros key f ks P ND. induction P as [|x P IH]; intros H.
    - symmetry. apply msum_zero. reflexivity.
    - change (msum f (x :: P)) with (op (f x) (msum f P)). rewrite IH by (intros; apply H; right; assumption).
      set (g := fun a => if Z.eqb a (key x) then f x else z).
      assert (E : forall a, msum f (filter (fun q => Z.eqb a (key q)) (x :: P)) = op (g a) (msum f (filter (fun q => Z.eqb a (key q)) P))).
      { intros a. unfold g. cbn [filter]. destruct (Z.eqb a (key x)); [reflexivity|symmetry; apply Zero]. }
      transitivity (msum (fun a => op (g a) (msum f (filter (fun q => Z.eqb a (key q)) P))) ks).
      + rewrite msum_add. f_equal. rewrite (msum_single key f ks x ND (H x (or_introl eq_refl)) g).
        * unfold g. rewrite Z.eqb_refl. reflexivity.
        * intros a N. unfold g. apply Z.eqb_neq in N. rewrite N. reflexivity.
      + unfold msum at 1. unfold msum at 2. f_equal. apply map_ext. intros a. symmetry. apply E.
  Qed.
End Mon.

Section Asym.
  Variables (n : V3 Z) (l : list Op) (cells : list (V3 Z * nat)).
  Hypothesis Hn : forall i, 0 < vget n i.
  Hypothesis Hg : symmetry_group l.
  Hypothesis Hc : forall e, In e l -> grid_compatible n e.
  Hypothesis HA : calc_asymmetric_unit_cell_indexes n l = Some cells.
  Lemma keys_nodup : forall t : list (V3 Z * nat),
    (forall r r' c c', In (r, c) t -> In (r', c') t -> grid_equivalent n l r r' -> r = r' /\ c = c') -> NoDup (map fst t) ->
    NoDup (map (fun x => min_value n l (fst x)) t).
  Proof.
    induction t as [|[r c] t IH]; intros C D; [constructor|]. cbn [map fst] in *. inversion D as [|? ? NI D2]; subst. constructor.
    - intros K. apply in_map_iff in K. destruct K as ([r' c'] & K & I). cbn [fst] in K. apply NI.
      apply (min_value_iff n l Hn Hg Hc) in K. destruct (C r' r c' c (or_intror I) (or_introl eq_refl) K) as [-> _]. apply in_map_iff. exists (r, c'). auto.
    - apply IH; [|exact D2]. intros r1 r1' c1 c1' I I'. apply C; right; assumption.
  Qed.
  (** everything about the list of representatives *)
  Lemma cells_spec :
    (forall r c, In (r, c) cells -> in_grid n r /\ c = length (filter (fun q => Z.eqb (min_value n l r) (min_value n l q)) (grid_points n))) /\
    (forall p, in_grid n p -> exists r c, In (r, c) cells /\ grid_equivalent n l r p) /\
    NoDup (map (fun x => min_value n l (fst x)) cells).
  Proof.
    destruct (asym_spec n l Hn Hg Hc) as (out & E & A & B & C & D & _). rewrite HA in E. inversion E. subst out. clear E.
    split; [|split; [exact B|]].
    - intros r c I. destruct (A r c I) as (G & cls & ND & Lc & M). split; [exact G|]. rewrite <- Lc. apply Permutation_length.
      apply NoDup_Permutation; [exact ND|apply NoDup_filter, grid_nodup|]. intros q. rewrite M, filter_In, grid_in, Z.eqb_eq.
      rewrite (min_value_iff n l Hn Hg Hc). reflexivity.
    - apply (keys_nodup cells C D).
  Qed.
  (** sums of a function over the grid *)
  Lemma grid_sum : forall (T : Type) (op : T -> T -> T) (z : T), (forall a b, op a b = op b a) -> (forall a b c, op a (op b c) = op (op a b) c) -> (forall a, op z a = a) ->
    forall f : V3 Z -> T, msum op z f (grid_points n) =
      msum op z (fun x => msum op z f (filter (fun q => Z.eqb (min_value n l (fst x)) (min_value n l q)) (grid_points n))) cells.
  Proof.
    intros T op z H1 H2 H3 f. destruct cells_spec as (_ & B & ND).
    rewrite (partition_sum op z H1 H2 H3 (min_value n l) f (map (fun x => min_value n l (fst x)) cells)); [|exact ND|].
    - unfold msum at 1. rewrite map_map. reflexivity.
    - intros q Hq. apply grid_in in Hq. destruct (B q Hq) as (r & c & I & E). apply in_map_iff. exists (r, c). split; [|exact I].
      cbn [fst]. apply (min_value_iff n l Hn Hg Hc), E.
  Qed.
  Lemma cells_unique : forall j k r r' c c' q, nth_error cells j = Some (r, c) -> nth_error cells k = Some (r', c') ->
    grid_equivalent n l r q -> grid_equivalent n l r' q -> j = k.
  Proof.
    intros j k r r' c c' q Ej Ek E1 E2. destruct cells_spec as (_ & _ & ND).
    assert (M : nth_error (map (fun x => min_value n l (fst x)) cells) j = nth_error (map (fun x => min_value n l (fst x)) cells) k).
    { rewrite !nth_error_map, Ej, Ek. cbn [option_map fst]. f_equal. apply (min_value_iff n l Hn Hg Hc).
      eapply (ge_trans n l Hg); [exact E1|]. apply (ge_sym n l Hg), E2. }
    apply (proj1 (NoDup_nth_error _) ND); [|exact M]. rewrite map_length. apply nth_error_Some. congruence.
  Qed.
  Lemma generated_related : forall ops shifts centro p q, generated l ops shifts centro ->
    (related n ops shifts centro p q <-> grid_equivalent n l p q).
  Proof.
    intros ops shifts centro p q (G1 & G2). split.
    - intros (e & s & sign & Ie & Is & Hsg & S). destruct (G2 e s sign Ie Is Hsg) as (g & Ig & K). exists g. split; [exact Ig|].
      eapply sp_trans; [apply K|exact S].
    - intros (g & Ig & S). destruct (G1 g Ig) as (e & s & sign & Ie & Is & Hsg & K). exists e, s, sign. split; [exact Ie|]. split; [exact Is|]. split; [exact Hsg|].
      eapply sp_trans; [apply sp_sym, K|exact S].
  Qed.
  Lemma nth_error_combine : forall (X Y : Type) (a : list X) (b : list Y) k x y, nth_error (combine a b) k = Some (x, y) <-> nth_error a k = Some x /\ nth_error b k = Some y.
  Proof.
    intros X Y a. induction a as [|u a IH]; intros [|v b] [|k] x y; cbn; try (split; [discriminate|intros [E F]; discriminate]).
    - split; [intros E; inversion E; auto|intros [E F]; congruence].
    - apply IH.
  Qed.
  Lemma p1_whole : forall (A : Type) ops shifts centro (dens : list A), (forall e, In e ops -> grid_compatible n e) -> (forall s, In s shifts -> shift_compatible n s) ->
    generated l ops shifts centro -> length dens = length cells ->
    exists out, transform_to_p1 n ops shifts centro (combine (map fst cells) dens) = Some out /\
      StronglySorted lex_lt (map fst out) /\ (forall q, In q (map fst out) <-> in_grid n q) /\
      forall q d, In (q, d) out <-> in_grid n q /\ exists k r c, nth_error cells k = Some (r, c) /\ nth_error dens k = Some d /\ grid_equivalent n l r q.
  Proof.
    intros A ops shifts centro dens Ho Hs Gen Len.
    destruct (p1_accepted n ops shifts centro (combine (map fst cells) dens) Ho Hs) as [out E]. exists out. split; [exact E|].
    destruct (p1_members n ops shifts centro (combine (map fst cells) dens) Hn Ho Hs out E) as [S M].
    assert (M2 : forall q d, In (q, d) out <-> in_grid n q /\ exists k r c, nth_error cells k = Some (r, c) /\ nth_error dens k = Some d /\ grid_equivalent n l r q).
    { intros q d. rewrite M. split; intros (G & H); (split; [exact G|]).
      - destruct H as (i & p & Ei & R & _). apply nth_error_combine in Ei. destruct Ei as [Ei Ed]. rewrite nth_error_map in Ei.
        destruct (nth_error cells i) as [[r c]|] eqn:Ec; [|discriminate Ei]. inversion Ei; subst. exists i, p, c. split; [exact Ec|]. split; [exact Ed|]. apply (generated_related ops shifts centro _ _ Gen), R.
      - destruct H as (k & r & c & Ek & Ed & R). exists k, r. split; [apply nth_error_combine; split; [rewrite nth_error_map, Ek; reflexivity|exact Ed]|].
        split; [apply (generated_related ops shifts centro _ _ Gen), R|].
        intros j [p d'] Hj Ej K. cbn [fst] in K. apply nth_error_combine in Ej. destruct Ej as [Ej _]. rewrite nth_error_map in Ej.
        destruct (nth_error cells j) as [[r' c']|] eqn:Ec; [|discriminate Ej]. inversion Ej; subst.
        apply (generated_related ops shifts centro _ _ Gen) in K. pose proof (cells_unique _ _ _ _ _ _ _ Ec Ek K R). lia. }
    split; [exact S|]. split; [|exact M2]. intros q. split.
    - intros H. apply in_map_iff in H. destruct H as ([q' d] & <- & I). apply M2 in I. apply I.
    - intros G. destruct cells_spec as (_ & B & _). destruct (B q G) as (r & c & I & R). apply In_nth_error in I. destruct I as [k Ek].
      destruct (nth_error dens k) as [d|] eqn:Ed; [|apply nth_error_None in Ed; assert (nth_error cells k <> None) by congruence; apply nth_error_Some in H; lia].
      apply in_map_iff. exists (q, d). split; [reflexivity|]. apply M2. split; [exact G|]. exists k, r, c. auto.
  Qed.
End Asym.
