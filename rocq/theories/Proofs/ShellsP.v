(** Proofs about electron configurations of ions. *)
From Coq Require Import ZArith NArith List Ascii Bool Lia String.
From Verif Require Import Model.Strings Model.Numbers Model.Ions Spec.Text Spec.IonSpec Proofs.IonsP.
From Verif Require Proofs.StringsP.
Import ListNotations.
Open Scope Z_scope.

Lemma py_int_digits : forall ds, number_text ds -> py_int ds = Value (decimal ds).
Proof.
  intros ds [N D]. unfold py_int. rewrite strip_nows by (apply digits_nows, D). destruct ds as [|c r]; [contradiction|]. pose proof D as D'. inversion D'; subst.
  destruct (digit_facts c H1) as [_ [_ [_ [P M]]]]. rewrite P, M, (digits_forallb _ D), (decimal_value _ D). f_equal. lia.
Qed.
Lemma read_ok : forall w o, subshell_text w o -> read_orbital w = Value o.
Proof.
  intros w o H. inversion H; subst. unfold read_orbital. rewrite py_int_digits; [|split; [discriminate|constructor; [assumption|constructor]]]. cbn [bind].
  rewrite py_int_digits by assumption. reflexivity.
Qed.
Lemma print_digit : forall c, is_decimal c = true -> print_Z (decimal [c]) = [c].
Proof. intros c. all_chars c; intros H; try discriminate H; vm_compute; reflexivity. Qed.
Lemma print_num : forall e, 0 <= e -> number_text (print_Z e) /\ decimal (print_Z e) = e.
Proof.
  intros e H. unfold print_Z. destruct (Z.ltb_spec e 0); [lia|]. destruct (Proofs.StringsP.print_N_ok (Z.to_N e)) as [V [D N]].
  assert (F : Forall (fun c => is_decimal c = true) (print_N (Z.to_N e))) by (apply Forall_forall; rewrite forallb_forall in D; exact D).
  split; [split; assumption|]. rewrite <- decimal_value by exact F. rewrite V. lia.
Qed.
Lemma print_ok : forall w n l e0 e, subshell_text w (n, l, e0) -> 0 <= e -> subshell_text (print_orbital n l e) (n, l, e).
Proof.
  intros w n l e0 e H E. inversion H as [c l1 e1 Hc Hl He]; subst. unfold print_orbital. rewrite print_digit by assumption. destruct (print_num e E) as [D V].
  pose proof (Subshell_text c _ (print_Z e) Hc Hl D) as T. rewrite V in T. exact T.
Qed.
Lemma text_nonneg : forall w n l e, subshell_text w (n, l, e) -> 0 <= e.
Proof. intros w n l e H. inversion H as [c l1 e1 Hc Hl He]; subst. destruct He as [_ D]. apply decimal_nonneg. exact D. Qed.
Lemma text_capacity : forall w n l e, subshell_text w (n, l, e) -> exists m, capacity l = Some m /\ max_electrons l = Value m.
Proof.
  intros w n l e H. inversion H; subst. unfold capacity, max_electrons in *.
  repeat match goal with |- context [if ?b then _ else _] => destruct b end; try (eexists; split; reflexivity). contradiction.
Qed.
Lemma capacity_nows : forall l, capacity l <> None -> is_ws l = false.
Proof. intros l. all_chars l; intros H; try reflexivity; exfalso; apply H; reflexivity. Qed.
Lemma text_nows : forall w o, subshell_text w o -> nows w /\ w <> [].
Proof.
  intros w o H. inversion H as [c l e Hc Hl He]; subst. split; [|discriminate]. constructor; [apply (digit_facts c Hc)|]. constructor; [apply capacity_nows; assumption|apply digits_nows, He].
Qed.

(** splitting and joining *)
Lemma split_nows : forall w cur rest, nows w -> split_ws cur (w ++ rest) = split_ws (rev w ++ cur) rest.
Proof.
  induction w as [|c w IH]; intros cur rest H; [reflexivity|]. inversion H; subst. cbn [app split_ws rev]. rewrite H2, IH by assumption. rewrite <- app_assoc. reflexivity.
Qed.
Lemma split_end : forall w, w <> [] -> nows w -> split_ws [] w = [w].
Proof.
  intros w N H. rewrite <- (app_nil_r w) at 1. rewrite split_nows by exact H. cbn [split_ws]. rewrite app_nil_r. destruct (rev w) eqn:E.
  - apply (f_equal (@rev ascii)) in E. rewrite rev_involutive in E. contradiction.
  - rewrite <- E, rev_involutive. reflexivity.
Qed.
Lemma split_more : forall w t, w <> [] -> nows w -> split_ws [] (w ++ " "%char :: t) = w :: split_ws [] t.
Proof.
  intros w t N H. rewrite split_nows by exact H. rewrite app_nil_r. cbn [split_ws]. rewrite blank_ws. destruct (rev w) eqn:E.
  - apply (f_equal (@rev ascii)) in E. rewrite rev_involutive in E. contradiction.
  - rewrite <- E, rev_involutive. reflexivity.
Qed.
Lemma split_spells : forall t L, spells t L -> Forall2 subshell_text (split_ws [] t) L.
Proof.
  induction 1.
  - constructor.
  - cbn [split_ws]. rewrite blank_ws. exact IHspells.
  - destruct (text_nows w o H). rewrite split_end by assumption. constructor; [assumption|constructor].
  - destruct (text_nows w o H). rewrite split_more by assumption. constructor; assumption.
Qed.
Lemma join_spells : forall ws L, Forall2 subshell_text ws L -> spells (join c_space ws) L.
Proof.
  induction 1; [constructor|]. destruct l as [|w r].
  - inversion H0; subst. constructor. exact H.
  - change (join c_space (x :: w :: r)) with (x ++ " "%char :: join c_space (w :: r)). constructor; assumption.
Qed.
Lemma split_trail : forall s cur c, is_ws c = true -> split_ws cur (s ++ [c]) = split_ws cur s.
Proof.
  induction s as [|d s IH]; intros cur c H.
  - cbn. rewrite H. destruct cur; reflexivity.
  - cbn [app split_ws]. destruct (is_ws d); [destruct cur; rewrite ?IH by exact H; reflexivity|apply IH; exact H].
Qed.
Lemma split_rstrip : forall s, split_ws [] (rstrip_by is_ws s) = split_ws [] s.
Proof.
  intros s. unfold rstrip_by. rewrite <- (rev_involutive s) at 2. induction (rev s) as [|c r IH]; [reflexivity|]. cbn [lstrip_by rev]. destruct (is_ws c) eqn:E.
  - rewrite split_trail by exact E. exact IH.
  - reflexivity.
Qed.
Lemma split_strip : forall s, split_ws [] (strip s) = split_ws [] s.
Proof.
  intros s. unfold strip. rewrite split_rstrip. induction s as [|c s IH]; [reflexivity|]. cbn [lstrip_by split_ws]. destruct (is_ws c) eqn:E; [exact IH|].
  cbn [split_ws]. rewrite E. reflexivity.
Qed.
Lemma spells_app : forall s L, spells s L -> forall t M, spells t M -> spells (s ++ " "%char :: t) (L ++ M).
Proof.
  induction 1; intros u M Hu.
  - constructor. exact Hu.
  - cbn [app]. constructor. apply IHspells. exact Hu.
  - cbn [app]. constructor; assumption.
  - rewrite <- app_assoc. cbn [app]. constructor; [assumption|]. apply IHspells. exact Hu.
Qed.

(** removing *)
Fixpoint drain (q : Z) (L : list subshell) : list subshell :=
  match L with [] => [] | (n, l, e) :: r => if q <? e then (n, l, e - q) :: drain 0 r else drain (q - e) r end.
Fixpoint over (q : Z) (L : list subshell) : Z := match L with [] => q | (n, l, e) :: r => if q <? e then over 0 r else over (q - e) r end.
Lemma remove_loop : forall ws L q acc accL, Forall2 subshell_text ws L -> Forall2 subshell_text acc accL -> 0 <= q ->
  exists ws', remove_electrons q acc ws = Value (over q L, ws') /\ Forall2 subshell_text ws' (accL ++ drain q L).
Proof.
  induction ws as [|w ws IH]; intros L q acc accL H A Q; inversion H; subst.
  - exists acc. split; [reflexivity|]. cbn. rewrite app_nil_r. exact A.
  - destruct y as [[n l] e]. cbn [remove_electrons]. rewrite (read_ok _ _ H2). cbn [bind drain over]. destruct (Z.ltb_spec q e).
    + destruct (IH l' 0 (acc ++ [print_orbital n l (e - q)]) (accL ++ [(n, l, e - q)]) H4) as [ws' [E F]]; [apply Forall2_app; [exact A|constructor; [eapply print_ok; [eassumption|lia]|constructor]]|lia|].
      exists ws'. split; [exact E|]. rewrite <- app_assoc in F. exact F.
    + destruct (Z.leb_spec e q); [|lia]. apply IH; [assumption|assumption|lia].
Qed.
Lemma drain_zero : forall L, Forall occupied L -> drain 0 L = L /\ over 0 L = 0.
Proof.
  induction L as [|[[n l] e] L IH]; intros H; [split; reflexivity|]. inversion H; subst. destruct H2 as [P _]. cbn [drain over]. destruct (Z.ltb_spec 0 e); [|lia].
  destruct (IH H3) as [A B]. rewrite A, B, Z.sub_0_r. split; reflexivity.
Qed.
Lemma electrons_app : forall L M, electrons (L ++ M) = electrons L + electrons M.
Proof. induction L as [|[[n l] e] L IH]; intros M; cbn [app electrons]; [lia|rewrite IH; lia]. Qed.
Lemma electrons_rev : forall L, electrons (rev L) = electrons L.
Proof. induction L as [|[[n l] e] L IH]; [reflexivity|]. cbn [rev electrons]. rewrite electrons_app, IH. cbn. lia. Qed.
Lemma occupied_nonneg : forall L, Forall occupied L -> 0 <= electrons L.
Proof. induction L as [|[[n l] e] L IH]; intros H; [cbn; lia|]. inversion H; subst. destruct H2. cbn. specialize (IH H3). lia. Qed.
Lemma drain_split : forall B n l e A q, Forall occupied (B ++ (n, l, e) :: A) -> electrons B <= q < electrons B + e ->
  drain q (B ++ (n, l, e) :: A) = (n, l, e - (q - electrons B)) :: A /\ over q (B ++ (n, l, e) :: A) = 0.
Proof.
  induction B as [|[[n' l'] e'] B IH]; intros n l e A q H Q.
  - cbn [app electrons drain over] in *. destruct (Z.ltb_spec q e); [|lia]. inversion H; subst. destruct (drain_zero A H4) as [X Y]. rewrite X, Y. split; [f_equal; f_equal; lia|reflexivity].
  - cbn [app electrons drain over] in *. inversion H; subst. pose proof (proj1 (Forall_app _ _ _) H3) as [HB _]. pose proof (occupied_nonneg B HB). destruct (Z.ltb_spec q e'); [lia|].
    destruct (IH n l e A (q - e') H3) as [X Y]; [lia|]. rewrite X, Y. split; [f_equal; f_equal; lia|reflexivity].
Qed.
Lemma drain_all : forall L q, Forall occupied L -> electrons L <= q -> drain q L = [] /\ over q L = q - electrons L.
Proof.
  induction L as [|[[n l] e] L IH]; intros q H Q; [cbn; split; [reflexivity|lia]|]. cbn [electrons drain over] in *. inversion H; subst. pose proof (occupied_nonneg L H3).
  destruct (Z.ltb_spec q e); [lia|]. destruct (IH (q - e) H3) as [X Y]; [lia|]. rewrite X, Y. split; [reflexivity|lia].
Qed.
Lemma find_split : forall L q, Forall occupied L -> 0 <= q < electrons L -> exists B n l e A, L = B ++ (n, l, e) :: A /\ electrons B <= q < electrons B + e.
Proof.
  induction L as [|[[n l] e] L IH]; intros q H Q; [cbn in Q; lia|]. inversion H; subst. cbn [electrons] in Q. destruct (Z.lt_ge_cases q e) as [E|E].
  - exists [], n, l, e, L. cbn. split; [reflexivity|lia].
  - destruct (IH (q - e) H3) as (B & n' & l' & e' & A & X & Y); [lia|]. exists ((n, l, e) :: B), n', l', e', A. rewrite X. cbn. split; [reflexivity|lia].
Qed.
Lemma forall2_rev : forall (ws : list str) (L : list subshell), Forall2 subshell_text ws L -> Forall2 subshell_text (rev ws) (rev L).
Proof. induction 1; [constructor|]. cbn. apply Forall2_app; [assumption|constructor; [assumption|constructor]]. Qed.
Lemma add_positive : forall t L q, spells t L -> 0 < q ->
  exists t', add_ion_charge_to_shell t q = (if over q (rev L) =? 0 then Value t' else Raises UserWarning) /\ spells t' (rev (drain q (rev L))).
Proof.
  intros t L q H Q. pose proof (forall2_rev _ _ (split_spells t L H)) as F. destruct (remove_loop _ _ q [] [] F (Forall2_nil _)) as [ws' [E G]]; [lia|].
  exists (join c_space (rev ws')). split.
  - unfold add_ion_charge_to_shell. destruct (Z.eqb_spec q 0); [lia|]. destruct (Z.ltb_spec 0 q); [|lia]. rewrite split_strip.
    assert (E' : remove_electrons q [] (rev (split_ws [] t)) = Value (over q (rev L), ws')) by exact E. rewrite E'. reflexivity.
  - apply join_spells, forall2_rev. exact G.
Qed.
Lemma cation : forall t A n l e B q, spells t (A ++ (n, l, e) :: B) -> Forall occupied (A ++ (n, l, e) :: B) -> 0 < q -> electrons B <= q < electrons B + e ->
  exists t', add_ion_charge_to_shell t q = Value t' /\ spells t' (A ++ [(n, l, e - (q - electrons B))]).
Proof.
  intros t A n l e B q H O Q R. destruct (add_positive t _ q H Q) as [t' [E S]]. rewrite rev_app_distr in E, S. cbn [rev] in E, S. rewrite <- app_assoc in E, S. cbn [app] in E, S.
  assert (O' : Forall occupied (rev B ++ (n, l, e) :: rev A)) by (apply Forall_rev in O; rewrite rev_app_distr in O; cbn [rev] in O; rewrite <- app_assoc in O; exact O).
  destruct (drain_split (rev B) n l e (rev A) q O') as [X Y]; [rewrite electrons_rev; exact R|]. rewrite Y in E. rewrite X in S. exists t'. split; [exact E|].
  cbn [rev] in S. rewrite rev_involutive, electrons_rev in S. exact S.
Qed.
Lemma cation_all : forall t L, spells t L -> Forall occupied L -> 0 < electrons L -> exists t', add_ion_charge_to_shell t (electrons L) = Value t' /\ spells t' [].
Proof.
  intros t L H O Q. destruct (add_positive t _ _ H Q) as [t' [E S]]. destruct (drain_all (rev L) (electrons L)) as [X Y]; [apply Forall_rev, O|rewrite electrons_rev; lia|].
  rewrite electrons_rev, Z.sub_diag in Y. rewrite Y in E. rewrite X in S. exists t'. split; assumption.
Qed.
Lemma cation_too_many : forall t L q, spells t L -> Forall occupied L -> electrons L < q -> add_ion_charge_to_shell t q = Raises UserWarning.
Proof.
  intros t L q H O Q. pose proof (occupied_nonneg L O). destruct (add_positive t _ q H) as [t' [E S]]; [lia|]. destruct (drain_all (rev L) q) as [X Y]; [apply Forall_rev, O|rewrite electrons_rev; lia|].
  rewrite electrons_rev in Y. rewrite Y in E. destruct (Z.eqb_spec (q - electrons L) 0); [lia|exact E].
Qed.

(** adding *)
Fixpoint pour (k : Z) (L : list subshell) : list subshell :=
  match L with
  | [] => []
  | (n, l, e) :: r => let m := room_of (n, l, e) in
                      if 0 <? m then (if k <=? m then (n, l, e + k) :: pour 0 r else (n, l, e + m) :: pour (k - m) r) else (n, l, e) :: pour k r
  end.
Fixpoint spill (k : Z) (L : list subshell) : Z :=
  match L with
  | [] => k
  | o :: r => let m := room_of o in if 0 <? m then (if k <=? m then spill 0 r else spill (k - m) r) else spill k r
  end.
Lemma add_loop : forall ws L k acc accL, Forall2 subshell_text ws L -> Forall2 subshell_text acc accL -> 0 <= k ->
  exists ws', add_electrons (- k) acc ws = Value (- spill k L, ws') /\ Forall2 subshell_text ws' (accL ++ pour k L).
Proof.
  induction ws as [|w ws IH]; intros L k acc accL H A Q; inversion H; subst.
  - exists acc. split; [reflexivity|]. cbn. rewrite app_nil_r. exact A.
  - destruct y as [[n l] e]. cbn [add_electrons]. rewrite (read_ok _ _ H2). cbn [bind pour spill]. destruct (text_capacity _ _ _ _ H2) as [m [C M]]. rewrite M. cbn [bind].
    pose proof (text_nonneg _ _ _ _ H2) as P. assert (R : room_of (n, l, e) = m - e) by (cbn; rewrite C; reflexivity). rewrite R. destruct (Z.ltb_spec 0 (m - e)).
    + rewrite Z.abs_opp, Z.abs_eq by lia. destruct (Z.leb_spec k (m - e)).
      * destruct (IH l' 0 (acc ++ [print_orbital n l (e - - k)]) (accL ++ [(n, l, e + k)]) H4) as [ws' [E F]]; [apply Forall2_app; [exact A|constructor; [replace (e - - k) with (e + k) by lia; eapply print_ok; [eassumption|lia]|constructor]]|lia|].
        exists ws'. split; [exact E|]. rewrite <- app_assoc in F. exact F.
      * destruct (IH l' (k - (m - e)) (acc ++ [print_orbital n l m]) (accL ++ [(n, l, e + (m - e))]) H4) as [ws' [E F]]; [apply Forall2_app; [exact A|constructor; [replace (e + (m - e)) with m by lia; eapply print_ok; [eassumption|lia]|constructor]]|lia|].
        exists ws'. replace (- k + (m - e)) with (- (k - (m - e))) by lia. split; [exact E|]. rewrite <- app_assoc in F. exact F.
    + destruct (IH l' k (acc ++ [w]) (accL ++ [(n, l, e)]) H4) as [ws' [E F]]; [apply Forall2_app; [exact A|constructor; [assumption|constructor]]|lia|].
      exists ws'. split; [exact E|]. rewrite <- app_assoc in F. exact F.
Qed.
Lemma room_nonneg : forall o, occupied o -> 0 <= room_of o.
Proof. intros [[n l] e] [P [m [C M]]]. cbn. rewrite C. lia. Qed.
Lemma rooms_nonneg : forall L, Forall occupied L -> 0 <= room L.
Proof. induction L as [|o L IH]; intros H; [cbn; lia|]. inversion H; subst. pose proof (room_nonneg o H2). specialize (IH H3). cbn [room]. lia. Qed.
Lemma pour_zero : forall L, Forall occupied L -> pour 0 L = L /\ spill 0 L = 0.
Proof.
  induction L as [|[[n l] e] L IH]; intros H; [split; reflexivity|]. inversion H; subst. destruct (IH H3) as [A B]. cbn [pour spill]. cbv zeta.
  destruct (Z.ltb_spec 0 (room_of (n, l, e))); [destruct (Z.leb_spec 0 (room_of (n, l, e))); [|lia]|]; rewrite A, B, ?Z.add_0_r; split; reflexivity.
Qed.
Lemma pour_split : forall A n l e B k, Forall occupied (A ++ (n, l, e) :: B) -> room A < k <= room A + room_of (n, l, e) ->
  pour k (A ++ (n, l, e) :: B) = map filled A ++ (n, l, e + (k - room A)) :: B /\ spill k (A ++ (n, l, e) :: B) = 0.
Proof.
  induction A as [|[[n' l'] e'] A IH]; intros n l e B k H Q.
  - cbn [app room map] in *. cbn [pour spill]. cbv zeta. destruct (Z.ltb_spec 0 (room_of (n, l, e))); [|lia]. destruct (Z.leb_spec k (room_of (n, l, e))); [|lia].
    inversion H; subst. destruct (pour_zero B H5) as [X Y]. rewrite X, Y. split; [f_equal; f_equal; lia|reflexivity].
  - cbn [app map]. cbn [app] in H. inversion H; subst. pose proof (proj1 (Forall_app _ _ _) H3) as [HA _]. pose proof (rooms_nonneg A HA). pose proof (room_nonneg _ H2).
    change (room ((n', l', e') :: A)) with (room_of (n', l', e') + room A) in *. cbn [pour spill]. cbv zeta.
    set (m := room_of (n', l', e')) in *. destruct (Z.ltb_spec 0 m).
    + destruct (Z.leb_spec k m); [lia|]. destruct (IH n l e B (k - m) H3) as [X Y]; [lia|]. rewrite X, Y. split; [|reflexivity]. replace (e + (k - m - room A)) with (e + (k - (m + room A))) by lia. reflexivity.
    + assert (m = 0) by lia. destruct (IH n l e B k H3) as [X Y]; [lia|]. rewrite X, Y. split; [|reflexivity]. replace (filled (n', l', e')) with (n', l', e') by (unfold filled; fold m; f_equal; lia). replace (e + (k - (m + room A))) with (e + (k - room A)) by lia. reflexivity.
Qed.
Lemma spill_over : forall L k, Forall occupied L -> room L < k -> spill k L = k - room L.
Proof.
  induction L as [|o L IH]; intros k H Q; [cbn; lia|]. inversion H; subst. pose proof (rooms_nonneg L H3). pose proof (room_nonneg o H2). cbn [room spill] in *. cbv zeta.
  destruct (Z.ltb_spec 0 (room_of o)); [destruct (Z.leb_spec k (room_of o)); [lia|]|]; rewrite IH; try assumption; lia.
Qed.
Lemma find_room : forall L k, Forall occupied L -> 0 < k <= room L -> exists A n l e B, L = A ++ (n, l, e) :: B /\ room A < k <= room A + room_of (n, l, e).
Proof.
  induction L as [|[[n l] e] L IH]; intros k H Q; [cbn in Q; lia|]. inversion H; subst. cbn [room] in Q. destruct (Z.le_gt_cases k (room_of (n, l, e))) as [E|E].
  - exists [], n, l, e, L. split; [reflexivity|]. change (room []) with 0. lia.
  - destruct (IH (k - room_of (n, l, e)) H3) as (A & n' & l' & e' & B & X & Y); [lia|]. exists ((n, l, e) :: A), n', l', e', B. rewrite X. split; [reflexivity|].
    cbn [room]. lia.
Qed.
Lemma add_negative : forall t L k, spells t L -> 0 < k ->
  exists t', add_ion_charge_to_shell t (- k) = (if - spill k L =? 0 then Value t' else Raises UserWarning) /\ spells t' (pour k L).
Proof.
  intros t L k H Q. destruct (add_loop _ _ k [] [] (split_spells t L H) (Forall2_nil _)) as [ws' [E G]]; [lia|].
  exists (join c_space ws'). split.
  - unfold add_ion_charge_to_shell. destruct (Z.eqb_spec (- k) 0); [lia|]. destruct (Z.ltb_spec 0 (- k)); [lia|]. rewrite split_strip.
    assert (E' : add_electrons (- k) [] (split_ws [] t) = Value (- spill k L, ws')) by exact E. rewrite E'. reflexivity.
  - apply join_spells. exact G.
Qed.
Lemma anion : forall t A n l e B k, spells t (A ++ (n, l, e) :: B) -> Forall occupied (A ++ (n, l, e) :: B) -> room A < k <= room A + room_of (n, l, e) ->
  exists t', add_ion_charge_to_shell t (- k) = Value t' /\ spells t' (map filled A ++ (n, l, e + (k - room A)) :: B).
Proof.
  intros t A n l e B k H O R. pose proof (proj1 (Forall_app _ _ _) O) as [HA _]. pose proof (rooms_nonneg A HA). destruct (add_negative t _ k H) as [t' [E S]]; [lia|].
  destruct (pour_split A n l e B k O R) as [X Y]. rewrite Y in E. rewrite X in S. exists t'. split; assumption.
Qed.
Lemma anion_too_many : forall t L k, spells t L -> Forall occupied L -> room L < k -> add_ion_charge_to_shell t (- k) = Raises UserWarning.
Proof.
  intros t L k H O Q. pose proof (rooms_nonneg L O). destruct (add_negative t _ k H) as [t' [E S]]; [lia|]. rewrite (spill_over L k O Q) in E.
  destruct (Z.eqb_spec (- (k - room L)) 0); [lia|exact E].
Qed.
Lemma filled_electrons : forall A, electrons (map filled A) = electrons A + room A.
Proof. induction A as [|[[n l] e] A IH]; [reflexivity|]. cbn [map electrons room filled]. rewrite IH. lia. Qed.
Lemma filled_occupied : forall o, occupied o -> occupied (filled o).
Proof. intros [[n l] e] [P [m [C M]]]. unfold filled, room_of. rewrite C. split; [lia|]. exists m. split; [exact C|lia]. Qed.
Lemma neutral : forall t, add_ion_charge_to_shell t 0 = Value t.
Proof. reflexivity. Qed.

(** every charge *)
Lemma any_charge : forall t L, spells t L -> Forall occupied L -> forall q,
  (- room L <= q <= electrons L -> exists t' L', add_ion_charge_to_shell t q = Value t' /\ spells t' L' /\ electrons L' = electrons L - q /\ Forall occupied L') /\
  (q < - room L \/ electrons L < q -> add_ion_charge_to_shell t q = Raises UserWarning).
Proof.
  intros t L H O q. split.
  - intros R. destruct (Z.lt_trichotomy q 0) as [Q|[Q|Q]].
    + destruct (find_room L (- q) O) as (A & n & l & e & B & E & F); [lia|]. subst L. destruct (anion t A n l e B (- q) H O F) as [t' [X Y]]. rewrite Z.opp_involutive in X.
      exists t', (map filled A ++ (n, l, e + (- q - room A)) :: B). split; [exact X|]. split; [exact Y|].
      split; [rewrite !electrons_app, filled_electrons; cbn [electrons]; lia|]. pose proof (proj1 (Forall_app _ _ _) O) as [HA HB]. inversion HB; subst. apply Forall_app. split.
      * apply Forall_forall. intros o I. apply in_map_iff in I. destruct I as [x [<- I]]. apply filled_occupied. rewrite Forall_forall in HA. apply HA, I.
      * constructor; [|assumption]. destruct H2 as [P [m [C M]]]. cbn in F. rewrite C in F. split; [lia|]. exists m. split; [exact C|lia].
    + subst q. exists t, L. split; [reflexivity|]. split; [exact H|]. split; [lia|exact O].
    + destruct (Z.eq_dec q (electrons L)) as [E|E].
      * subst q. destruct (cation_all t L H O Q) as [t' [X Y]]. exists t', []. split; [exact X|]. split; [exact Y|]. split; [cbn; lia|constructor].
      * destruct (find_split (rev L) q) as (B & n & l & e & A & F & G); [apply Forall_rev, O|rewrite electrons_rev; lia|].
        assert (E' : L = rev A ++ (n, l, e) :: rev B) by (rewrite <- (rev_involutive L), F, rev_app_distr; cbn [rev]; rewrite <- app_assoc; reflexivity). clear F. subst L.
        destruct (cation t (rev A) n l e (rev B) q H O Q) as [t' [X Y]]; [rewrite electrons_rev; exact G|]. exists t', (rev A ++ [(n, l, e - (q - electrons (rev B)))]).
        split; [exact X|]. split; [exact Y|]. split; [rewrite !electrons_app; cbn [electrons]; lia|]. pose proof (proj1 (Forall_app _ _ _) O) as [HA HB]. inversion HB; subst. apply Forall_app. split; [exact HA|].
        constructor; [|constructor]. destruct H2 as [P [m [C M]]]. rewrite electrons_rev. split; [lia|]. exists m. split; [exact C|lia].
  - intros [Q|Q]; [|apply (cation_too_many t L q H O Q)]. rewrite <- (Z.opp_involutive q). apply (anion_too_many t L (- q) H O). lia.
Qed.

(** counting *)
Lemma count_ok : forall ws L, Forall2 subshell_text ws L -> count_electrons ws = Value (electrons L).
Proof. induction 1; [reflexivity|]. destruct y as [[nn ll] ee]. cbn [count_electrons]. rewrite (read_ok _ _ H). cbn [bind]. rewrite IHForall2. reflexivity. Qed.
Lemma counted : forall t L, spells t L -> n_total_el t = Value (electrons L).
Proof. intros t L H. apply count_ok, split_spells, H. Qed.

(** the table *)
Definition word_text (w : str) : option subshell :=
  match w with
  | c :: l :: e => if (is_decimal c && match capacity l with Some _ => true | None => false end && match e with [] => false | _ => true end && forallb is_decimal e)%bool
                   then Some (decimal [c], l, decimal e) else None
  | _ => None
  end.
Lemma word_ok : forall w o, word_text w = Some o -> subshell_text w o.
Proof.
  intros [|c [|l e]] o H; try discriminate H. cbn [word_text] in H. destruct (is_decimal c && match capacity l with Some _ => true | None => false end && match e with [] => false | _ => true end && forallb is_decimal e)%bool eqn:E; [|discriminate H].
  injection H as <-. apply andb_true_iff in E. destruct E as [E D]. apply andb_true_iff in E. destruct E as [E N]. apply andb_true_iff in E. destruct E as [A B].
  constructor; [exact A|destruct (capacity l); [discriminate|discriminate B]|]. split; [destruct e; [discriminate N|discriminate]|]. apply Forall_forall. rewrite forallb_forall in D. exact D.
Qed.
Fixpoint words_text (ws : list str) : option (list subshell) :=
  match ws with [] => Some [] | w :: r => match word_text w, words_text r with Some o, Some L => Some (o :: L) | _, _ => None end end.
Lemma words_ok : forall ws L, words_text ws = Some L -> Forall2 subshell_text ws L.
Proof.
  induction ws as [|w ws IH]; intros L H; cbn [words_text] in H; [injection H as <-; constructor|]. destruct (word_text w) as [o|] eqn:E; [|discriminate H]. destruct (words_text ws) as [M|]; [|discriminate H].
  injection H as <-. constructor; [apply word_ok, E|apply IH; reflexivity].
Qed.
Definition eq_text (a b : str) : bool := if list_eq_dec ascii_dec a b then true else false.
Definition config (t : str) : option (list subshell) := let ws := split_ws [] t in if eq_text (join c_space ws) t then words_text ws else None.
Lemma config_ok : forall t L, config t = Some L -> spells t L.
Proof.
  intros t L H. unfold config in H. cbv zeta in H. unfold eq_text in H. destruct (list_eq_dec ascii_dec (join c_space (split_ws [] t)) t) as [E|]; [|discriminate H]. rewrite <- E. apply join_spells, words_ok. exact H.
Qed.
Definition occupiedb (o : subshell) : bool := let '(n, l, e) := o in ((0 <? e) && match capacity l with Some m => e <=? m | None => false end)%bool.
Lemma occupiedb_ok : forall L, forallb occupiedb L = true -> Forall occupied L.
Proof.
  intros L H. apply Forall_forall. rewrite forallb_forall in H. intros [[n l] e] I. specialize (H _ I). cbn in H. apply andb_true_iff in H. destruct H as [A B]. apply Z.ltb_lt in A.
  split; [exact A|]. destruct (capacity l) as [m|]; [|discriminate B]. exists m. split; [reflexivity|]. apply Z.leb_le, B.
Qed.
Definition valence_ok (t : str) (v : Z) : bool := match config t with Some L => ((electrons L =? v) && forallb occupiedb L)%bool | None => false end.
Lemma valence_sound : forall t v, valence_ok t v = true -> exists L, spells t L /\ electrons L = v /\ Forall occupied L.
Proof.
  intros t v H. unfold valence_ok in H. destruct (config t) as [L|] eqn:E; [|discriminate H]. apply andb_true_iff in H. destruct H as [A B]. apply Z.eqb_eq in A.
  exists L. split; [apply config_ok, E|]. split; [exact A|apply occupiedb_ok, B].
Qed.
Definition element_ok (z : Z) (name : str) : bool :=
  match occupancy name with
  | Value s => match split_on "]" [] s with
               | [whole] => ((core z =? 0) && valence_ok (strip whole) z)%bool
               | c :: e :: _ => match full_shell 117 (skipn 1 c) 0 with
                                | Value st => (valence_ok st (core z) && valence_ok (strip e) (z - core z))%bool
                                | _ => false end
               | _ => false end
  | _ => false end.
Lemma full_step : forall f name q, full_shell (S f) name q = bind (occupancy name) (fun core_sh =>
      match split_on "]" [] core_sh with
      | [] => Raises IndexError
      | [whole] => add_ion_charge_to_shell (strip whole) q
      | core :: shell_end :: _ =>
        bind (full_shell f (skipn 1 core) 0) (fun shell_start_full =>
        bind (add_ion_charge_to_shell (strip shell_end) q) (fun e => Value (shell_start_full ++ c_space :: e)))
      end).
Proof. reflexivity. Qed.
Lemma element_sound : forall z name, element_ok z name = true -> exists r, 0 <= r /\ forall q,
  (- r <= q <= z - core z -> exists t L, get_full_shell name q = Value t /\ spells t L /\ electrons L = z - q /\ Forall occupied L) /\
  (q < - r \/ z - core z < q -> get_full_shell name q = Raises UserWarning).
Proof.
  intros z name H. unfold get_full_shell. change 118%nat with (S 117). setoid_rewrite full_step. unfold element_ok in H. destruct (occupancy name) as [s|]; [|discriminate H]. cbn [bind].
  destruct (split_on "]" [] s) as [|c [|e r]]; [discriminate H| |].
  - apply andb_true_iff in H. destruct H as [C H]. apply Z.eqb_eq in C. destruct (valence_sound _ _ H) as [L [S [E O]]]. exists (room L). split; [apply rooms_nonneg, O|].
    intros q. rewrite C, Z.sub_0_r, <- E. destruct (any_charge _ L S O q) as [A B]. split; [exact A|exact B].
  - destruct (full_shell 117 (skipn 1 c) 0) as [st|]; [|discriminate H]. apply andb_true_iff in H. destruct H as [H1 H2]. destruct (valence_sound _ _ H1) as [L0 [S0 [E0 O0]]].
    destruct (valence_sound _ _ H2) as [L [S [E O]]]. exists (room L). split; [apply rooms_nonneg, O|]. intros q. cbn [bind]. rewrite <- E. destruct (any_charge _ L S O q) as [A B]. split.
    + intros R. destruct (A R) as (t' & L' & X & Y & Z' & W). rewrite X. cbn [bind]. exists (st ++ c_space :: t'), (L0 ++ L'). split; [reflexivity|]. split; [apply spells_app; assumption|].
      split; [rewrite electrons_app; lia|apply Forall_app; split; assumption].
    + intros R. rewrite (B R). reflexivity.
Qed.
Definition table_ok : bool :=
  forallb (fun x => element_ok (fst x) (list_ascii_of_string (snd x))) (combine (map Z.of_nat (seq 1 117)) (firstn 117 periodic_table)).
Lemma table_true : table_ok = true.
Proof. vm_compute. reflexivity. Qed.
Lemma nth_combine : forall (A B : Type) (l : list A) (m : list B) i a b, nth_error l i = Some a -> nth_error m i = Some b -> In (a, b) (combine l m).
Proof.
  induction l as [|x l IH]; intros m i a b H1 H2; [destruct i; discriminate H1|]. destruct m as [|y m]; [destruct i; discriminate H2|]. destruct i as [|i].
  - injection H1 as <-. injection H2 as <-. left. reflexivity.
  - right. apply (IH m i); assumption.
Qed.
Lemma nth_firstn : forall (A : Type) (l : list A) n i, (i < n)%nat -> nth_error (firstn n l) i = nth_error l i.
Proof. induction l as [|x l IH]; intros n i H; destruct n, i; try reflexivity; try lia. cbn. apply IH. lia. Qed.
Lemma elements : forall z name, element z name -> z < 118 -> exists r, 0 <= r /\ forall q,
  (- r <= q <= z - core z -> exists t L, get_full_shell (list_ascii_of_string name) q = Value t /\ spells t L /\ electrons L = z - q /\ Forall occupied L) /\
  (q < - r \/ z - core z < q -> get_full_shell (list_ascii_of_string name) q = Raises UserWarning).
Proof.
  intros z name [P N] B. apply element_sound. pose proof table_true as T. unfold table_ok in T. rewrite forallb_forall in T.
  refine (T (z, name) _). apply (nth_combine _ _ _ _ (Z.to_nat (z - 1))).
  - assert (L : (Z.to_nat (z - 1) < 117)%nat) by lia. rewrite (map_nth_error Z.of_nat (Z.to_nat (z - 1)) (seq 1 117) (d := S (Z.to_nat (z - 1)))); [f_equal; lia|].
    rewrite (nth_error_nth' (seq 1 117) 0%nat) by (rewrite seq_length; exact L). rewrite seq_nth by exact L. reflexivity.
  - rewrite nth_firstn by lia. exact N.
Qed.
(** an ion symbol *)
Lemma ion_shell : forall z name nm w1 w2 num c q, element z name -> z < 118 -> name_text nm -> titled nm = list_ascii_of_string name -> blank_text w1 -> blank_text w2 ->
  number_text num -> signed c (decimal num) q -> 0 <= q <= z - core z ->
  exists t L, get_atom_name_ion_charge_shell (w1 ++ (nm ++ num ++ [c]) ++ w2) = Value (list_ascii_of_string name, q, t) /\ spells t L /\ n_total_el t = Value (z - q) /\ electrons L = z - q.
Proof.
  intros z name nm w1 w2 num c q E B N T W1 W2 D S Q. destruct (elements z name E B) as [r [R H]]. destruct (H q) as [A _]. destruct A as (t & L & X & Y & Z' & O); [lia|].
  exists t, L. unfold get_atom_name_ion_charge_shell. rewrite (charged_ion w1 nm num c q w2 W1 W2 N D S). cbn [bind]. rewrite T, X. cbn [bind]. split; [reflexivity|].
  split; [exact Y|]. split; [rewrite (counted t L Y), Z'; reflexivity|exact Z'].
Qed.
Lemma names_same : map fst occupancies = periodic_table.
Proof. reflexivity. Qed.
Lemma unknown : forall name q, ~ In name (map list_ascii_of_string periodic_table) -> get_full_shell name q = Raises KeyError.
Proof.
  intros name q H. unfold get_full_shell. change 118%nat with (S 117). rewrite full_step. enough (E : occupancy name = Raises KeyError) by (rewrite E; reflexivity).
  rewrite <- names_same, map_map in H. unfold occupancy. revert H. generalize occupancies. induction l as [|x l IH]; intros H; [reflexivity|]. cbn [find].
  destruct (list_eq_dec ascii_dec (text (fst x)) name) as [E|E]; [exfalso; apply H; left; exact E|]. apply IH. intros I. apply H. right. exact I.
Qed.
Lemma oganesson : (forall q, q <> 0 -> get_full_shell (list_ascii_of_string "Og") q = Raises ValueError) /\
  exists t, get_full_shell (list_ascii_of_string "Og") 0 = Value t /\ n_total_el t = Raises ValueError.
Proof.
  split.
  - intros [|p|p] H; [contradiction| |]; vm_compute; reflexivity.
  - eexists. split; [vm_compute; reflexivity|vm_compute; reflexivity].
Qed.
Definition iron_shell : str := list_ascii_of_string "3d6 4s2".
Lemma iron_spells : spells iron_shell ([] ++ (3, "d"%char, 6) :: [(4, "s"%char, 2)]).
Proof. apply config_ok. vm_compute. reflexivity. Qed.
Lemma iron_occupied : Forall occupied ([] ++ (3, "d"%char, 6) :: [(4, "s"%char, 2)]).
Proof. apply occupiedb_ok. reflexivity. Qed.
Lemma iron_met : spells iron_shell [(3, "d"%char, 6); (4, "s"%char, 2)] /\ Forall occupied [(3, "d"%char, 6); (4, "s"%char, 2)] /\
  electrons [(4, "s"%char, 2)] <= 3 < electrons [(4, "s"%char, 2)] + 6 /\ room [] < 2 <= room [] + room_of (3, "d"%char, 6) /\
  add_ion_charge_to_shell iron_shell 3 = Value (list_ascii_of_string "3d5").
Proof. split; [exact iron_spells|]. split; [exact iron_occupied|]. split; [cbn; lia|]. split; [cbn; lia|vm_compute; reflexivity]. Qed.
Lemma elements_met : element 26 "Fe" /\ core 26 = 18 /\ element 8 "O" /\ core 8 = 2 /\
  get_full_shell (list_ascii_of_string "Fe") 3 = Value (list_ascii_of_string "1s2 2s2 2p6 3s2 3p6 3d5") /\
  get_full_shell (list_ascii_of_string "O") (-2) = Value (list_ascii_of_string "1s2 2s2 2p6") /\
  get_full_shell (list_ascii_of_string "O") (-3) = Raises UserWarning.
Proof. repeat split; vm_compute; reflexivity. Qed.
Lemma ion_met : name_text (list_ascii_of_string "fE") /\ titled (list_ascii_of_string "fE") = list_ascii_of_string "Fe" /\ number_text (list_ascii_of_string "3") /\
  signed "+" (decimal (list_ascii_of_string "3")) 3 /\ blank_text (list_ascii_of_string " ").
Proof.
  split; [split; [discriminate|repeat constructor]|]. split; [reflexivity|]. split; [split; [discriminate|repeat constructor]|]. split; [left; split; reflexivity|repeat constructor].
Qed.
Lemma isotope_met : number_text (list_ascii_of_string "13") /\ name_text (list_ascii_of_string "C") /\ number_text (list_ascii_of_string "2") /\ signed "-" (decimal (list_ascii_of_string "2")) (-2) /\
  ion_parts (list_ascii_of_string "13C2-") = Raises IndexError /\ ion_parts (list_ascii_of_string "2H1+") = Raises ValueError /\
  ion_parts (list_ascii_of_string "2H10+") = Value (list_ascii_of_string "H1", 0, Some 2).
Proof.
  split; [split; [discriminate|repeat constructor]|]. split; [split; [discriminate|repeat constructor]|]. split; [split; [discriminate|repeat constructor]|].
  split; [right; split; reflexivity|]. repeat split; vm_compute; reflexivity.
Qed.
Lemma deuterium : get_full_shell (list_ascii_of_string "D") 0 = Raises KeyError.
Proof. vm_compute. reflexivity. Qed.
