(** Density files: a file that was written is read again (C103). *)
From Coq Require Import Reals ZArith List Lra Lia Bool.
From Verif Require Import Spec.Lin3 Spec.Cell Spec.Symm Spec.DensityMap Model.MatrixOps Model.Symmetry Model.DensityMaps Model.SiteSymm Model.DenFile
  Proofs.SiteSymmP.
Import ListNotations.
Open Scope list_scope.
Open Scope R_scope.

Lemma rint_near : forall x k, Rabs (x - IZR k) < 1 / 2 -> rint x = k.
Proof.
  intros x k H. pose proof (rint_error x) as E. assert (A : Rabs (IZR (rint x - k)) < 1).
  { rewrite minus_IZR. replace (IZR (rint x) - IZR k) with ((IZR (rint x) - x) + (x - IZR k)) by ring. eapply Rle_lt_trans; [apply Rabs_triang|lra]. }
  rewrite <- abs_IZR in A. apply lt_IZR in A. lia.
Qed.
Lemma np_round_near : forall k x, Rabs (np_round k x - x) <= 1 / 2 / 10 ^ k. Proof. exact np_round_error. Qed.
Lemma translation_read : forall b d, (0 < d)%Z -> (d | 48)%Z -> rint (48 * np_round 5 (IZR b / IZR d)) = (b * (48 / d))%Z.
Proof.
  intros b d P D. apply rint_near. pose proof (np_round5_error (IZR b / IZR d)) as E.
  replace (IZR (b * (48 / d))) with (48 * (IZR b / IZR d)).
  - rewrite <- Rmult_minus_distr_l, Rabs_mult, (Rabs_right 48) by lra. lra.
  - destruct D as [m M]. replace (48 / d)%Z with m by (rewrite M, Z.div_mul; lia). rewrite mult_IZR.
    assert (IZR d <> 0) by (apply IZR_neq; lia). assert (E48 : 48 = IZR m * IZR d) by (rewrite <- mult_IZR, <- M; reflexivity). rewrite E48. field. assumption.
Qed.
Lemma numerators_value : forall b1 b2 b3 n1 n2 n3, rint (48 * b1) = n1 -> rint (48 * b2) = n2 -> rint (48 * b3) = n3 ->
  let '(num, d) := numerators b1 b2 b3 in (0 < d)%Z /\ (d | 48)%Z /\
    IZR (v_1 num) / IZR d = IZR n1 / 48 /\ IZR (v_2 num) / IZR d = IZR n2 / 48 /\ IZR (v_3 num) / IZR d = IZR n3 / 48 /\
    forall c, (0 < c)%Z -> (c | 48)%Z -> (48 / c | n1)%Z -> (48 / c | n2)%Z -> (48 / c | n3)%Z -> (d | c)%Z.
Proof.
  intros b1 b2 b3 n1 n2 n3 E1 E2 E3. unfold numerators. rewrite E1, E2, E3. cbv zeta. set (g := Z.gcd (Z.gcd (Z.gcd n1 n2) n3) 48).
  assert (G0 : (0 <= g)%Z) by apply Z.gcd_nonneg. assert (D48 : (g | 48)%Z) by apply Z.gcd_divide_r.
  assert (D3 : (g | n3)%Z) by (eapply Z.divide_trans; [apply Z.gcd_divide_l|apply Z.gcd_divide_r]).
  assert (D12 : (g | Z.gcd n1 n2)%Z) by (eapply Z.divide_trans; [apply Z.gcd_divide_l|apply Z.gcd_divide_l]).
  assert (D1 : (g | n1)%Z) by (eapply Z.divide_trans; [exact D12|apply Z.gcd_divide_l]).
  assert (D2 : (g | n2)%Z) by (eapply Z.divide_trans; [exact D12|apply Z.gcd_divide_r]).
  assert (G : (0 < g)%Z). { destruct (Z.eq_dec g 0) as [Z0|]; [|lia]. rewrite Z0 in D48. destruct D48 as [m M]. lia. }
  destruct D48 as [m M]. assert (Em : (48 / g)%Z = m) by (rewrite M, Z.div_mul; lia). rewrite Em.
  assert (Pm : (0 < m)%Z) by nia.
  assert (V : forall n, (g | n)%Z -> IZR (n / g) / IZR m = IZR n / 48).
  { intros n [k K]. rewrite K, Z.div_mul by lia. rewrite mult_IZR. assert (IZR g <> 0) by (apply IZR_neq; lia). assert (IZR m <> 0) by (apply IZR_neq; lia).
    assert (E48 : 48 = IZR m * IZR g) by (rewrite <- mult_IZR, <- M; reflexivity). rewrite E48. field. split; assumption. }
  split; [exact Pm|]. split; [exists g; lia|]. split; [apply V; exact D1|]. split; [apply V; exact D2|]. split; [apply V; exact D3|].
  intros c Pc [q Q] C1 C2 C3. assert (Eq : (48 / c)%Z = q) by (rewrite Q, Z.div_mul; lia). rewrite Eq in C1, C2, C3.
  assert (Dq : (q | g)%Z). { apply Z.gcd_greatest; [apply Z.gcd_greatest; [apply Z.gcd_greatest; assumption|assumption]|exists c; lia]. }
  destruct Dq as [t T]. exists t. assert (q <> 0)%Z by lia. nia.
Qed.

(** ** lists *)
Lemma opt_map_map : forall (A B C : Type) (f : B -> option C) (g : A -> B) (h : A -> C) l, (forall x, In x l -> f (g x) = Some (h x)) -> opt_map f (map g l) = Some (map h l).
Proof.
  intros A B C f g h l. induction l as [|x l IH]; intros H; [reflexivity|]. cbn [map opt_map]. rewrite (H x (or_introl eq_refl)). cbn [bind].
  rewrite IH by (intros; apply H; right; assumption). reflexivity.
Qed.
Lemma nth_error_skip : forall (A : Type) (a b : list A) k n, List.length a = n -> nth_error (a ++ b) (n + k) = nth_error b k.
Proof. intros A a b k n <-. rewrite nth_error_app2 by lia. f_equal. lia. Qed.
Lemma slice_mid : forall (A : Type) (a b c : list A) i j, List.length a = i -> List.length b = (j - i)%nat -> slice i j (a ++ b ++ c) = b.
Proof.
  intros A a b c i j Ha Hb. unfold slice. rewrite <- Ha, skipn_app, skipn_all, Nat.sub_diag. cbn [app skipn]. rewrite Ha, <- Hb, firstn_app, Nat.sub_diag, firstn_all. cbn. apply app_nil_r.
Qed.

(** ** the parts of a file *)
Definition kept_row (r : V3 Z * (R * R * R)) : V3 Z * (R * R * R) :=
  let '(p, (d, f, a)) := r in (p, (np_round 7 d, np_round 7 f, np_round 7 a)).
Definition kept_op (e : Op) : Op :=
  let b i := np_round 5 (IZR i / IZR (e_d e)) in
  let '(num, d) := numerators (b (v_1 (e_b e))) (b (v_2 (e_b e))) (b (v_3 (e_b e))) in mkE num d (e_r e).
Definition kept_shift (s : V3 Z * Z) : V3 Z * Z :=
  numerators (np_round 4 (IZR (v_1 (fst s)))) (np_round 4 (IZR (v_2 (fst s)))) (np_round 4 (IZR (v_3 (fst s)))).
Definition kept_cell (u : U6 R) : U6 R :=
  mkU (np_round 5 (u_a u)) (np_round 5 (u_b u)) (np_round 5 (u_c u)) (np_round 5 (u_al u) * (PI / 180)) (np_round 5 (u_be u) * (PI / 180)) (np_round 5 (u_ga u) * (PI / 180)).
Lemma row_kept : forall r, read_row (write_row r) = Some (kept_row r).
Proof. intros [[x y z] [[d f] a]]. reflexivity. Qed.
Lemma op_kept : forall e, read_op (write_op e) = Some (kept_op e).
Proof. intros [[b1 b2 b3] d [a b c p q r x y z]]. unfold read_op, write_op, kept_op. cbn [e_r e_b e_d opt_map to_int bind]. destruct (numerators _ _ _) as [num dd]. reflexivity. Qed.
Lemma shift_kept : forall s, read_shift (write_shift s) = Some (kept_shift s).
Proof. intros [[a b c] d]. reflexivity. Qed.

Lemma read_saved : forall x, read_den_file (save_to_den_file x) =
  Some (mkDen (dn_points x) (kept_cell (dn_cell x)) (map kept_op (dn_ops x)) (map kept_row (dn_rows x)) (dn_centro x) (map kept_shift (dn_shift x))).
Proof.
  intros [pts cell ops rows centro shifts]. unfold save_to_den_file. cbn [dn_points dn_cell dn_ops dn_rows dn_centro dn_shift].
  unfold read_den_file. cbn [app nth_error]. cbn [to_int bind]. rewrite Nat2Z.id. cbv zeta.
  set (N := List.length rows). set (ns := List.length ops). set (nh := List.length shifts).
  set (HEAD := [TI (v_1 pts); TI (v_2 pts); TI (v_3 pts); TI (Z.of_nat ns); TI (if centro then 1%Z else 0%Z); TI (Z.of_nat nh)]).
  set (FIRST := [TI (Z.of_nat N)]). set (L := [] :: FIRST :: map write_row rows ++ write_cell cell :: HEAD :: map write_op ops ++ map write_shift shifts).
  assert (P2 : L = ([[]; FIRST] ++ map write_row rows) ++ (write_cell cell :: HEAD :: map write_op ops ++ map write_shift shifts)) by reflexivity.
  assert (N2 : nth_error L (N + 2) = Some (write_cell cell)).
  { rewrite P2. replace (N + 2)%nat with ((N + 2) + 0)%nat by lia. rewrite nth_error_skip; [reflexivity|]. cbn [app List.length]. rewrite map_length. fold N. lia. }
  assert (N3 : nth_error L (N + 3) = Some HEAD).
  { rewrite P2. replace (N + 3)%nat with ((N + 2) + 1)%nat by lia. rewrite nth_error_skip; [reflexivity|]. cbn [app List.length]. rewrite map_length. fold N. lia. }
  rewrite N2, N3. unfold write_cell at 1. cbn iota.
  assert (H : opt_map to_int HEAD = Some [v_1 pts; v_2 pts; v_3 pts; Z.of_nat ns; (if centro then 1 else 0)%Z; Z.of_nat nh]) by reflexivity.
  rewrite H. cbn [bind]. rewrite !Nat2Z.id.
  assert (S1 : slice 2 (N + 2) L = map write_row rows).
  { apply (slice_mid _ [[]; FIRST] (map write_row rows)); [reflexivity|]. rewrite map_length. fold N. lia. }
  assert (S2 : slice (N + 4) (N + 4 + ns) L = map write_op ops).
  { replace L with (([[]; FIRST] ++ map write_row rows ++ [write_cell cell; HEAD]) ++ map write_op ops ++ map write_shift shifts)
      by (unfold L; rewrite <- !app_assoc; reflexivity).
    apply slice_mid; [|rewrite map_length; fold ns; lia]. cbn [app List.length]. rewrite app_length, map_length. cbn [List.length]. fold N. lia. }
  assert (S3 : slice (N + 4 + ns) (N + 4 + ns + nh) L = map write_shift shifts).
  { replace L with (([[]; FIRST] ++ map write_row rows ++ [write_cell cell; HEAD] ++ map write_op ops) ++ map write_shift shifts ++ [])
      by (unfold L; rewrite app_nil_r, <- !app_assoc; reflexivity).
    apply slice_mid; [|rewrite map_length; fold nh; lia]. cbn [app List.length]. rewrite app_length, map_length. cbn [List.length]. rewrite map_length. fold N ns. lia. }
  rewrite S1, S2, S3.
  rewrite (opt_map_map _ _ _ read_row write_row kept_row) by (intros; apply row_kept). cbn [bind].
  rewrite (opt_map_map _ _ _ read_op write_op kept_op) by (intros; apply op_kept). cbn [bind].
  rewrite (opt_map_map _ _ _ read_shift write_shift kept_shift) by (intros; apply shift_kept). cbn [bind].
  unfold kept_cell. cbn [to_float]. destruct pts as [pa pb pc], centro; reflexivity.
Qed.
