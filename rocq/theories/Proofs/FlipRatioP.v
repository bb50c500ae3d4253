From Coq Require Import Reals Lra List String Bool.
From Coquelicot Require Import Coquelicot.
From Verif Require Import Spec.Lin3 Model.FlipRatio Spec.Intens.
Open Scope R_scope.


(** characteristic form *)
Definition fz (a : arg) : cx :=
  (fst (v_1 (a_fm a)) * v_1 (a_axis a) + fst (v_2 (a_fm a)) * v_2 (a_axis a) + fst (v_3 (a_fm a)) * v_3 (a_axis a),
   snd (v_1 (a_fm a)) * v_1 (a_axis a) + snd (v_2 (a_fm a)) * v_2 (a_axis a) + snd (v_3 (a_fm a)) * v_3 (a_axis a)).
Definition fp (a : arg) : R := Rsqr (fst (a_fn a) + fst (fz a)) + Rsqr (snd (a_fn a) + snd (fz a)).
Definition fm (a : arg) : R := Rsqr (fst (a_fn a) - fst (fz a)) + Rsqr (snd (a_fn a) - snd (fz a)).
Definition fx (a : arg) : R :=
  (Rsqr (fst (v_1 (a_fm a))) + Rsqr (fst (v_2 (a_fm a))) + Rsqr (fst (v_3 (a_fm a)))) +
  (Rsqr (snd (v_1 (a_fm a))) + Rsqr (snd (v_2 (a_fm a))) + Rsqr (snd (v_3 (a_fm a)))) - (Rsqr (fst (fz a)) + Rsqr (snd (fz a))).
Definition ch (a : arg) : R :=
  2 * (v_1 (a_axis a) * (snd (v_2 (a_fm a)) * fst (v_3 (a_fm a)) - fst (v_2 (a_fm a)) * snd (v_3 (a_fm a))) +
       v_2 (a_axis a) * (snd (v_3 (a_fm a)) * fst (v_1 (a_fm a)) - fst (v_3 (a_fm a)) * snd (v_1 (a_fm a))) +
       v_3 (a_axis a) * (snd (v_1 (a_fm a)) * fst (v_2 (a_fm a)) - fst (v_1 (a_fm a)) * snd (v_2 (a_fm a)))).
Definition form (Y : R -> R) (p x y z c : R) : R :=
  (5/10) * ((1 + p) * Y x * x + (1 - p) * Y y * y) + Y z * z + p * c.
Lemma ip_form f a : ip (calc_iint f a) = form (y_of (a_ext a)) (a_bp a) (fp a) (fm a) (fx a) (ch a).
Proof. reflexivity. Qed.
Lemma im_form f a : im (calc_iint f a) =
  form (y_of (a_ext a)) (- (a_bp a * (2 * a_fe a - 1))) (fp a) (fm a) (fx a) (ch a).
Proof.
  unfold im, calc_iint. unfold form, fp, fm, fx, ch, fz. cbn [fst snd]. ring.
Qed.
Lemma fp_pos a : 0 <= fp a.
Proof. unfold fp. assert (A := Rle_0_sqr (fst (a_fn a) + fst (fz a))). assert (B := Rle_0_sqr (snd (a_fn a) + snd (fz a))). lra. Qed.
Lemma fm_pos a : 0 <= fm a.
Proof. unfold fm. assert (A := Rle_0_sqr (fst (a_fn a) - fst (fz a))). assert (B := Rle_0_sqr (snd (a_fn a) - snd (fz a))). lra. Qed.
(* squared length minus squared projection on the unit axis *)
Lemma cs3 x y z a b c : Rsqr a + Rsqr b + Rsqr c = 1 -> Rsqr (x*a+y*b+z*c) <= Rsqr x + Rsqr y + Rsqr z.
Proof.
  intros H.
  assert (E : Rsqr x + Rsqr y + Rsqr z - Rsqr (x*a+y*b+z*c) = Rsqr (y*c - z*b) + Rsqr (z*a-x*c) + Rsqr (x*b-y*a)).
  { transitivity ((Rsqr x + Rsqr y + Rsqr z) * (Rsqr a + Rsqr b + Rsqr c) - Rsqr (x*a+y*b+z*c)). rewrite H; ring. unfold Rsqr; ring. }
  assert (A := Rle_0_sqr (y*c - z*b)). assert (B := Rle_0_sqr (z*a-x*c)). assert (C := Rle_0_sqr (x*b-y*a)). lra.
Qed.
Lemma fx_pos a : unit_axis (a_axis a) -> 0 <= fx a.
Proof.
  intros H. unfold fx, fz. cbn [fst snd].
  assert (A := cs3 (fst (v_1 (a_fm a))) (fst (v_2 (a_fm a))) (fst (v_3 (a_fm a))) _ _ _ H).
  assert (B := cs3 (snd (v_1 (a_fm a))) (snd (v_2 (a_fm a))) (snd (v_3 (a_fm a))) _ _ _ H). lra.
Qed.
(* the chiral term is bounded by the perpendicular part *)
Lemma ch_bound a : unit_axis (a_axis a) -> Rabs (ch a) <= fx a.
Proof.
  destruct a as [bp fe fn [[mxr mxi] [myr myi] [mzr mzi]] [a b c] e]. unfold unit_axis, ch, fx, fz. cbn. intros H.
  (* n x Re, n x Im ; |Re_perp -+ n x Im|^2 >= 0 *)
  assert (K : forall s, s * s = 1 -> 0 <=
    Rsqr mxr + Rsqr myr + Rsqr mzr + (Rsqr mxi + Rsqr myi + Rsqr mzi) -
      (Rsqr (mxr * a + myr * b + mzr * c) + Rsqr (mxi * a + myi * b + mzi * c)) +
      s * (2 * (a * (myi * mzr - myr * mzi) + b * (mzi * mxr - mzr * mxi) + c * (mxi * myr - mxr * myi)))).
  { intros s Hs.
    set (dr := mxr * a + myr * b + mzr * c). 
    assert (E : Rsqr mxr + Rsqr myr + Rsqr mzr + (Rsqr mxi + Rsqr myi + Rsqr mzi) -
      (Rsqr dr + Rsqr (mxi * a + myi * b + mzi * c)) +
      s * (2 * (a * (myi * mzr - myr * mzi) + b * (mzi * mxr - mzr * mxi) + c * (mxi * myr - mxr * myi))) =
      Rsqr (mxr - dr * a + s * (b * mzi - c * myi)) + Rsqr (myr - dr * b + s * (c * mxi - a * mzi)) + Rsqr (mzr - dr * c + s * (a * myi - b * mxi))).
    { unfold Rsqr in *. subst dr.
      assert (Ha : a * a = 1 - b * b - c * c) by lra. ring [Ha Hs]. }
    rewrite E. pose proof (Rle_0_sqr (mxr - dr * a + s * (b * mzi - c * myi))).
    pose proof (Rle_0_sqr (myr - dr * b + s * (c * mxi - a * mzi))). pose proof (Rle_0_sqr (mzr - dr * c + s * (a * myi - b * mxi))). lra. }
  assert (K1 := K 1 ltac:(lra)). assert (K2 := K (-1) ltac:(lra)). apply Rabs_le. lra.
Qed.
Lemma form_pos p x y z c : -1 <= p <= 1 -> 0 <= x -> 0 <= y -> Rabs c <= z -> 0 <= form (fun _ => 1) p x y z c.
Proof.
  intros Hp Hx Hy Hc. unfold form.
  assert (0 <= (1 + p) * x) by (apply Rmult_le_pos; lra). assert (0 <= (1 - p) * y) by (apply Rmult_le_pos; lra).
  assert (Rabs (p * c) <= z).
  { rewrite Rabs_mult. assert (Rabs p <= 1) by (apply Rabs_le; lra). assert (0 <= Rabs c) by apply Rabs_pos. assert (0 <= Rabs p) by apply Rabs_pos. nra. }
  apply Rabs_le_between in H1. lra.
Qed.
Lemma iint_nonneg f a : a_ext a = None -> unit_axis (a_axis a) -> -1 <= a_bp a <= 1 -> 0 <= a_fe a <= 1 ->
  0 <= ip (calc_iint f a) /\ 0 <= im (calc_iint f a).
Proof.
  intros E U P F. rewrite ip_form, im_form, E. unfold y_of.
  split; apply form_pos; auto using fp_pos, fm_pos, ch_bound; nra.
Qed.
(* with extinction the sum is non-negative if there is no chiral term *)
Lemma iint_nonneg_ext f a : (forall x, 0 <= y_of (a_ext a) x) -> ch a = 0 -> unit_axis (a_axis a) -> -1 <= a_bp a <= 1 -> 0 <= a_fe a <= 1 ->
  0 <= ip (calc_iint f a) /\ 0 <= im (calc_iint f a).
Proof.
  intros E C U P F. rewrite ip_form, im_form, C. assert (X := fx_pos a U). assert (Y := fp_pos a). assert (Z := fm_pos a).
  assert (A := E (fp a)). assert (B := E (fm a)). assert (D := E (fx a)).
  assert (K : forall p, -1 <= p <= 1 -> 0 <= form (y_of (a_ext a)) p (fp a) (fm a) (fx a) 0).
  { intros p Hp. unfold form. assert (0 <= (1 + p) * y_of (a_ext a) (fp a) * fp a) by (repeat apply Rmult_le_pos; lra).
    assert (0 <= (1 - p) * y_of (a_ext a) (fm a) * fm a) by (repeat apply Rmult_le_pos; lra).
    assert (0 <= y_of (a_ext a) (fx a) * fx a) by (repeat apply Rmult_le_pos; lra). lra. }
  split; apply K; nra.
Qed.
Definition bad_ext : ext := mkE (fun _ => 0) (fun _ x => 1/(1+x)) (fun _ x => - / Rsqr (1+x)) nil (fun _ _ _ => 0).
Definition bad_arg : arg := mkArg (-1) 1 (0, 0) (mkV (3, 0) (0, 3) (0, 0)) (mkV 0 0 1) (Some bad_ext).
Lemma iint_neg_ext : ip (calc_iint (mkF false false false false) bad_arg) < 0 \/ im (calc_iint (mkF false false false false) bad_arg) < 0.
Proof. rewrite ip_form, im_form. unfold form, fp, fm, fx, ch, fz, bad_arg, y_of, Rsqr. cbn. right. lra. Qed.
Lemma chiral_ch a : chiral a = ch a.
Proof. reflexivity. Qed.
Lemma iint_neg_ext_ex : exists a e, a_ext a = Some e /\ (forall x, 0 <= x -> 0 < e_y e (e_par e) x <= 1) /\ unit_axis (a_axis a) /\
  -1 <= a_bp a <= 1 /\ 0 <= a_fe a <= 1 /\ im (calc_iint (mkF false false false false) a) < 0.
Proof.
  exists bad_arg, bad_ext. split; [reflexivity|]. split.
  { intros x Hx. cbn. split. apply Rdiv_lt_0_compat; lra. apply (Rmult_le_reg_r (1 + x)); [lra|]. field_simplify; lra. }
  split; [unfold unit_axis, Rsqr; cbn; lra|]. split; [cbn; lra|]. split; [cbn; lra|].
  rewrite im_form. unfold form, fp, fm, fx, ch, fz, bad_arg, y_of, Rsqr. cbn. lra.
Qed.
