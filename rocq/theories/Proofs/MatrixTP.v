(** calc_matrix_t: the rotation that brings the scattering vector to the third axis (C62). *)
From Coq Require Import Reals Lra Psatz.
From Verif Require Import Spec.Lin3 Spec.Cell Model.MatrixOps Model.UnitCell Proofs.MatrixOpsP Proofs.UnitCellP.
Open Scope R_scope.

(** the angles chosen by the code *)
Definition t_alpha (k_x k_y sb : R) : R :=
  let clip x := if Rlt_dec 1 x then 1 else x in
  let clip2 x := if Rlt_dec x (-1) then -1 else x in
  if Req_EM_T sb 0 then 0
  else
    let sa1 := clip2 (clip (k_x * 1 / sb)) in
    let ca2 := clip2 (clip ((-1) * k_y * 1 / sb)) in
    let al1 := asin sa1 in
    let al2 := acos ca2 in
    let al_sh := if Rlt_dec 0 sa1 then al2 else 2 * PI - al2 in
    if Rlt_dec (Rabs (al2 - al1)) (1 / 100000) then al1 else al_sh.
Definition rot (al be : R) : M3 R :=
  mkM (cos al * 1 - sin al * cos be * 0) (sin al * 1 + cos al * cos be * 0) (sin be * 0)
      ((- cos al) * 0 - sin al * cos be * 1) ((- sin al) * 0 + cos al * cos be * 1) (sin be * 1)
      (sin al * sin be) ((- cos al) * sin be) (cos be).
Lemma matrix_t_unfold : forall hkl uc, calc_matrix_t hkl uc =
  let k := calc_eq_ccs hkl uc in let be := acos (v_3 k) in let al := t_alpha (v_1 k) (v_2 k) (sin be) in
  if Rlt_dec (1 / 10000) ((sin al * sin be - v_1 k)^2 + (- cos al * sin be - v_2 k)^2 + (cos be - v_3 k)^2)
  then None else Some (rot al be).
Proof.
  intros. unfold calc_matrix_t. destruct (calc_eq_ccs hkl uc) as [kx ky kz]. cbv zeta. cbn [v_1 v_2 v_3].
  rewrite cos_0, sin_0. reflexivity.
Qed.
Lemma rot_orthogonal : forall al be i j,
  sum3 (fun k => mget (rot al be) i k * mget (rot al be) j k) = delta i j.
Proof.
  intros al be i j. pose proof (sin2_cos2 al) as Ea. pose proof (sin2_cos2 be) as Eb. unfold Rsqr in *.
  assert (Ea' : (sin al)^2 = 1 - (cos al)^2) by lra. assert (Eb' : (sin be)^2 = 1 - (cos be)^2) by lra.
  destruct i, j; cbv [sum3 mget rot delta m_11 m_12 m_13 m_21 m_22 m_23 m_31 m_32 m_33]; ring [Ea' Eb'].
Qed.
Lemma rot_det : forall al be, det3 (mget (rot al be)) = 1.
Proof.
  intros al be. pose proof (sin2_cos2 al) as Ea. pose proof (sin2_cos2 be) as Eb. unfold Rsqr in *.
  assert (Ea' : (sin al)^2 = 1 - (cos al)^2) by lra. assert (Eb' : (sin be)^2 = 1 - (cos be)^2) by lra.
  cbv [det3 mget rot m_11 m_12 m_13 m_21 m_22 m_23 m_31 m_32 m_33]; ring [Ea' Eb'].
Qed.

(** Choice of alpha: s = sin, c = cos of the wanted angle. *)
Lemma alpha_choice : forall s c, s * s + c * c = 1 ->
  let al1 := asin s in let al2 := acos c in
  let al := if Rlt_dec (Rabs (al2 - al1)) (1 / 100000) then al1 else if Rlt_dec 0 s then al2 else 2 * PI - al2 in
  sin al = s /\ Rabs (cos al - c) <= 1 / 100000 /\ (1 / 100000 < Rabs c -> cos al = c).
Proof.
  intros s c E. cbv zeta.
  assert (Hs : -1 <= s <= 1) by nra. assert (Hc : -1 <= c <= 1) by nra.
  assert (C2 : cos (acos c) = c) by (apply cos_acos; lra).
  assert (S2 : sin (acos c) = Rabs s).
  { rewrite sin_acos by lra. replace (1 - c²) with (s²) by (unfold Rsqr; lra). apply sqrt_Rsqr_abs. }
  assert (S1 : sin (asin s) = s) by (apply sin_asin; lra).
  assert (C1 : cos (asin s) = Rabs c).
  { rewrite cos_asin by lra. replace (1 - s²) with (c²) by (unfold Rsqr; lra). apply sqrt_Rsqr_abs. }
  destruct (Rlt_dec (Rabs (acos c - asin s)) (1 / 100000)) as [Hw|Hw].
  - rewrite S1, C1. split; [reflexivity|].
    destruct (Rle_lt_dec 0 c) as [Hp|Hn].
    + rewrite (Rabs_pos_eq c Hp), Rminus_eq_0, Rabs_R0. split; [lra|reflexivity].
    + rewrite (Rabs_left c Hn).
      assert (B : - c < 1 / 200000).
      { pose proof (acos_bound c). pose proof (asin_bound s).
        assert (Hgt : PI / 2 < acos c).
        { destruct (Rlt_dec (PI / 2) (acos c)); [assumption|]. exfalso.
          assert (0 <= cos (acos c)) by (apply cos_ge_0; lra). lra. }
        apply Rabs_def2 in Hw.
        assert (asin s = PI - acos c).
        { destruct (Rle_lt_dec 0 s) as [Hs0|Hs0].
          - rewrite <- (asin_sin (PI - acos c)) by lra. rewrite sin_PI_x, S2, Rabs_pos_eq by assumption. reflexivity.
          - exfalso. assert (asin s = acos c - PI).
            { rewrite <- (asin_sin (acos c - PI)) by lra.
              replace (acos c - PI) with (- (PI - acos c)) by ring.
              rewrite sin_neg, sin_PI_x, S2, Rabs_left by assumption. f_equal; ring. }
            rewrite H1 in Hw. pose proof PI_RGT_0. pose proof PI2_1. lra. }
        rewrite H1 in Hw.
        assert (0 < acos c - PI / 2) by lra.
        pose proof (sin_lt_x _ H2) as L.
        replace (sin (acos c - PI / 2)) with (- c) in L.
        2:{ rewrite sin_minus, sin_PI2, cos_PI2, C2. ring. }
        lra. }
      split; [|intros; lra].
      rewrite Rabs_pos_eq; lra.
  - destruct (Rlt_dec 0 s) as [Hp|Hn].
    + rewrite S2, C2, Rminus_eq_0, Rabs_R0. rewrite Rabs_pos_eq by lra. repeat split; lra.
    + assert (sin (2 * PI - acos c) = s).
      { rewrite sin_minus, sin_2PI, cos_2PI, S2, Rabs_left1 by lra. ring. }
      assert (cos (2 * PI - acos c) = c).
      { rewrite cos_minus, sin_2PI, cos_2PI, C2. ring. }
      rewrite H, H0, Rminus_eq_0, Rabs_R0. repeat split; lra.
Qed.

Lemma t_alpha_ok : forall kx ky kz, kx * kx + ky * ky + kz * kz = 1 ->
  let be := acos kz in let al := t_alpha kx ky (sin be) in
  cos be = kz /\ sin al * sin be = kx /\ Rabs (- cos al * sin be - ky) <= 1 / 100000 /\
  (1 / 100000 < Rabs ky -> - cos al * sin be = ky).
Proof.
  intros kx ky kz E. cbv zeta.
  assert (Hz : -1 <= kz <= 1) by nra.
  assert (C : cos (acos kz) = kz) by (apply cos_acos; lra).
  split; [exact C|].
  assert (S : sin (acos kz) ^ 2 = 1 - kz * kz).
  { pose proof (sin2_cos2 (acos kz)) as Q. rewrite C in Q. unfold Rsqr in Q. lra. }
  assert (Sp : 0 <= sin (acos kz)).
  { pose proof (acos_bound kz). apply sin_ge_0; lra. }
  set (sb := sin (acos kz)) in *. clearbody sb. unfold t_alpha.
  destruct (Req_EM_T sb 0) as [->|Hsb].
  - assert (kx = 0) by nra. assert (ky = 0) by nra. subst. rewrite sin_0, cos_0.
    replace (-(1) * 0 - 0) with 0 by ring. rewrite Rabs_R0. repeat split; try lra.
  - assert (Hs : 0 < sb) by lra.
    assert (U : (kx / sb) * (kx / sb) + (- ky / sb) * (- ky / sb) = 1).
    { replace ((kx / sb) * (kx / sb) + (- ky / sb) * (- ky / sb)) with ((kx * kx + ky * ky) / (sb ^ 2)) by (field; lra).
      rewrite S. replace (kx * kx + ky * ky) with (1 - kz * kz) by lra. apply Rinv_r. rewrite <- S. nra. }
    replace (kx * 1 / sb) with (kx / sb) by (field; lra).
    replace (-1 * ky * 1 / sb) with (- ky / sb) by (field; lra).
    cbv zeta.
    assert (Clip : forall x, -1 <= x <= 1 -> (if Rlt_dec 1 x then 1 else x) = x) by (intros; destruct (Rlt_dec 1 x); lra).
    assert (Clip2 : forall x, -1 <= x <= 1 -> (if Rlt_dec x (-1) then -1 else x) = x) by (intros; destruct (Rlt_dec x (-1)); lra).
    rewrite (Clip (kx / sb)), (Clip (- ky / sb)) by nra. rewrite (Clip2 (kx / sb)), (Clip2 (- ky / sb)) by nra.
    pose proof (alpha_choice _ _ U) as A. cbv zeta in A.
    set (al := if Rlt_dec (Rabs (acos (- ky / sb) - asin (kx / sb))) (1 / 100000) then _ else _) in *. clearbody al.
    destruct A as (A1 & A2 & A3). split; [rewrite A1; field; lra|].
    assert (Hsb1 : sb <= 1) by nra.
    assert (F : - cos al * sb - ky = - (sb * (cos al - - ky / sb))) by (field; lra).
    split.
    + rewrite F, Rabs_Ropp, Rabs_mult, (Rabs_pos_eq sb) by lra.
      pose proof (Rabs_pos (cos al - - ky / sb)). nra.
    + intros Hk. rewrite A3; [field; lra|].
      replace (- ky / sb) with (- (ky * / sb)) by (field; lra). rewrite Rabs_Ropp, Rabs_mult.
      rewrite (Rabs_pos_eq (/ sb)) by (left; apply Rinv_0_lt_compat; lra).
      assert (1 <= / sb) by (rewrite <- Rinv_1; apply Rinv_le_contravar; lra).
      pose proof (Rabs_pos ky). nra.
Qed.

Lemma matrix_t_some : forall hkl uc, nondegenerate uc -> hkl <> mkV 0 0 0 ->
  exists T, calc_matrix_t hkl uc = Some T /\
   (forall i j, sum3 (fun k => mget T i k * mget T j k) = delta i j) /\ det3 (mget T) = 1 /\
   (forall i, Rabs (mget T X3 i - vget (calc_eq_ccs hkl uc) i) <= 1 / 100000) /\
   (1 / 100000 < Rabs (vget (calc_eq_ccs hkl uc) X2) -> forall i, mget T X3 i = vget (calc_eq_ccs hkl uc) i).
Proof.
  intros hkl uc H Hn. rewrite matrix_t_unfold. cbv zeta.
  destruct (eq_ccs_spec hkl uc H Hn) as [U _]. unfold dot, sum3 in U.
  destruct (calc_eq_ccs hkl uc) as [kx ky kz]. cbn [v_1 v_2 v_3 vget] in *.
  pose proof (t_alpha_ok kx ky kz U) as A. cbv zeta in A.
  set (al := t_alpha kx ky (sin (acos kz))) in *. clearbody al. set (be := acos kz) in *. clearbody be.
  destruct A as (A1 & A2 & A3 & A4).
  assert (B : (- cos al * sin be - ky) ^ 2 <= (1/100000)^2).
  { rewrite <- Rsqr_pow2. rewrite Rsqr_abs. rewrite Rsqr_pow2. pose proof (Rabs_pos (- cos al * sin be - ky)).
    apply pow_incr. lra. }
  destruct (Rlt_dec _ _) as [Hb|_].
  - exfalso. rewrite A1, A2 in Hb. lra.
  - exists (rot al be). split; [reflexivity|]. split; [apply rot_orthogonal|]. split; [apply rot_det|]. split.
    + intros []; cbn [mget rot m_31 m_32 m_33].
      * rewrite A2, Rminus_eq_0, Rabs_R0. lra.
      * exact A3.
      * rewrite A1, Rminus_eq_0, Rabs_R0. lra.
    + intros Hk []; cbn [mget rot m_31 m_32 m_33]; [exact A2 | exact (A4 Hk) | exact A1].
Qed.
Lemma matrix_t_zero : forall uc, calc_matrix_t (mkV 0 0 0) uc = None.
Proof.
  intros uc. rewrite matrix_t_unfold. cbv zeta.
  pose proof (eq_ccs_zero uc) as Z. pose proof (Z X1) as Z1. pose proof (Z X2) as Z2. pose proof (Z X3) as Z3.
  cbn [vget] in *. rewrite Z1, Z2, Z3. rewrite acos_0, sin_PI2, cos_PI2.
  unfold t_alpha. destruct (Req_EM_T 1 0); [lra|].
  replace (0 * 1 / 1) with 0 by field. replace (-1 * 0 * 1 / 1) with 0 by field.
  cbv zeta. destruct (Rlt_dec 1 0); [lra|]. destruct (Rlt_dec 0 (-1)); [lra|].
  rewrite acos_0, asin_0. destruct (Rlt_dec 0 0); [lra|].
  pose proof PI2_1. rewrite Rabs_pos_eq by lra.
  destruct (Rlt_dec (PI / 2 - 0) (1 / 100000)); [lra|].
  destruct (Rlt_dec _ _) as [|Hn]; [reflexivity|]. exfalso. apply Hn.
  replace (2 * PI - PI / 2) with (PI + PI / 2) by field.
  rewrite sin_plus, cos_plus, sin_PI, cos_PI, sin_PI2, cos_PI2. lra.
Qed.
