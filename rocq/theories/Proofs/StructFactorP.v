From Coq Require Import Reals ZArith List Bool Lra Lia Permutation.
From Coquelicot Require Import Complex.
From Verif Require Import Spec.Lin3 Spec.Cell Spec.Symm Spec.Scatter Spec.StructSpec Model.UnitCell Model.Symmetry Model.AtomFactors Model.StructFactor
  Proofs.SymmBaseP Proofs.SymmGroupP Proofs.SymmExP Proofs.ScatterP.
Import ListNotations.
Open Scope list_scope.
Open Scope R_scope.

Lemma combine_map2 : forall A B D (f : A -> B) (g : A -> D) l, combine (map f l) (map g l) = map (fun x => (f x, g x)) l.
Proof. intros. induction l as [|x l IH]; cbn; [reflexivity|]. rewrite IH. reflexivity. Qed.
Lemma combine_map_r : forall A B (g : A -> B) l, combine l (map g l) = map (fun x => (x, g x)) l.
Proof. intros. induction l as [|x l IH]; cbn; [reflexivity|]. rewrite IH. reflexivity. Qed.
Lemma map_seq_nth : forall A B (f : A -> B) (l : list A) d, map (fun j => f (nth j l d)) (seq 0 (length l)) = map f l.
Proof.
  intros A B f l d. induction l as [|x l IH]; cbn [length seq map]; [reflexivity|]. f_equal.
  rewrite <- seq_shift, map_map. exact IH.
Qed.

(** the amplitude of one atom *)
Definition fa (h : V3 Z) (s : symmetry) (uc : U6 R) (m : nat) (a : atom) : C :=
  calc_f_asym_a (INR m) (at_occ a) (map (calc_pr2 h) (s_red s)) (map (fun e => calc_pr1 h e (at_xyz a)) (s_red s))
    (map (fun e => dwf_call h (calc_sthovl (hkl_real h) uc) e (at_biso a) (at_beta a)) (s_red s)).
Definition mult_of (full : list Op) (a : atom) : nat := calc_multiplicity full (get_atom_symm_elem (at_xyz a)).
Definition f_one (s : symmetry) (uc : U6 R) (mu : atom -> nat) (atoms : list atom) (h : V3 Z) : C :=
  calc_f_by_f_asym (map (fun a => fa h s uc (mu a) a) atoms) (map at_b atoms) (calc_pr3 h (s_tr s)) (s_centro s) (calc_pr4 h (cp_arg s)).

Lemma f_nucl_gen : forall hkls s uc (mu : atom -> nat) atoms,
  f_nucl_arr (f_asym_arr (map mu atoms) (dwf_arr hkls (sthovl_arr hkls uc) s atoms) atoms (pr1_arr hkls s atoms) (pr2_arr hkls s))
    atoms (pr3_arr hkls s) s (pr4_arr hkls s) = map (f_one s uc mu atoms) hkls.
Proof.
  intros. unfold f_nucl_arr, f_asym_arr, dwf_arr, sthovl_arr, pr1_arr, pr2_arr, pr3_arr, pr4_arr.
  rewrite combine_map_r, map_map. rewrite !combine_map2. rewrite map_map, combine_map2, map_map. apply map_ext. intros h.
  cbn [fst snd]. unfold f_one. f_equal.
  rewrite <- (map_seq_nth _ _ (fun a => fa h s uc (mu a) a) atoms (mkA (mkV 0 0 0) 0 (RtoC 0) 0 q_zero)).
  apply map_ext_in. intros j Hj. apply in_seq in Hj. unfold fa. f_equal.
  - f_equal. rewrite (nth_indep _ 0%nat (mu (mkA (mkV 0 0 0) 0 (RtoC 0) 0 q_zero))) by (rewrite map_length; lia). apply map_nth.
  - unfold col. rewrite map_map. apply map_ext. intros e.
    rewrite (nth_indep _ (RtoC 0) (calc_pr1 h e (at_xyz (mkA (mkV 0 0 0) 0 (RtoC 0) 0 q_zero)))) by (rewrite map_length; lia).
    rewrite (map_nth (fun a => calc_pr1 h e (at_xyz a))). reflexivity.
  - unfold col. rewrite map_map. apply map_ext. intros e.
    set (F := fun a : atom => dwf_call h (calc_sthovl (hkl_real h) uc) e (at_biso a) (at_beta a)).
    rewrite (nth_indep _ 0 (F (mkA (mkV 0 0 0) 0 (RtoC 0) 0 q_zero))) by (rewrite map_length; lia).
    rewrite (map_nth F). reflexivity.
Qed.
Lemma f_nucl_map : forall hkls s uc atoms, calc_f_nucl hkls s uc atoms = map (f_one s uc (mult_of (full_of s)) atoms) hkls.
Proof. intros. unfold calc_f_nucl, mult_arr. apply (f_nucl_gen hkls s uc (mult_of (full_of s))). Qed.

(* ---- phases ---- *)
Lemma cexp_phase : forall u, cexp (- 2 * PI * u) = phase u.
Proof.
  intros u. unfold cexp, phase. replace (-2 * PI * u) with (- (2 * PI * u)) by ring. rewrite cos_neg, sin_neg. reflexivity.
Qed.
Lemma pr2_phase : forall h e, calc_pr2 h e = phase (hdot h (frac (e_b e) (e_d e))).
Proof. intros [h k l] [[b1 b2 b3] d r]. unfold calc_pr2. cbn [e_b e_d v_1 v_2 v_3]. rewrite cexp_phase. reflexivity. Qed.
Lemma pr1_phase : forall h e x, calc_pr1 h e x = phase (hdot h (fun i => sum3 (fun j => IZR (mget (e_r e) i j) * vget x j))).
Proof. intros [h k l] [b d [r11 r12 r13 r21 r22 r23 r31 r32 r33]] [x y z]. unfold calc_pr1. cbn [e_r v_1 v_2 v_3]. rewrite cexp_phase. reflexivity. Qed.
Lemma pr12_phase : forall h e x, Cmult (calc_pr2 h e) (calc_pr1 h e x) = phase (hdot h (act e (vget x))).
Proof.
  intros. rewrite pr2_phase, pr1_phase, Cmult_comm, <- phase_add. f_equal. unfold act, frac, hdot, sum3. ring.
Qed.
Lemma pr3_phase : forall h ts, (forall t, In t ts -> (0 < snd t)%Z) ->
  calc_pr3 h ts = div_n (csum (map (fun t => phase (hdot h (frac (fst t) (snd t)))) ts)) (length ts).
Proof.
  intros h ts Ht. unfold calc_pr3. f_equal. apply csum_ext. intros [[t1 t2 t3] d] Hin. apply Ht in Hin. cbn [fst snd] in *.
  assert (Hd : IZR d <> 0) by (apply not_0_IZR; lia).
  destruct h as [h k l]. cbn [v_1 v_2 v_3].
  replace (-2 * PI * IZR (h * t1 + k * t2 + l * t3) / IZR d)%R with (- 2 * PI * hdot (mkV h k l) (frac (mkV t1 t2 t3) d)); [apply cexp_phase|].
  unfold hdot, frac, sum3. cbn [vget v_1 v_2 v_3]. rewrite !plus_IZR, !mult_IZR. field. exact Hd.
Qed.
Lemma pr4_phase : forall h cp, calc_pr4 h (Some cp) = phase (hdot h (pos2 cp)).
Proof.
  intros [h k l] [[c1 c2 c3] d]. unfold calc_pr4. cbn [v_1 v_2 v_3].
  rewrite <- cexp_phase. f_equal. unfold hdot, pos2, frac, sum3. cbn [vget v_1 v_2 v_3 fst snd]. ring.
Qed.

Lemma cdiv_scal : forall z n, div_n z n = Cmult (Cinv (RtoC (INR n))) z.
Proof. intros. unfold div_n, Cdiv. apply Cmult_comm. Qed.
Lemma sum_c_csum : forall l, sum_c l = csum l.
Proof. reflexivity. Qed.
Lemma fa_sum : forall h s uc m a,
  fa h s uc m a = Cmult (Cmult (RtoC (INR m * at_occ a)) (Cinv (RtoC (INR (length (s_red s))))))
    (csum (map (fun e => Cmult (phase (hdot h (act e (vget (at_xyz a)))))
        (RtoC (dwf_call h (calc_sthovl (hkl_real h) uc) e (at_biso a) (at_beta a)))) (s_red s))).
Proof.
  intros. unfold fa, calc_f_asym_a. rewrite combine_map2, combine_map2, map_map, map_length, cdiv_scal. cbn [fst snd].
  rewrite sum_c_csum.
  rewrite (csum_ext _ _ (fun e => Cmult (RtoC (INR m * at_occ a)) (Cmult (phase (hdot h (act e (vget (at_xyz a)))))
        (RtoC (dwf_call h (calc_sthovl (hkl_real h) uc) e (at_biso a) (at_beta a)))))).
  - rewrite csum_scal. ring.
  - intros e _. rewrite <- pr12_phase, RtoC_mult. ring.
Qed.
Lemma rtoc_inv : forall n, Cinv (RtoC (INR (S n))) = RtoC (/ INR (S n)).
Proof. intros. symmetry. apply RtoC_inv. apply not_0_INR. discriminate. Qed.

Definition dw (h : V3 Z) (uc : U6 R) (a : atom) : R := exp (- (at_biso a * (calc_sthovl (hkl_real h) uc) ^ 2)).
Lemma dwf_iso : forall h uc e a, isotropic a -> dwf_call h (calc_sthovl (hkl_real h) uc) e (at_biso a) (at_beta a) = dw h uc a.
Proof.
  intros h uc e a H. unfold dwf_call, calc_dwf, dw. rewrite H. unfold calc_power_dwf_iso, calc_power_dwf_aniso, q_zero.
  destruct (rotated_hkl _ _). cbn [q_11 q_22 q_33 q_12 q_13 q_23]. f_equal. unfold Rsqr. ring.
Qed.
Definition dsum (h : V3 Z) (l : list Op) (x : ix -> R) : C := csum (map (fun e => phase (hdot h (act e x))) l).
Lemma fa_iso : forall h s uc m a, isotropic a ->
  fa h s uc m a = Cmult (Cmult (RtoC (INR m * at_occ a * dw h uc a)) (Cinv (RtoC (INR (length (s_red s)))))) (dsum h (s_red s) (vget (at_xyz a))).
Proof.
  intros h s uc m a H. rewrite fa_sum. unfold dsum.
  rewrite (csum_ext _ _ (fun e => Cmult (phase (hdot h (act e (vget (at_xyz a))))) (RtoC (dw h uc a)))).
  - rewrite csum_scal_r, !RtoC_mult. ring.
  - intros e _. rewrite dwf_iso by exact H. reflexivity.
Qed.

Lemma dsum_tr : forall h red ts x, (forall e, In e red -> (0 < e_d e)%Z) -> (forall t, In t ts -> (0 < snd t)%Z) ->
  dsum h (flat_map (fun te => map (add_translation te) red) ts) x =
  Cmult (csum (map (fun t => phase (hdot h (frac (fst t) (snd t)))) ts)) (dsum h red x).
Proof.
  intros h red ts x Hr Ht. unfold dsum. rewrite csum_flat_map, <- csum_scal_r. apply csum_ext. intros te Hte.
  rewrite map_map, <- csum_scal. apply csum_ext. intros e He.
  destruct (add_translation_act te e (Ht _ Hte) (Hr _ He)) as [_ P].
  rewrite (phase_same _ _ _ (P x)), hdot_add, phase_add. ring.
Qed.
Lemma dsum_inv : forall h cp l x, (forall e, In e l -> (0 < e_d e)%Z) -> (0 < snd cp)%Z ->
  dsum h (map (invert_elem cp) l) x = Cmult (phase (hdot h (pos2 cp))) (Cconj (dsum h l x)).
Proof.
  intros h cp l x Hl Hc. unfold dsum. rewrite map_map, <- csum_conj, <- csum_scal. apply csum_ext. intros e He.
  destruct (invert_elem_act cp e Hc (Hl _ He)) as [_ P]. rewrite (phase_same _ _ _ (P x)), phase_conj, <- phase_add. f_equal.
  unfold hdot, sum3. ring.
Qed.

Lemma f_one_iso : forall s uc mu atoms h, sym_ok s -> (forall a, In a atoms -> isotropic a) ->
  f_one s uc mu atoms h = csum (map (fun a => Cmult (Cmult (at_b a) (RtoC (INR (mu a) * at_occ a * dw h uc a / INR (length (full_of s)))))
      (dsum h (full_of s) (vget (at_xyz a)))) atoms).
Proof.
  intros s uc mu atoms h (Hr & Ht & Hc & Nr & Nt) Hi. unfold f_one, calc_f_by_f_asym.
  rewrite !combine_map2, !map_map. cbn [fst snd]. rewrite !sum_c_csum.
  assert (L : length (full_of s) = ((if s_centro s then 2 else 1) * length (s_tr s) * length (s_red s))%nat) by apply full_length.
  assert (N1 : INR (length (s_red s)) <> 0) by (apply not_0_INR; destruct (s_red s); [congruence|discriminate]).
  assert (N2 : INR (length (s_tr s)) <> 0) by (apply not_0_INR; destruct (s_tr s); [congruence|discriminate]).
  assert (C1 : RtoC (INR (length (s_red s))) <> RtoC 0) by (intros E; apply N1; apply RtoC_inj in E; exact E).
  assert (C2 : RtoC (INR (length (s_tr s))) <> RtoC 0) by (intros E; apply N2; apply RtoC_inj in E; exact E).
  assert (Fl : forall e, In e (flat_map (fun te => map (add_translation te) (s_red s)) (s_tr s)) -> (0 < e_d e)%Z).
  { intros e He. apply in_flat_map in He as (te & Hte & He). apply in_map_iff in He as (e' & <- & He').
    apply add_translation_act; auto. }
  unfold full_of in *. unfold cp_arg. unfold calc_full_symm_elems_by_reduced in *.
  destruct (s_centro s).
  - rewrite <- !csum_scal, <- csum_plus, <- csum_scal. apply csum_ext. intros a Ha.
    rewrite (fa_iso h s uc (mu a) a (Hi a Ha)). unfold dsum at 3. rewrite map_app, csum_app. fold (dsum h (flat_map (fun te => map (add_translation te) (s_red s)) (s_tr s)) (vget (at_xyz a))).
    fold (dsum h (map (invert_elem (s_cp s)) (flat_map (fun te => map (add_translation te) (s_red s)) (s_tr s))) (vget (at_xyz a))).
    rewrite dsum_inv, dsum_tr by assumption. rewrite pr3_phase, pr4_phase by assumption. rewrite !cdiv_scal.
    rewrite L, !mult_INR. set (T := csum (map _ (s_tr s))). set (D := dsum h (s_red s) (vget (at_xyz a))).
    rewrite !cconj_mult. replace (Cinv (RtoC (INR (length (s_red s))))) with (RtoC (/ INR (length (s_red s)))) by (apply RtoC_inv; assumption).
    replace (Cinv (RtoC (INR (length (s_tr s))))) with (RtoC (/ INR (length (s_tr s)))) by (apply RtoC_inv; assumption).
    rewrite !cconj_R. unfold Rdiv. replace (INR 2) with 2 by (cbn; ring).
    replace (/ (2 * INR (length (s_tr s)) * INR (length (s_red s)))) with (/ 2 * / INR (length (s_tr s)) * / INR (length (s_red s))) by (field; auto).
    replace (5 * / 10) with (/ 2) by field. rewrite !RtoC_mult. ring.
  - rewrite <- csum_scal. apply csum_ext. intros a Ha. rewrite (fa_iso h s uc (mu a) a (Hi a Ha)).
    rewrite dsum_tr by assumption. rewrite pr3_phase by assumption. rewrite !cdiv_scal.
    rewrite L, !mult_INR. set (T := csum (map _ (s_tr s))). set (D := dsum h (s_red s) (vget (at_xyz a))).
    replace (Cinv (RtoC (INR (length (s_red s))))) with (RtoC (/ INR (length (s_red s)))) by (apply RtoC_inv; assumption).
    replace (Cinv (RtoC (INR (length (s_tr s))))) with (RtoC (/ INR (length (s_tr s)))) by (apply RtoC_inv; assumption).
    unfold Rdiv. replace (INR 1) with 1 by reflexivity.
    replace (/ (1 * INR (length (s_tr s)) * INR (length (s_red s)))) with (/ INR (length (s_tr s)) * / INR (length (s_red s))) by (field; auto).
    rewrite !RtoC_mult. ring.
Qed.
