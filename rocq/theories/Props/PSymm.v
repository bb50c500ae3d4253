(** Property theorems C12-C20 (symmetry_elements.py). *)
From Coq Require Import Reals ZArith List Lra Lia Znumtheory.
From Verif Require Import Spec.Lin3 Spec.Symm Spec.Cell Model.MatrixOps Model.UnitCell Model.Symmetry
  Proofs.SymmBaseP Proofs.SymmGroupP Proofs.SymmGridP Proofs.SymmExP.
Import ListNotations.
Open Scope R_scope.

(** * C12: sum_b_elems adds translations modulo 1 and returns a reduced fraction *)
Theorem C12_sum_value : forall b1 d1 b2 d2, (0 < d1)%Z -> (0 < d2)%Z ->
  same_point (frac (fst (sum_b_elems b1 d1 b2 d2)) (snd (sum_b_elems b1 d1 b2 d2)))
             (fun i => frac b1 d1 i + frac b2 d2 i).
Proof. exact sum_b_value. Qed.
Print Assumptions C12_sum_value.
Theorem C12_sum_reduced : forall b1 d1 b2 d2, (0 < d1)%Z -> (0 < d2)%Z ->
  let r := sum_b_elems b1 d1 b2 d2 in
  (0 < snd r)%Z /\ (forall i, 0 <= vget (fst r) i < snd r)%Z /\
  (forall k, (0 < k)%Z -> (k | snd r)%Z -> (forall i, (k | vget (fst r) i)%Z) -> k = 1%Z).
Proof. exact sum_b_reduced. Qed.
Print Assumptions C12_sum_reduced.
(** 1/2 + 2/3 (x), 3/4 + 1/3 (y), 0 (z) *)
Example C12_case : sum_b_elems (mkV 6 9 0)%Z 12 (mkV 2 1 0)%Z 3 = (mkV 2 1 0, 12)%Z.
Proof. reflexivity. Qed.

(** * C13: sum_elem_symm_b.  Exact when both denominators are powers of one prime (or, more generally, when
    the component gcds form a divisibility chain); wrong otherwise. *)
Theorem C13_sum_exact_partial : forall b1 d1 b2 d2, (0 < d1)%Z -> (0 < d2)%Z ->
  (forall i j, (Z.gcd (vget b1 i * d2 + vget b2 i * d1) (d1 * d2) | Z.gcd (vget b1 j * d2 + vget b2 j * d1) (d1 * d2))%Z \/
               (Z.gcd (vget b1 j * d2 + vget b2 j * d1) (d1 * d2) | Z.gcd (vget b1 i * d2 + vget b2 i * d1) (d1 * d2))%Z) ->
  let r := sum_elem_symm_b b1 d1 b2 d2 in
  (0 < snd r)%Z /\ forall i, frac (fst r) (snd r) i = frac b1 d1 i + frac b2 d2 i.
Proof. exact sum_elem_ok. Qed.
Print Assumptions C13_sum_exact_partial.
Theorem C13_sum_prime_power_partial : forall b1 d1 b2 d2 p k, (0 < d1)%Z -> (0 < d2)%Z ->
  prime p -> (0 <= k)%Z -> (d1 * d2 = p ^ k)%Z ->
  let r := sum_elem_symm_b b1 d1 b2 d2 in
  (0 < snd r)%Z /\ forall i, frac (fst r) (snd r) i = frac b1 d1 i + frac b2 d2 i.
Proof. exact sum_elem_prime. Qed.
Print Assumptions C13_sum_prime_power_partial.
Example C13_case : prime 2 /\ (2 * 4 = 2 ^ 3)%Z /\ sum_elem_symm_b (mkV 1 1 0)%Z 2 (mkV 1 0 3)%Z 4 = (mkV 3 2 3, 4)%Z.
Proof. split; [exact prime_2|]. split; reflexivity. Qed.
Theorem C13_sum_refuted : exists b1 d1 b2 d2, (0 < d1)%Z /\ (0 < d2)%Z /\
  let r := sum_elem_symm_b b1 d1 b2 d2 in ~ same_point (frac (fst r) (snd r)) (fun i => frac b1 d1 i + frac b2 d2 i).
Proof. exact sum_elem_refuted. Qed.
Print Assumptions C13_sum_refuted.

(** * C14: site symmetry *)
Theorem C14_position_fixed : forall e b d, (0 < e_d e)%Z -> (0 < d)%Z ->
  (calc_symm_flags e (AtomPos b d) = true <-> same_point (act e (frac b d)) (frac b d)).
Proof. exact flags_position. Qed.
Print Assumptions C14_position_fixed.
(** with directions of free displacement: fixed for every value of the free parameters u *)
Theorem C14_family_fixed : forall e a, (0 < e_d e)%Z -> (0 < e_d a)%Z ->
  (calc_symm_flags e (AtomFull a) = true <-> forall u, same_point (act e (act a u)) (act a u)).
Proof. exact flags_family. Qed.
Print Assumptions C14_family_fixed.
Example C14_case : calc_symm_flags op_glide (AtomPos (mkV 1 5 1)%Z 20) = true /\ calc_symm_flags op_glide (AtomPos (mkV 1 6 1)%Z 20) = false.
Proof. split; reflexivity. Qed.

(** * C15: multiplicity is the size of the orbit *)
Theorem C15_multiplicity_is_orbit_size : forall l b d, symmetry_group l -> (0 < d)%Z ->
  exists pts : list (ix -> R),
    (forall p, In p pts -> exists e, In e l /\ p = act e (frac b d)) /\
    ForallOrdPairs (fun p q => ~ same_point p q) pts /\
    (forall e, In e l -> exists p, In p pts /\ same_point (act e (frac b d)) p) /\
    calc_multiplicity l (AtomPos b d) = length pts.
Proof. exact multiplicity_position. Qed.
Print Assumptions C15_multiplicity_is_orbit_size.
Theorem C15_multiplicity_family : forall l a, symmetry_group l -> (0 < e_d a)%Z ->
  exists orbit, (forall f, In f orbit -> In f l) /\
    ForallOrdPairs (fun e f => ~ forall u, same_point (act e (act a u)) (act f (act a u))) orbit /\
    (forall e, In e l -> exists f, In f orbit /\ forall u, same_point (act e (act a u)) (act f (act a u))) /\
    calc_multiplicity l (AtomFull a) = length orbit.
Proof. exact multiplicity_family. Qed.
Print Assumptions C15_multiplicity_family.
Example C15_group_exists : symmetry_group p21m.
Proof. exact p21m_group. Qed.
Example C15_case : calc_multiplicity p21m (AtomPos (mkV 1 5 1)%Z 20) = 2%nat /\ calc_multiplicity p21m (AtomPos (mkV 1 2 3)%Z 7) = 4%nat.
Proof. split; reflexivity. Qed.

(** * C16: asymmetric unit of the grid *)
Theorem C16_asymmetric_unit : forall n l, (forall i, (0 < vget n i)%Z) -> symmetry_group l ->
  (forall e, In e l -> grid_compatible n e) ->
  exists out, calc_asymmetric_unit_cell_indexes n l = Some out /\
    (forall r c, In (r, c) out -> in_grid n r /\
       exists cls, NoDup cls /\ length cls = c /\ forall q, In q cls <-> in_grid n q /\ grid_equivalent n l r q) /\
    (forall p, in_grid n p -> exists r c, In (r, c) out /\ grid_equivalent n l r p) /\
    (forall r r' c c', In (r, c) out -> In (r', c') out -> grid_equivalent n l r r' -> r = r' /\ c = c') /\
    NoDup (map fst out) /\
    sum_nat (map snd out) = (Z.to_nat (v_1 n) * Z.to_nat (v_2 n) * Z.to_nat (v_3 n))%nat.
Proof. exact asym_spec. Qed.
Print Assumptions C16_asymmetric_unit.
Example C16_hypotheses_met : (forall i, (0 < vget (mkV 4 6 10)%Z i)%Z) /\ symmetry_group p21m /\ forall e, In e p21m -> grid_compatible (mkV 4 6 10)%Z e.
Proof. split; [intros []; reflexivity|]. split; [exact p21m_group|exact p21m_compatible]. Qed.
Example C16_case : exists o, calc_asymmetric_unit_cell_indexes (mkV 2 4 2)%Z p21m = Some o /\ length o = 8%nat.
Proof. exact p21m_asym. Qed.

(** * C17: action on grid indices *)
Theorem C17_image_in_range : forall e p n, (forall i, (0 < vget n i)%Z) -> in_grid n (apply_symm_elem_to_index e p n).
Proof. exact apply_in_grid. Qed.
Print Assumptions C17_image_in_range.
Theorem C17_image_exact : forall e p n, (forall i, (0 < vget n i)%Z) -> grid_compatible n e ->
  same_point (grid_fract n (apply_symm_elem_to_index e p n)) (act e (grid_fract n p)).
Proof. exact apply_exact. Qed.
Print Assumptions C17_image_exact.
Theorem C17_injective : forall e f p q n, (forall i, (0 < vget n i)%Z) -> grid_compatible n e ->
  (forall x, same_point (act f (act e x)) x) -> in_grid n p -> in_grid n q ->
  apply_symm_elem_to_index e p n = apply_symm_elem_to_index e q n -> p = q.
Proof. exact apply_injective. Qed.
Print Assumptions C17_injective.
Example C17_case : grid_compatible (mkV 4 6 10)%Z op_screw /\ (forall x, same_point (act op_screw (act op_screw x)) x) /\
  apply_symm_elem_to_index op_screw (mkV 1 5 3)%Z (mkV 4 6 10)%Z = (mkV 3 2 7)%Z.
Proof.
  split; [apply p21m_compatible; cbn; tauto|]. split; [|reflexivity].
  intros x []; [exists 0%Z|exists 1%Z|exists 0%Z]; unfold act, sum3; cbn; lra.
Qed.

(** * C18: expansion of the reduced list *)
Theorem C18_length : forall red c cp ts,
  length (calc_full_symm_elems_by_reduced red c cp ts) = ((if c then 2 else 1) * length ts * length red)%nat.
Proof. exact full_length. Qed.
Print Assumptions C18_length.
Theorem C18_exactly_the_products : forall red c cp ts, (0 < snd cp)%Z ->
  (forall e, In e red -> (0 < e_d e)%Z) -> (forall t, In t ts -> (0 < snd t)%Z) ->
  let product (s : bool) (te : V3 Z * Z) (e f : Op) :=
    forall x, same_point (act f x) (fun i =>
      let y := act e x i + frac (fst te) (snd te) i in if s then 2 * frac (fst cp) (snd cp) i - y else y) in
  (forall f, In f (calc_full_symm_elems_by_reduced red c cp ts) ->
     (0 < e_d f)%Z /\ exists s te e, (s = true -> c = true) /\ In te ts /\ In e red /\ product s te e f) /\
  (forall s te e, (s = true -> c = true) -> In te ts -> In e red ->
     exists f, In f (calc_full_symm_elems_by_reduced red c cp ts) /\ product s te e f).
Proof. exact full_products. Qed.
Print Assumptions C18_exactly_the_products.
Example C18_case : calc_full_symm_elems_by_reduced [op_id; op_screw] true (mkV 1 0 0, 4)%Z [(mkV 0 0 0, 1); (mkV 1 1 1, 2)]%Z =
  [op_id; op_screw; mkE (mkV 1 1 1) 2 (e_r op_id); mkE (mkV 1 0 1) 2 (e_r op_screw);
   mkE (mkV 1 0 0) 2 (e_r op_inv); mkE (mkV 1 1 0) 2 (e_r op_glide); mkE (mkV 0 1 1) 2 (e_r op_inv); mkE (mkV 0 0 1) 2 (e_r op_glide)]%Z.
Proof. reflexivity. Qed.

(** * C19: magnetic operations times centrings.  The composition is right when the rotations commute and the
    translation sum is exact (C13); in general neither composition order is obtained. *)
Theorem C19_all_pairs : forall os cs r, In r (calc_full_mag_elems os cs) <-> exists o c, In o os /\ In c cs /\ r = mag_compose o c.
Proof. exact full_mag_in. Qed.
Print Assumptions C19_all_pairs.
Theorem C19_composition_partial : forall eo to ec tc, (0 < e_d eo)%Z -> (0 < e_d ec)%Z ->
  z_m1_m2 (e_r eo) (e_r ec) = z_m1_m2 (e_r ec) (e_r eo) ->
  gcd_chain (z_m_v (e_r ec) (e_b eo)) (e_d eo) (e_b ec) (e_d ec) ->
  is_composition (fst (mag_compose (eo, to) (ec, tc))) ec eo /\ snd (mag_compose (eo, to) (ec, tc)) = (to * tc)%Z.
Proof. exact mag_compose_ok. Qed.
Print Assumptions C19_composition_partial.
(** the usual case: a centring is a pure translation, and denominators are powers of one prime *)
Theorem C19_pure_translation_centring_partial : forall eo to ec tc p k, (0 < e_d eo)%Z -> (0 < e_d ec)%Z ->
  e_r ec = (mkM 1 0 0 0 1 0 0 0 1)%Z -> prime p -> (0 <= k)%Z -> (e_d eo * e_d ec = p ^ k)%Z ->
  is_composition (fst (mag_compose (eo, to) (ec, tc))) ec eo /\ snd (mag_compose (eo, to) (ec, tc)) = (to * tc)%Z.
Proof. exact mag_centring. Qed.
Print Assumptions C19_pure_translation_centring_partial.
Example C19_case : mag_compose (op_screw, (-1)%Z) (mkE (mkV 1 1 1) 2 (mkM 1 0 0 0 1 0 0 0 1), (-1))%Z = (mkE (mkV 1 2 1) 2 (e_r op_screw), 1)%Z.
Proof. reflexivity. Qed.
Theorem C19_composition_refuted : exists eo ec, (0 < e_d eo)%Z /\ (0 < e_d ec)%Z /\
  ~ is_composition (fst (mag_compose (eo, 1%Z) (ec, 1%Z))) ec eo /\ ~ is_composition (fst (mag_compose (eo, 1%Z) (ec, 1%Z))) eo ec.
Proof. exact mag_refuted. Qed.
Print Assumptions C19_composition_refuted.

(** * C20: equivalent reflections *)
Theorem C20_rows : forall h e i, IZR (vget (hkl_r h e) i) = sum3 (fun k => IZR (vget h k) * IZR (mget (e_r e) k i)).
Proof. exact hkl_r_spec. Qed.
Print Assumptions C20_rows.
Theorem C20_members : forall h red c h', In h' (calc_equivalent_reflections h red c) <->
  exists e, In e red /\ (h' = hkl_r h e \/ (c = true /\ forall i, vget h' i = (- vget (hkl_r h e) i)%Z)).
Proof. exact equivalent_members. Qed.
Print Assumptions C20_members.
Theorem C20_same_d : forall h red c uc, nondegenerate uc ->
  (forall e, In e red -> forall i j,
     sum3 (fun k => sum3 (fun l => IZR (mget (e_r e) k i) * metric uc k l * IZR (mget (e_r e) l j))) = metric uc i j) ->
  forall h', In h' (calc_equivalent_reflections h red c) -> calc_inv_d (vR h') uc = calc_inv_d (vR h) uc.
Proof. exact equivalent_d. Qed.
Print Assumptions C20_same_d.
(** a monoclinic cell is invariant under the operations of P2_1/m *)
Example C20_hypotheses_met : nondegenerate (mkU 3 4 5 (PI / 2) (PI / 3) (PI / 2)) /\
  forall e, In e p21m -> metric_invariant (mkU 3 4 5 (PI / 2) (PI / 3) (PI / 2)) e.
Proof. exact mono_invariant. Qed.
Example C20_case : calc_equivalent_reflections (mkV 1 2 3)%Z [op_id; op_screw] true = [mkV 1 2 3; mkV (-1) 2 (-3); mkV (-1) (-2) (-3); mkV 1 (-2) 3]%Z.
Proof. reflexivity. Qed.
