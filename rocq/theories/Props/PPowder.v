(** C41-C43: powder intensities (Model/PowderInt.v, vocabulary in Spec/Powder.v). *)
From Coq Require Import Reals Lra Bool List.
From Coquelicot Require Import Coquelicot.
From Verif Require Import Spec.Lin3 Model.FlipRatio Model.PowderInt Spec.Intens Spec.Powder Proofs.PowderIntP Proofs.PowderDerivP.
Open Scope R_scope.

(** The average of the single-crystal intensities (as calc_iint of flip_ratio.py gives them) over the rotation of the crystallite
    about the scattering vector. *)
Theorem C41_2d_para : forall e f, balanced e ->
  pip (calc_powder_iint_2d_para f e) = avg_plus e (e Alpha) (para e) /\ pim (calc_powder_iint_2d_para f e) = avg_minus e (e Alpha) (para e).
Proof. exact (fun e f B => conj (avg_para_plus e f B) (avg_para_minus e f B)). Qed.
Print Assumptions C41_2d_para.
Theorem C41_2d_ordered : forall e f,
  pip (calc_powder_iint_2d_ordered f e) = avg_plus e (e Alpha) (ord e) /\ pim (calc_powder_iint_2d_ordered f e) = avg_minus e (e Alpha) (ord e).
Proof. exact (fun e f => conj (avg_ord_plus e f) (avg_ord_minus e f)). Qed.
Print Assumptions C41_2d_ordered.
Theorem C41_2d_mix_plus : forall e, balanced e -> fst (calc_powder_iint_2d_mix e) = avg_plus e (e Alpha) (mix e).
Proof. exact avg_mix_plus. Qed.
Print Assumptions C41_2d_mix_plus.
(** The minus channel is off by a term in the chiral mixed product m_3 ... *)
Theorem C41_2d_mix_minus_partial : forall e, balanced e -> snd (calc_powder_iint_2d_mix e) =
  avg_minus e (e Alpha) (mix e) - 2 * (e Pol * (2 * e Flip - 1)) * e Field * fst (calc_chiral_term_cos_sq_mix false false e) * Rsqr (sin (e Alpha)).
Proof. exact avg_mix_minus_err. Qed.
Print Assumptions C41_2d_mix_minus_partial.
(** ... so it is not the average in general. *)
Theorem C41_2d_mix_minus_refuted : exists e, balanced e /\ snd (calc_powder_iint_2d_mix e) <> avg_minus e (e Alpha) (mix e).
Proof. exact mix_minus_ex. Qed.
Print Assumptions C41_2d_mix_minus_refuted.
Theorem C41_1d_para : forall f e, balanced e ->
  pip (calc_powder_iint_1d_para f e) = avg_plus e (PI/2) (para e) /\ pim (calc_powder_iint_1d_para f e) = avg_minus e (PI/2) (para e).
Proof. exact avg_1d_para. Qed.
Print Assumptions C41_1d_para.
Theorem C41_1d_ordered : forall g h e,
  fst (calc_powder_iint_1d_ordered g h e) = avg_plus e (PI/2) (ord e) /\ fst (calc_powder_iint_1d_ordered g h e) = avg_minus e (PI/2) (ord e).
Proof. exact avg_1d_ord. Qed.
Print Assumptions C41_1d_ordered.
(** 1d with both sublattices: the minus channel has the wrong sign of m_2 (which vanishes for symmetric tensors). *)
Theorem C41_1d_mix_partial : forall f e p m d d', balanced e -> calc_powder_iint_1d_mix f e = Some (p, m, d, d') ->
  p = avg_plus e (PI/2) (mix e) /\
  m = avg_minus e (PI/2) (mix e) + 2 * (e Pol * (2 * e Flip - 1)) * e Field * fst (calc_chiral_term_sin_sq_mix false false e).
Proof. exact avg_1d_mix. Qed.
Print Assumptions C41_1d_mix_partial.
Theorem C41_1d_mix_minus_refuted : exists e p m d d', balanced e /\
  calc_powder_iint_1d_mix (mkPF false false false false false false) e = Some (p, m, d, d') /\ m <> avg_minus e (PI/2) (mix e).
Proof. exact mix_1d_minus_ex. Qed.
Print Assumptions C41_1d_mix_minus_refuted.
(** For a tensor with |sigma_12| <> |sigma_21| the term p_1 is not the average. *)
Theorem C41_unsymmetric_tensor_refuted : exists e f, pip (calc_powder_iint_2d_para f e) <> avg_plus e (e Alpha) (para e).
Proof. exact unbalanced_ex. Qed.
Print Assumptions C41_unsymmetric_tensor_refuted.
Example C41_case : let e := fun v => match v with Sg X1 X2 Re | Sg X2 X1 Re => 3 | Sg X1 X1 Im => 2 | Fn Re => 5 | Pol => 9/10 | Flip => 1 | Field => 2 | Alpha => 1 | _ => 1 end in
  balanced e.
Proof. unfold balanced. cbn. lra. Qed.

Theorem C42_para : forall f e, e Alpha = PI / 2 ->
  pip (calc_powder_iint_1d_para f e) = pip (calc_powder_iint_2d_para f e) /\ pim (calc_powder_iint_1d_para f e) = pim (calc_powder_iint_2d_para f e).
Proof. exact para_1d_2d. Qed.
Print Assumptions C42_para.
Theorem C42_ordered : forall g h f e, e Alpha = PI / 2 ->
  fst (calc_powder_iint_1d_ordered g h e) = pip (calc_powder_iint_2d_ordered f e) /\
  fst (calc_powder_iint_1d_ordered g h e) = pim (calc_powder_iint_2d_ordered f e).
Proof. exact ord_1d_2d. Qed.
Print Assumptions C42_ordered.
(** mixed: the plus channels agree, the minus channels differ by the two errors named in C41 *)
Theorem C42_mix_partial : forall f e p m d d', e Alpha = PI / 2 -> calc_powder_iint_1d_mix f e = Some (p, m, d, d') ->
  p = fst (calc_powder_iint_2d_mix e) /\
  m = snd (calc_powder_iint_2d_mix e) + 2 * (e Pol * (2 * e Flip - 1)) * e Field *
      (fst (calc_chiral_term_sin_sq_mix false false e) + fst (calc_chiral_term_cos_sq_mix false false e)).
Proof. exact mix_1d_2d. Qed.
Print Assumptions C42_mix_partial.

(** Derivative entries of the terms. *)
Theorem C43_para_terms : forall g h e,
  right (fun e => fst (calc_m_sq_sin_sq_para g e)) e (snd (calc_m_sq_sin_sq_para g e)) /\
  right (fun e => fst (calc_m_sq_cos_sq_para g e)) e (snd (calc_m_sq_cos_sq_para g e)) /\
  right (fun e => fst (calc_cross_term_para g h e)) e (snd (calc_cross_term_para g h e)) /\
  right (fun e => fst (calc_chiral_term_cos_sin_sq_para g e)) e (snd (calc_chiral_term_cos_sin_sq_para g e)) /\
  right (fun e => fst (calc_chiral_term_cos_cube_para g e)) e (snd (calc_chiral_term_cos_cube_para g e)).
Proof. exact (fun g h e => conj (d_p1 g e) (conj (d_p2 g e) (conj (d_p3 g h e) (conj (d_p4 g e) (d_p5 g e))))). Qed.
Print Assumptions C43_para_terms.
Theorem C43_ordered_terms : forall g h e,
  right (fun e => fst (calc_cross_term_ordered g h e)) e (snd (calc_cross_term_ordered g h e)) /\
  right (fun e => fst (calc_chiral_term_ordered g e)) e (snd (calc_chiral_term_ordered g e)).
Proof. exact (fun g h e => conj (d_o1 g h e) (d_o2 g e)). Qed.
Print Assumptions C43_ordered_terms.
Theorem C43_mix_terms_partial : forall g h e,
  right_but (same (Fm X2 Im)) (fun e => fst (calc_m_sq_mix g h e)) e (snd (calc_m_sq_mix g h e)) /\
  right_but (same (Fm X3 Im)) (fun e => fst (calc_chiral_term_sin_sq_mix g h e)) e (snd (calc_chiral_term_sin_sq_mix g h e)) /\
  right_but sig_13_23 (fun e => fst (calc_chiral_term_cos_sq_mix g h e)) e (snd (calc_chiral_term_cos_sq_mix g h e)).
Proof. exact (fun g h e => conj (d_m1 g h e) (conj (d_m2 g h e) (d_m3 g h e))). Qed.
Print Assumptions C43_mix_terms_partial.
Theorem C43_m_sq_mix_refuted : forall g e, e (Sg X1 X3 Im) <> e (Sg X2 X3 Im) ->
  ~ right (fun e => fst (calc_m_sq_mix g true e)) e (snd (calc_m_sq_mix g true e)).
Proof. exact w_m1. Qed.
Print Assumptions C43_m_sq_mix_refuted.
Theorem C43_chiral_sin_sq_mix_refuted : forall g e, e (Sg X2 X1 Re) <> 0 ->
  ~ right (fun e => fst (calc_chiral_term_sin_sq_mix g true e)) e (snd (calc_chiral_term_sin_sq_mix g true e)).
Proof. exact w_m2. Qed.
Print Assumptions C43_chiral_sin_sq_mix_refuted.
Theorem C43_chiral_cos_sq_mix_refuted : forall h e i p, i <> X3 -> e (Fm i p) <> 0 ->
  ~ right (fun e => fst (calc_chiral_term_cos_sq_mix true h e)) e (snd (calc_chiral_term_cos_sq_mix true h e)).
Proof. exact w_m3. Qed.
Print Assumptions C43_chiral_cos_sq_mix_refuted.
(** Derivative entries of the intensities. *)
Theorem C43_iint_1d_para : forall e f,
  right (fun e => pip (calc_powder_iint_1d_para f e)) e (pdp (calc_powder_iint_1d_para f e)) /\
  right (fun e => pim (calc_powder_iint_1d_para f e)) e (pdm (calc_powder_iint_1d_para f e)).
Proof. exact d_1d_para. Qed.
Print Assumptions C43_iint_1d_para.
Theorem C43_iint_2d_para : forall e f,
  right (fun e => pip (calc_powder_iint_2d_para f e)) e (pdp (calc_powder_iint_2d_para f e)) /\
  right (fun e => pim (calc_powder_iint_2d_para f e)) e (pdm (calc_powder_iint_2d_para f e)).
Proof. exact d_2d_para. Qed.
Print Assumptions C43_iint_2d_para.
Theorem C43_iint_1d_ordered : forall g h e,
  right (fun e => fst (calc_powder_iint_1d_ordered g h e)) e (snd (calc_powder_iint_1d_ordered g h e)).
Proof. exact d_1d_ord. Qed.
Print Assumptions C43_iint_1d_ordered.
Theorem C43_iint_2d_ordered_partial : forall e f,
  right_but (fun v => match v with Fn _ => true | _ => false end) (fun e => pip (calc_powder_iint_2d_ordered f e)) e (pdp (calc_powder_iint_2d_ordered f e)) /\
  right_but (fun v => match v with Fn _ | Flip => true | _ => false end) (fun e => pim (calc_powder_iint_2d_ordered f e)) e (pdm (calc_powder_iint_2d_ordered f e)).
Proof. exact d_2d_ord. Qed.
Print Assumptions C43_iint_2d_ordered_partial.
Theorem C43_iint_2d_ordered_f_nucl_refuted : forall f e p, pf_fn f = true -> e (Fm X3 p) <> 0 -> e Pol <> 0 -> cos (e Alpha) <> 0 ->
  ~ right (fun e => pip (calc_powder_iint_2d_ordered f e)) e (pdp (calc_powder_iint_2d_ordered f e)).
Proof. exact w_2d_ord_fn. Qed.
Print Assumptions C43_iint_2d_ordered_f_nucl_refuted.
Theorem C43_iint_2d_ordered_flipper_refuted : forall f e, pf_flip f = true -> e Pol <> 0 -> cos (e Alpha) <> 0 ->
  fst (calc_cross_term_ordered false false e) + fst (calc_chiral_term_ordered false e) <> 0 ->
  ~ right (fun e => pim (calc_powder_iint_2d_ordered f e)) e (pdm (calc_powder_iint_2d_ordered f e)).
Proof. exact w_2d_ord_flip. Qed.
Print Assumptions C43_iint_2d_ordered_flipper_refuted.
Theorem C43_iint_1d_mix_partial : forall e f, pf_flip f = false -> pf_field f = false ->
  exists d d', (forall e', mix1 f e' <> None) /\ calc_powder_iint_1d_mix f e = Some (mixp f e, mixm f e, d, d') /\
    right_but (same (Fm X3 Im)) (mixp f) e d /\ right_but (same (Fm X3 Im)) (mixm f) e d'.
Proof. exact d_1d_mix. Qed.
Print Assumptions C43_iint_1d_mix_partial.
(** Asking for the flipper or field derivative raises KeyError. *)
Theorem C43_iint_1d_mix_raises_refuted : forall e f, pf_flip f = true \/ pf_field f = true -> calc_powder_iint_1d_mix f e = None.
Proof. exact mix_1d_none. Qed.
Print Assumptions C43_iint_1d_mix_raises_refuted.
(** The requested entries are there ... *)
Theorem C43_requested_para_terms : forall g h e i j p,
  snd (calc_m_sq_sin_sq_para true e) (Sg i j p) <> None /\ snd (calc_m_sq_cos_sq_para true e) (Sg i j p) <> None /\
  snd (calc_cross_term_para g true e) (Sg i j p) <> None /\ snd (calc_cross_term_para true h e) (Fn p) <> None /\
  snd (calc_chiral_term_cos_sin_sq_para true e) (Sg i j p) <> None /\ snd (calc_chiral_term_cos_cube_para true e) (Sg i j p) <> None.
Proof. exact present_para. Qed.
Print Assumptions C43_requested_para_terms.
Theorem C43_requested_other_terms : forall g h e i j p,
  snd (calc_cross_term_ordered g true e) (Fm i p) <> None /\ snd (calc_cross_term_ordered true h e) (Fn p) <> None /\
  snd (calc_chiral_term_ordered true e) (Fm i p) <> None /\
  snd (calc_m_sq_mix true h e) (Sg i j p) <> None /\ snd (calc_m_sq_mix g true e) (Fm i p) <> None /\
  snd (calc_chiral_term_sin_sq_mix true h e) (Sg i j p) <> None /\ snd (calc_chiral_term_sin_sq_mix g true e) (Fm i p) <> None /\
  snd (calc_chiral_term_cos_sq_mix true h e) (Sg i j p) <> None /\ snd (calc_chiral_term_cos_sq_mix g true e) (Fm i p) <> None.
Proof. exact present_mix. Qed.
Print Assumptions C43_requested_other_terms.
Theorem C43_requested_1d_para : forall f e i j p (d : pdict),
  In d (pdp (calc_powder_iint_1d_para f e) :: pdm (calc_powder_iint_1d_para f e) :: nil) ->
  (pf_fn f = true -> d (Fn p) <> None) /\ (pf_sg f = true -> d (Sg i j p) <> None) /\ (pf_pol f = true -> d Pol <> None) /\
  (pf_flip f = true -> pdm (calc_powder_iint_1d_para f e) Flip <> None).
Proof. exact present_iint. Qed.
Print Assumptions C43_requested_1d_para.
(** ... but the mixed intensity never gives the derivative for the imaginary part of the nuclear structure factor. *)
Theorem C43_iint_1d_mix_missing_refuted : forall f e p m d d', calc_powder_iint_1d_mix f e = Some (p, m, d, d') -> d (Fn Im) = None /\ d' (Fn Im) = None.
Proof. exact mix_no_imag. Qed.
Print Assumptions C43_iint_1d_mix_missing_refuted.
