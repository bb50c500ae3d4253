From Coq Require Import Reals Lra Psatz Bool List String.
From Coquelicot Require Import Coquelicot.
From Verif Require Import Model.Extinction Proofs.ExtinctionP.
Open Scope R_scope.

Lemma inv_sqrt_d (D : R -> R) (t dD : R) : is_derive D t dD -> 0 < D t ->
  is_derive (fun t => val (inv_sqrt (D t))) t ((- (5/10)) * (val (inv_sqrt (D t))) ^ 3 * dD).
Proof.
  intros H P.
  assert (E : val (inv_sqrt (D t)) = 1 / sqrt (D t)) by (unfold inv_sqrt; destruct (Rlt_dec 0 (D t)); [reflexivity|lra]).
  rewrite E.
  apply is_derive_ext_loc with (f := fun t => 1 / sqrt (D t)).
  - assert (C : continuous D t) by (apply (ex_derive_continuous (V := R_NormedModule)); eexists; exact H).
    assert (L : locally (D t) (fun y => 0 < y)) by (apply (open_gt 0); exact P).
    assert (Q := C _ L). unfold filtermap in Q. revert Q. apply filter_imp. intros x Hx. unfold inv_sqrt. destruct (Rlt_dec 0 (D x)); [reflexivity|contradiction].
  - assert (S : 0 < sqrt (D t)) by (apply sqrt_lt_R0; exact P). assert (Q := sqrt_sqrt (D t) ltac:(lra)).
    auto_derive. { split; [eexists; exact H|]. split; [exact P|]. split; [lra|exact I]. }
    replace (Derive (fun x => D x) t) with dD by (symmetry; apply is_derive_unique; exact H).
    unfold Rdiv. field. lra.
Qed.
Lemma den_d (A B x : R -> R) (k t dA dB dx : R) : is_derive A t dA -> is_derive B t dB -> is_derive x t dx -> 1 + B t * x t <> 0 ->
  is_derive (fun t => ext_den k (A t) (B t) (x t)) t
    (k * dx + (dA * Rsqr (x t) + 2 * A t * x t * dx) / (1 + B t * x t) - A t * Rsqr (x t) * (dB * x t + B t * dx) / Rsqr (1 + B t * x t)).
Proof.
  intros HA HB Hx N. unfold ext_den, Rsqr. auto_derive. { repeat split; try (eexists; eauto). exact N. }
  replace (Derive (fun x0 => A x0) t) with dA by (symmetry; apply is_derive_unique; exact HA).
  replace (Derive (fun x0 => B x0) t) with dB by (symmetry; apply is_derive_unique; exact HB).
  replace (Derive (fun x0 => x x0) t) with dx by (symmetry; apply is_derive_unique; exact Hx).
  field. exact N.
Qed.
Lemma is_derive_eq (f : R -> R) (x d1 d2 : R) : is_derive f x d1 -> d1 = d2 -> is_derive f x d2.
Proof. intros H <-. exact H. Qed.
(* A, B fixed *)
Lemma y_x_d k A B (x : R -> R) (t dx : R) : is_derive x t dx -> 1 + B * x t <> 0 -> 0 < ext_den k A B (x t) ->
  is_derive (fun t => val (inv_sqrt (ext_den k A B (x t)))) t (der_y_x k A B (x t) (val (inv_sqrt (ext_den k A B (x t)))) * dx).
Proof.
  intros Hx N P. eapply is_derive_eq.
  - apply (inv_sqrt_d (fun t => ext_den k A B (x t))); [apply (den_d (fun _ => A) (fun _ => B) x k t 0 0 dx); [apply @is_derive_const|apply @is_derive_const|exact Hx|exact N]|exact P].
  - unfold der_y_x, Rsqr. cbn beta. field. exact N.
Qed.

Section Primary.
Variables (f r v c w mo : R).
Let cr := mkX r mo v c w.
Hypothesis V : v <> 0.
Let x := prim_x f cr.
Hypothesis N : 1 + prim_B c * x <> 0.
Hypothesis P : 0 < ext_den 2 (prim_A c) (prim_B c) x.
Let y g c' := val (calc_extinction_sphere_primary g c').
Let d := calc_extinction_sphere_primary_dder f cr.
Lemma prim_d_f : is_derive (fun t => y t cr) f (ed_f_sq d).
Proof.
  eapply is_derive_eq; [apply (y_x_d 2 (prim_A c) (prim_B c) (fun t => prim_x t cr) f); [unfold prim_x; auto_derive; [exact I|reflexivity]|exact N|exact P]|].
  unfold d, calc_extinction_sphere_primary_dder, calc_extinction_sphere_primary, cr. cbn [ed_f_sq ed_radius ed_wavelength ed_volume ed_cos x_radius x_volume x_cos x_wavelength x_mosaicity]. ring.
Qed.
Lemma prim_d_r : is_derive (fun t => y f (mkX t mo v c w)) r (ed_radius d).
Proof.
  eapply is_derive_eq; [apply (y_x_d 2 (prim_A c) (prim_B c) (fun t => prim_x f (mkX t mo v c w)) r); [unfold prim_x, Rsqr; cbn; auto_derive; [exact I|reflexivity]|exact N|exact P]|].
  unfold d, calc_extinction_sphere_primary_dder, calc_extinction_sphere_primary, cr. cbn [ed_f_sq ed_radius ed_wavelength ed_volume ed_cos x_radius x_volume x_cos x_wavelength x_mosaicity]. generalize (der_y_x 2 (prim_A c) (prim_B c) (prim_x f (mkX r mo v c w)) (val (inv_sqrt (ext_den 2 (prim_A c) (prim_B c) (prim_x f (mkX r mo v c w)))))). intros D. unfold Rsqr, Rdiv. field. exact V.
Qed.
Lemma prim_d_w : is_derive (fun t => y f (mkX r mo v c t)) w (ed_wavelength d).
Proof.
  eapply is_derive_eq; [apply (y_x_d 2 (prim_A c) (prim_B c) (fun t => prim_x f (mkX r mo v c t)) w); [unfold prim_x, Rsqr; cbn; auto_derive; [exact I|reflexivity]|exact N|exact P]|].
  unfold d, calc_extinction_sphere_primary_dder, calc_extinction_sphere_primary, cr. cbn [ed_f_sq ed_radius ed_wavelength ed_volume ed_cos x_radius x_volume x_cos x_wavelength x_mosaicity]. generalize (der_y_x 2 (prim_A c) (prim_B c) (prim_x f (mkX r mo v c w)) (val (inv_sqrt (ext_den 2 (prim_A c) (prim_B c) (prim_x f (mkX r mo v c w)))))). intros D. unfold Rsqr, Rdiv. field. exact V.
Qed.
Lemma prim_d_v : is_derive (fun t => y f (mkX r mo t c w)) v (ed_volume d).
Proof.
  eapply is_derive_eq; [apply (y_x_d 2 (prim_A c) (prim_B c) (fun t => prim_x f (mkX r mo t c w)) v); [unfold prim_x, Rsqr; cbn; auto_derive; [auto|reflexivity]|exact N|exact P]|].
  unfold d, calc_extinction_sphere_primary_dder, calc_extinction_sphere_primary, cr. cbn [ed_f_sq ed_radius ed_wavelength ed_volume ed_cos x_radius x_volume x_cos x_wavelength x_mosaicity]. generalize (der_y_x 2 (prim_A c) (prim_B c) (prim_x f (mkX r mo v c w)) (val (inv_sqrt (ext_den 2 (prim_A c) (prim_B c) (prim_x f (mkX r mo v c w)))))). intros D. unfold Rsqr, Rdiv. field. exact V.
Qed.
Lemma prim_d_c : is_derive (fun t => y f (mkX r mo v t w)) c (ed_cos d).
Proof.
  eapply is_derive_eq.
  - apply (inv_sqrt_d (fun t => ext_den 2 (prim_A t) (prim_B t) x)); [apply (den_d prim_A prim_B (fun _ => x) 2 c (45/100) ((24/100) * ((5/10) - c)) 0)|exact P].
    + unfold prim_A. auto_derive; [exact I|field].
    + unfold prim_B. auto_derive; [exact I|field].
    + apply @is_derive_const.
    + exact N.
  - unfold d, calc_extinction_sphere_primary_dder, y, calc_extinction_sphere_primary, cr. cbn [ed_f_sq ed_radius ed_wavelength ed_volume ed_cos x_radius x_volume x_cos x_wavelength x_mosaicity]. fold cr. fold x. generalize (val (inv_sqrt (ext_den 2 (prim_A c) (prim_B c) x))). intros Y. unfold Rsqr. field. exact N.
Qed.
End Primary.

(** secondary corrections *)
Section Secondary.
Variables (f r v c w mo : R).
Let cr := mkX r mo v c w.
Hypothesis V : v <> 0.
Lemma sec_x_df term : is_derive (fun t => sec_x term t cr) f
  (if Rlt_dec 0 (r * mos_rad cr) then (15/10) * w * Rsqr (w * r / v) * term else 0).
Proof.
  unfold sec_x. cbn. fold cr. destruct (Rlt_dec _ _).
  - auto_derive; [exact I|ring].
  - apply @is_derive_const.
Qed.
Lemma gauss_d_f : let x := sec_x (gauss_term cr) f cr in
  1 + gauss_B c * x <> 0 -> 0 < ext_den (212/100) (gauss_A c) (gauss_B c) x ->
  is_derive (fun t => calc_extinction_sphere_secondary_gauss t cr) f (ed_f_sq (calc_extinction_sphere_secondary_gauss_dder f cr)).
Proof.
  intros x N P.
  assert (D := y_x_d (212/100) (gauss_A c) (gauss_B c) (fun t => sec_x (gauss_term cr) t cr) f _ (sec_x_df _) N P).
  assert (EV : val (inv_sqrt (ext_den (212/100) (gauss_A c) (gauss_B c) x)) = calc_extinction_sphere_secondary_gauss f cr).
  { unfold calc_extinction_sphere_secondary_gauss. cbn. fold cr x. unfold inv_sqrt. destruct (Rlt_dec 0 (ext_den _ _ _ _)); [reflexivity|lra]. }
  eapply is_derive_eq; [eapply is_derive_ext_loc; [|exact D]|].
  - assert (C : continuous (fun t => ext_den (212/100) (gauss_A c) (gauss_B c) (sec_x (gauss_term cr) t cr)) f).
    { apply (ex_derive_continuous (V := R_NormedModule)). eexists.
      apply (den_d (fun _ => gauss_A c) (fun _ => gauss_B c) (fun t => sec_x (gauss_term cr) t cr) (212/100) f 0 0); [apply @is_derive_const|apply @is_derive_const|apply sec_x_df|exact N]. }
    assert (Q := C _ (open_gt 0 _ P)). unfold filtermap in Q. revert Q. apply filter_imp. intros t Ht. unfold calc_extinction_sphere_secondary_gauss. cbn. fold cr.
    unfold inv_sqrt. destruct (Rlt_dec 0 (ext_den _ _ _ _)); [reflexivity|]. exfalso; auto.
  - cbn beta. fold x. rewrite EV. unfold calc_extinction_sphere_secondary_gauss_dder. cbn. fold cr x.
    destruct (Rlt_dec 0 (r * mos_rad cr)) as [L|L]; [ring|].
    assert (T : gauss_term cr = 0) by (unfold gauss_term; cbn; fold cr; destruct (Rlt_dec 0 (r * mos_rad cr)); [contradiction|reflexivity]). rewrite T. ring.
Qed.
Lemma lorentz_d_f : let x := sec_x (lorentz_term cr) f cr in
  1 + lorentz_B c * x <> 0 -> 0 < ext_den 2 (lorentz_A c) (lorentz_B c) x ->
  is_derive (fun t => val (calc_extinction_sphere_secondary_lorentz t cr)) f (ed_f_sq (calc_extinction_sphere_secondary_lorentz_dder f cr)).
Proof.
  intros x N P.
  assert (D := y_x_d 2 (lorentz_A c) (lorentz_B c) (fun t => sec_x (lorentz_term cr) t cr) f _ (sec_x_df _) N P).
  eapply is_derive_eq; [exact D|]. cbn beta. fold x. unfold calc_extinction_sphere_secondary_lorentz_dder, calc_extinction_sphere_secondary_lorentz. cbn. fold cr x.
  destruct (Rlt_dec 0 (r * mos_rad cr)) as [L|L]; [ring|].
  assert (T : lorentz_term cr = 0) by (unfold lorentz_term; cbn; fold cr; destruct (Rlt_dec 0 (r * mos_rad cr)); [contradiction|reflexivity]). rewrite T. ring.
Qed.
End Secondary.

(** whole correction, with respect to F^2 *)
Definition sec_val (m : ext_model) (f_sq : R) (c : crystal) : R :=
  match m with M_gauss => calc_extinction_sphere_secondary_gauss f_sq c
  | M_lorentz => val (calc_extinction_sphere_secondary_lorentz f_sq c) | M_other => 1 end.
Lemma sphere_prod m f c : val (calc_extinction_sphere m f c) = val (calc_extinction_sphere_primary f c) * sec_val m f c.
Proof.
  unfold calc_extinction_sphere, sec_val. destruct (calc_extinction_sphere_primary f c) as [p|]; cbn [val]; [|ring].
  destruct m; cbn [val]; try ring. destruct (calc_extinction_sphere_secondary_lorentz f c); cbn [val]; ring.
Qed.
Lemma prod_d (a b : R -> R) (t da db : R) : is_derive a t da -> is_derive b t db -> is_derive (fun t => a t * b t) t (a t * db + da * b t).
Proof.
  intros H1 H2. auto_derive. { repeat split; eexists; eauto. }
  replace (Derive (fun x0 => a x0) t) with da by (symmetry; apply is_derive_unique; exact H1).
  replace (Derive (fun x0 => b x0) t) with db by (symmetry; apply is_derive_unique; exact H2). ring.
Qed.
Lemma sphere_d_f m f c : physical f c -> - (67/100) <= x_cos c -> (m = M_gauss -> x_cos c <= 8/10) ->
  is_derive (fun t => val (calc_extinction_sphere m t c)) f (ed_f_sq (calc_extinction_sphere_dder m f c)).
Proof.
  intros H C Cm. assert (C1 : x_cos c <= 1) by apply H. assert (F : 0 <= f) by apply H. assert (V : 0 < x_volume c) by apply H.
  assert (W : 0 < x_wavelength c) by apply H.
  apply is_derive_ext with (f := fun t => val (calc_extinction_sphere_primary t c) * sec_val m t c).
  { intros t. symmetry. apply sphere_prod. }
  assert (S := prim_safe _ _ (conj C C1) (prim_x_pos f c F)).
  assert (D1 : is_derive (fun t => val (calc_extinction_sphere_primary t c)) f (ed_f_sq (calc_extinction_sphere_primary_dder f c))).
  { destruct c as [r mo v co w]. apply prim_d_f. assert (Q := safe_pos _ _ _ _ S). cbn in *. lra. assert (Q := den_ge1 _ _ _ _ S). cbn in *; lra. }
  assert (D2 : is_derive (fun t => sec_val m t c) f (match m with M_gauss => ed_f_sq (calc_extinction_sphere_secondary_gauss_dder f c)
     | M_lorentz => ed_f_sq (calc_extinction_sphere_secondary_lorentz_dder f c) | M_other => 0 end)).
  { destruct m; cbn [sec_val].
    - assert (X : 0 <= sec_x (gauss_term c) f c) by (apply sec_x_pos; [apply (gauss_term_pos f); exact H|assumption|assumption]).
      assert (S2 := gauss_safe _ _ X (gauss_safe8 _ _ X (Cm eq_refl))). assert (Q1 := safe_pos _ _ _ _ S2). assert (Q2 := den_ge1 _ _ _ _ S2).
      destruct c as [r mo v co w]. apply gauss_d_f; cbn [x_cos] in *; lra.
    - assert (X : 0 <= sec_x (lorentz_term c) f c) by (apply sec_x_pos; [apply (lorentz_term_pos f); exact H|assumption|assumption]).
      assert (S2 := lorentz_safe (x_cos c) _ ltac:(apply H) X). assert (Q1 := safe_pos _ _ _ _ S2). assert (Q2 := den_ge1 _ _ _ _ S2).
      destruct c as [r mo v co w]. apply lorentz_d_f; cbn [x_cos] in *; lra.
    - apply @is_derive_const. }
  eapply is_derive_eq; [exact (prod_d _ _ _ _ _ D1 D2)|]. destruct m; reflexivity.
Qed.
(* primary part, all parameters, under the physical conditions *)
Lemma prim_d_all f r mo v c w : let cr := mkX r mo v c w in 0 <= f -> v <> 0 -> - (67/100) <= c <= 1 ->
  let y g c' := val (calc_extinction_sphere_primary g c') in let d := calc_extinction_sphere_primary_dder f cr in
  is_derive (fun t => y t cr) f (ed_f_sq d) /\ is_derive (fun t => y f (mkX t mo v c w)) r (ed_radius d) /\
  is_derive (fun t => y f (mkX r mo t c w)) v (ed_volume d) /\ is_derive (fun t => y f (mkX r mo v t w)) c (ed_cos d) /\
  is_derive (fun t => y f (mkX r mo v c t)) w (ed_wavelength d).
Proof.
  intros cr F V C. cbn zeta. assert (S := prim_safe c _ C (prim_x_pos f cr F)).
  assert (N := safe_pos _ _ _ _ S). assert (P := den_ge1 _ _ _ _ S).
  assert (N' : 1 + prim_B c * prim_x f cr <> 0) by lra. assert (P' : 0 < ext_den 2 (prim_A c) (prim_B c) (prim_x f cr)) by lra.
  split; [apply prim_d_f|split; [apply prim_d_r|split; [apply prim_d_v|split; [apply prim_d_c|apply prim_d_w]]]]; assumption.
Qed.

(** where the secondary derivatives are wrong *)
Lemma der_y_neg k A B x y : safe k A B x -> 0 < y -> der_y_x k A B x y < 0.
Proof.
  intros S Y. assert (P := safe_pos _ _ _ _ S). destruct S as (X & Hk & H). unfold der_y_x, Rsqr.
  assert (Q : 0 < k + 2 * A * x / (1 + B * x) - A * B * (x * x) / ((1 + B * x) * (1 + B * x))).
  { replace (k + 2 * A * x / (1 + B * x) - A * B * (x * x) / ((1 + B * x) * (1 + B * x)))
      with ((k * ((1 + B * x) * (1 + B * x)) + A * x * (2 + B * x)) / ((1 + B * x) * (1 + B * x))) by (field; lra).
    apply Rdiv_lt_0_compat; [|nra]. destruct H as [[H3 H4]|[H3 H4]].
    - assert (0 <= (A + k * B) * (x * (2 + B * x))). { apply Rmult_le_pos; [lra|]. assert (0 <= B * x) by nra. nra. } nra.
    - assert (0 <= A * x * (2 + B * x)) by (apply Rmult_le_pos; nra). assert (0 < (1 + B * x) * (1 + B * x)) by nra. nra. }
  assert (0 < y ^ 3) by (apply pow_lt; exact Y). nra.
Qed.
(* chain rule through the x of the Gauss model with fixed angle *)
Lemma gauss_y_d f (cr : R -> crystal) (c t dX : R) : (forall s, x_cos (cr s) = c) ->
  is_derive (fun s => sec_x (gauss_term (cr s)) f (cr s)) t dX ->
  safe (212/100) (gauss_A c) (gauss_B c) (sec_x (gauss_term (cr t)) f (cr t)) ->
  is_derive (fun s => calc_extinction_sphere_secondary_gauss f (cr s)) t
    (der_y_x (212/100) (gauss_A c) (gauss_B c) (sec_x (gauss_term (cr t)) f (cr t)) (calc_extinction_sphere_secondary_gauss f (cr t)) * dX).
Proof.
  intros Hc HX S. set (X := fun s => sec_x (gauss_term (cr s)) f (cr s)) in *.
  assert (N := safe_pos _ _ _ _ S). assert (P := den_ge1 _ _ _ _ S).
  assert (D := y_x_d (212/100) (gauss_A c) (gauss_B c) X t dX HX ltac:(unfold X; lra) ltac:(unfold X; lra)).
  assert (EV : forall s, 0 < ext_den (212/100) (gauss_A c) (gauss_B c) (X s) ->
     val (inv_sqrt (ext_den (212/100) (gauss_A c) (gauss_B c) (X s))) = calc_extinction_sphere_secondary_gauss f (cr s)).
  { intros s Hs. unfold calc_extinction_sphere_secondary_gauss. rewrite Hc. fold (X s). unfold inv_sqrt. destruct (Rlt_dec 0 (ext_den _ _ _ _)); [reflexivity|lra]. }
  assert (P' : 0 < ext_den (212/100) (gauss_A c) (gauss_B c) (X t)) by (unfold X; lra).
  eapply is_derive_eq; [eapply is_derive_ext_loc; [|exact D]|].
  - assert (C : continuous (fun t => ext_den (212/100) (gauss_A c) (gauss_B c) (X t)) t).
    { apply (ex_derive_continuous (V := R_NormedModule)). eexists.
      apply (den_d (fun _ => gauss_A c) (fun _ => gauss_B c) X (212/100) t 0 0); [apply @is_derive_const|apply @is_derive_const|exact HX|unfold X; lra]. }
    assert (Q := C _ (open_gt 0 _ P')). unfold filtermap in Q. revert Q. apply filter_imp. exact EV.
  - cbn beta. rewrite (EV t P'). reflexivity.
Qed.
Lemma loc_pos (t : R) : 0 < t -> locally t (fun s => 0 < s).
Proof. intros H. apply (open_gt 0). exact H. Qed.
Lemma scale_ne a b c : a <> 0 -> b <> c -> a * b <> a * c.
Proof. intros H N E. apply N. apply (Rmult_eq_reg_l a); assumption. Qed.

Section Wrong.
Variables (f r mo v c w : R).
Hypothesis (F : 0 < f) (Hr : 0 < r) (M : 0 < mo) (V : 0 < v) (C : -1 < c < 1) (C8 : c <= 8/10) (W : 0 < w).
Let cr := mkX r mo v c w.
Lemma wr_phys : physical f cr.
Proof. unfold physical, cr; cbn; lra. Qed.
Lemma wr_m : 0 < mos_rad cr.
Proof. unfold mos_rad, cr; cbn. assert (P := PI_RGT_0). apply Rdiv_lt_0_compat; nra. Qed.
Lemma wr_safe : safe (212/100) (gauss_A c) (gauss_B c) (sec_x (gauss_term cr) f cr).
Proof.
  assert (X : 0 <= sec_x (gauss_term cr) f cr) by (apply sec_x_pos; [apply (gauss_term_pos f); exact wr_phys|lra|exact W]).
  apply gauss_safe; [exact X|apply gauss_safe8; assumption].
Qed.
Lemma wr_der : der_y_x (212/100) (gauss_A c) (gauss_B c) (sec_x (gauss_term cr) f cr) (calc_extinction_sphere_secondary_gauss f cr) < 0.
Proof. apply der_y_neg; [exact wr_safe|]. destruct (gauss_range8 f cr wr_phys C8) as [H _]. exact H. Qed.
Lemma root_arg_pos m s : 0 < m -> 0 < Rsqr (m * w) + 9 / 8 * Rsqr s * (1 - Rsqr c).
Proof.
  intros Hm. assert (0 < Rsqr (m * w)) by (apply Rsqr_pos_lt; assert (0 < m * w) by (apply Rmult_lt_0_compat; assumption); lra).
  assert (A := Rle_0_sqr s). assert (0 <= 1 - Rsqr c) by (unfold Rsqr; nra).
  assert (0 <= 9 / 8 * Rsqr s * (1 - Rsqr c)) by (apply Rmult_le_pos; lra). lra.
Qed.
Lemma root_form : gauss_root cr = sqrt (Rsqr (mos_rad cr * w) + 9 / 8 * Rsqr r * (1 - Rsqr c)).
Proof. reflexivity. Qed.
Lemma gauss_radius_wrong : exists d, is_derive (fun t => calc_extinction_sphere_secondary_gauss f (mkX t mo v c w)) r d /\
  d <> ed_radius (calc_extinction_sphere_secondary_gauss_dder f cr).
Proof.
  assert (Hm := wr_m). set (m := mos_rad cr) in *. set (q := sqrt (Rsqr (m * w) + 9 / 8 * Rsqr r * (1 - Rsqr c))).
  assert (A := root_arg_pos m r Hm). assert (Hq : 0 < q) by (apply sqrt_lt_R0; exact A). 
  set (dX := (15/10) * f * w * (2 * r * Rsqr (w / v) * (m / q) - Rsqr (w * r / v) * m / q ^ 3 * (9/8) * r * (1 - Rsqr c))).
  assert (HX : is_derive (fun s => sec_x (gauss_term (mkX s mo v c w)) f (mkX s mo v c w)) r dX).
  { apply is_derive_ext_loc with (f := fun s => (15/10) * f * w * Rsqr (w * s / v) * (m / sqrt (Rsqr (m * w) + 9 / 8 * Rsqr s * (1 - Rsqr c)))).
    - generalize (loc_pos r Hr). apply filter_imp. intros s Hs. unfold sec_x, gauss_term, gauss_root.
      change (mos_rad (mkX s mo v c w)) with m. cbn [x_radius x_wavelength x_volume x_cos]. assert (0 < s * m) by nra.
      destruct (Rlt_dec 0 (s * m)); [reflexivity|lra].
    - unfold Rsqr in *. auto_derive.
      + repeat split; first [exact A | exact I | lra | (fold q; lra)].
      + fold q. unfold dX, Rsqr. unfold Rdiv. field. split; lra. }
  eexists. split; [apply (gauss_y_d f (fun s => mkX s mo v c w) c r dX (fun _ => eq_refl) HX wr_safe)|].
  unfold calc_extinction_sphere_secondary_gauss_dder. cbn [ed_radius]. fold cr. apply scale_ne; [assert (D := wr_der); cbn [x_cos cr] in *; lra|].
  cbn [x_radius x_wavelength x_volume x_cos cr]. rewrite root_form. fold m q.
  assert (T : gauss_term cr = m / q). { unfold gauss_term. cbn [x_radius cr]. fold m. assert (0 < r * m) by nra. destruct (Rlt_dec 0 (r * m)); [reflexivity|lra]. }
  rewrite T. unfold dX. intros E.
  assert (E2 : (15/10) * f * w * (Rsqr (w * r / v) * m / q ^ 3 * (9/8) * r * (1 - Rsqr c)) * 3 = 0).
  { assert (E3 : (15/10) * f * w * Rsqr (w * r / v) * m / q ^ 3 * 9 / 8 * 2 * r * (1 - Rsqr c) = - ((15/10) * f * w * (Rsqr (w * r / v) * m / q ^ 3 * (9/8) * r * (1 - Rsqr c)))) by lra.
    assert (E4 : (15/10) * f * w * Rsqr (w * r / v) * m / q ^ 3 * 9 / 8 * 2 * r * (1 - Rsqr c) = (15/10) * f * w * (Rsqr (w * r / v) * m / q ^ 3 * (9/8) * r * (1 - Rsqr c)) * 2) by (field; lra). lra. }
  assert (0 < Rsqr (w * r / v)). { apply Rsqr_pos_lt. assert (0 < w * r / v) by (apply Rdiv_lt_0_compat; nra). lra. }
  assert (0 < 1 - Rsqr c) by (unfold Rsqr; nra). assert (0 < q ^ 3) by (apply pow_lt; exact Hq).
  assert (0 < (15/10) * f * w * (Rsqr (w * r / v) * m / q ^ 3 * (9/8) * r * (1 - Rsqr c))).
  { apply Rmult_lt_0_compat; [apply Rmult_lt_0_compat; lra|]. apply Rmult_lt_0_compat; [|assumption]. apply Rmult_lt_0_compat; [|lra]. apply Rmult_lt_0_compat; [|lra]. apply Rdiv_lt_0_compat; nra. }
  lra.
Qed.
Lemma gauss_mosaicity_wrong : exists d, is_derive (fun t => calc_extinction_sphere_secondary_gauss f (mkX r t v c w)) mo d /\
  d <> ed_mosaicity (calc_extinction_sphere_secondary_gauss_dder f cr).
Proof.
  assert (Hm := wr_m). set (m := mos_rad cr) in *. set (q := sqrt (Rsqr (m * w) + 9 / 8 * Rsqr r * (1 - Rsqr c))).
  assert (A := root_arg_pos m r Hm). assert (Hq : 0 < q) by (apply sqrt_lt_R0; exact A). set (u := PI / (180 * 60)).
  assert (Hu : 0 < u) by (unfold u; assert (P := PI_RGT_0); apply Rdiv_lt_0_compat; lra).
  assert (Em : mo * u = m) by (unfold u, m, mos_rad; cbn; field).
  set (dX := (15/10) * f * w * Rsqr (w * r / v) * u * (1 / q - m / q ^ 3 * Rsqr w * m)).
  assert (HX : is_derive (fun s => sec_x (gauss_term (mkX r s v c w)) f (mkX r s v c w)) mo dX).
  { apply is_derive_ext_loc with (f := fun s => (15/10) * f * w * Rsqr (w * r / v) * (s * u / sqrt (Rsqr (s * u * w) + 9 / 8 * Rsqr r * (1 - Rsqr c)))).
    - generalize (loc_pos mo M). apply filter_imp. intros s Hs. unfold sec_x, gauss_term, gauss_root.
      assert (Es : mos_rad (mkX r s v c w) = s * u) by (unfold mos_rad, u; cbn; field). rewrite Es.
      cbn [x_radius x_wavelength x_volume x_cos]. assert (0 < s * u) by (apply Rmult_lt_0_compat; assumption). assert (0 < r * (s * u)) by (apply Rmult_lt_0_compat; assumption).
      destruct (Rlt_dec 0 (r * (s * u))); [reflexivity|lra].
    - unfold Rsqr in *. auto_derive.
      + rewrite Em. repeat split; first [exact A | exact I | lra | (fold q; lra)].
      + rewrite Em. fold q. unfold dX, Rsqr. unfold Rdiv. 
        replace (mo * / q) with (mo * / q) by reflexivity. field_simplify_eq; [|repeat split; lra]. rewrite <- Em. ring. }
  eexists. split; [apply (gauss_y_d f (fun s => mkX r s v c w) c mo dX (fun _ => eq_refl) HX wr_safe)|].
  unfold calc_extinction_sphere_secondary_gauss_dder. cbn [ed_mosaicity]. fold cr.
  cbn [x_radius x_wavelength x_volume x_cos cr]. rewrite root_form. fold m q u.
  assert (D := wr_der). set (dy := der_y_x _ _ _ _ _) in *. cbn [x_cos cr] in *. 
  match goal with |- ?a * _ <> _ => change a with dy end.
  intros E.
  assert (E2 : dy * ((15/10) * f * w * Rsqr (w * r / v) * u * (m / q ^ 3 * Rsqr w * m * 3)) = 0) by (unfold dX in E; lra).
  assert (0 < Rsqr (w * r / v)). { apply Rsqr_pos_lt. assert (0 < w * r / v) by (apply Rdiv_lt_0_compat; nra). lra. }
  assert (0 < Rsqr w) by (apply Rsqr_pos_lt; lra). assert (0 < q ^ 3) by (apply pow_lt; exact Hq).
  assert (0 < m / q ^ 3) by (apply Rdiv_lt_0_compat; lra).
  assert (0 < (15/10) * f * w * Rsqr (w * r / v) * u * (m / q ^ 3 * Rsqr w * m * 3)).
  { clearbody u q m. assert (0 < f * w) by nra. assert (0 < Rsqr (w * r / v) * u) by nra. assert (0 < m / q ^ 3 * Rsqr w) by nra. assert (0 < m / q ^ 3 * Rsqr w * m) by nra.
    assert (0 < (f * w) * (Rsqr (w * r / v) * u)) by (apply Rmult_lt_0_compat; assumption). assert (0 < (f * w) * (Rsqr (w * r / v) * u) * (m / q ^ 3 * Rsqr w * m)) by (apply Rmult_lt_0_compat; assumption). lra. }
  nra.
Qed.
Lemma gauss_volume_wrong : exists d, is_derive (fun t => calc_extinction_sphere_secondary_gauss f (mkX r mo t c w)) v d /\
  d <> ed_volume (calc_extinction_sphere_secondary_gauss_dder f cr).
Proof.
  assert (Hm := wr_m). set (m := mos_rad cr) in *. set (q := sqrt (Rsqr (m * w) + 9 / 8 * Rsqr r * (1 - Rsqr c))).
  assert (A := root_arg_pos m r Hm). assert (Hq : 0 < q) by (apply sqrt_lt_R0; exact A).
  set (dX := (15/10) * f * w * (m / q) * (- 2 * Rsqr (w * r) / v ^ 3)).
  assert (HX : is_derive (fun s => sec_x (gauss_term (mkX r mo s c w)) f (mkX r mo s c w)) v dX).
  { apply is_derive_ext with (f := fun s => (15/10) * f * w * Rsqr (w * r / s) * (m / q)).
    - intros s. unfold sec_x, gauss_term, gauss_root. change (mos_rad (mkX r mo s c w)) with m. cbn [x_radius x_wavelength x_volume x_cos].
      assert (0 < r * m) by nra. destruct (Rlt_dec 0 (r * m)); [reflexivity|lra].
    - unfold Rsqr in *. auto_derive; [repeat split; lra|]. unfold dX, Rsqr. unfold Rdiv. field. split; lra. }
  eexists. split; [apply (gauss_y_d f (fun s => mkX r mo s c w) c v dX (fun _ => eq_refl) HX wr_safe)|].
  cbn [ed_volume calc_extinction_sphere_secondary_gauss_dder]. assert (D := wr_der). fold cr. intros E. apply Rmult_integral in E. destruct E as [E|E]; [lra|].
  assert (0 < Rsqr (w * r)). { apply Rsqr_pos_lt. nra. } assert (0 < v ^ 3) by (apply pow_lt; exact V). assert (0 < m / q) by (apply Rdiv_lt_0_compat; lra).
  assert (0 < 2 * Rsqr (w * r) / v ^ 3) by (apply Rdiv_lt_0_compat; lra).
  assert (0 < (15/10) * f * w * (m / q) * (2 * Rsqr (w * r) / v ^ 3)) by (apply Rmult_lt_0_compat; [apply Rmult_lt_0_compat; [apply Rmult_lt_0_compat; lra|lra]|lra]).
  unfold dX in E. lra.
Qed.
(* Lorentz: the refined mosaicity always gets a zero derivative *)
Lemma lorentz_mosaicity_wrong : exists d, is_derive (fun t => val (calc_extinction_sphere_secondary_lorentz f (mkX r t v c w))) mo d /\
  d <> ed_mosaicity (calc_extinction_sphere_secondary_lorentz_dder f cr).
Proof.
  clear C8. assert (Hm := wr_m). set (m := mos_rad cr) in *. set (u := PI / (180 * 60)).
  assert (Hu : 0 < u) by (unfold u; assert (P := PI_RGT_0); apply Rdiv_lt_0_compat; lra).
  assert (Em : mo * u = m) by (unfold u, m, mos_rad; cbn; field).
  set (s1 := sqrt (1 - Rsqr c)). assert (Hs1 : 0 < s1) by (apply sqrt_lt_R0; unfold Rsqr; nra).
  set (K := (15/10) * f * w * Rsqr (w * r / v)).
  assert (HK : 0 < K). { unfold K. apply Rmult_lt_0_compat; [assert (0 < f * w) by nra; lra|]. apply Rsqr_pos_lt. assert (0 < w * r / v) by (apply Rdiv_lt_0_compat; nra). lra. }
  assert (Q : 0 < m * w + r * s1) by (assert (0 < m * w) by nra; assert (0 < r * s1) by nra; lra).
  set (dX := K * u * (r * s1) / Rsqr (m * w + r * s1)).
  assert (HX : is_derive (fun s => sec_x (lorentz_term (mkX r s v c w)) f (mkX r s v c w)) mo dX).
  { apply is_derive_ext_loc with (f := fun s => K * (s * u / (s * u * w + r * s1))).
    - generalize (loc_pos mo M). apply filter_imp. intros s Hs. unfold sec_x, lorentz_term.
      assert (Es : mos_rad (mkX r s v c w) = s * u) by (unfold mos_rad, u; cbn; field). rewrite Es.
      cbn [x_radius x_wavelength x_volume x_cos]. assert (0 < s * u) by (apply Rmult_lt_0_compat; assumption). assert (0 < r * (s * u)) by (apply Rmult_lt_0_compat; assumption).
      destruct (Rlt_dec 0 (r * (s * u))); [reflexivity|lra].
    - auto_derive; [rewrite Em; lra|]. rewrite Em. unfold dX, Rsqr. unfold Rdiv. field_simplify_eq; [|lra]. first [ring|rewrite <- Em; ring]. }
  assert (S := lorentz_safe c (sec_x (lorentz_term cr) f cr) ltac:(lra) ltac:(apply sec_x_pos; [apply (lorentz_term_pos f); exact wr_phys|lra|exact W])).
  assert (N := safe_pos _ _ _ _ S). assert (P := den_ge1 _ _ _ _ S).
  eexists. split; [apply (y_x_d 2 (lorentz_A c) (lorentz_B c) (fun s => sec_x (lorentz_term (mkX r s v c w)) f (mkX r s v c w)) mo dX HX); fold cr; lra|].
  cbn [ed_mosaicity calc_extinction_sphere_secondary_lorentz_dder]. fold cr. intros E. apply Rmult_integral in E. destruct E as [E|E].
  - destruct (inv_sqrt_ok _ P) as (y & Ey & Y). rewrite Ey in E. cbn [val] in E. assert (G := der_y_neg _ _ _ _ y S ltac:(lra)). lra.
  - assert (0 < dX). { unfold dX. apply Rdiv_lt_0_compat; [apply Rmult_lt_0_compat; [apply Rmult_lt_0_compat; assumption|apply Rmult_lt_0_compat; assumption]|]. apply Rsqr_pos_lt. lra. } lra.
Qed.
End Wrong.
