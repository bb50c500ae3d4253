(** The tables of form factors. *)
From Coq Require Import Reals ZArith String List Ascii Bool Lra Lia.
From Coquelicot Require Import Coquelicot.
From Verif Require Import Model.Strings Model.Ions Model.AtomFactors Model.FormTables Spec.Text Spec.IonSpec Spec.FormSpec Proofs.IonsP.
Import ListNotations.
Open Scope R_scope.

Lemma same_iff : forall a b, same a b = true <-> a = b.
Proof. intros a b. unfold same. destruct (list_eq_dec ascii_dec a b); split; congruence. Qed.
Lemma text_inj : forall a b, text a = text b -> a = b.
Proof. intros a b E. unfold text in E. rewrite <- (string_of_list_ascii_of_string a), <- (string_of_list_ascii_of_string b), E. reflexivity. Qed.

(** str.capitalize of a name, and of a name with a number and a sign *)
Lemma large_upper : forall c, is_letter c = true -> to_upper c = large c /\ to_lower c = small c.
Proof. intros c H. destruct (letter_facts c H) as [[A B] _]. revert A B H. all_chars c; intros A B H; try discriminate H; split; reflexivity. Qed.
Lemma lower_letters : forall s, List.Forall (fun c => is_letter c = true) s -> lower s = map small s.
Proof. unfold lower. induction s as [|c s IH]; intros H; [reflexivity|]. inversion H; subst. cbn [map]. rewrite (proj2 (large_upper c H2)), IH by assumption. reflexivity. Qed.
Lemma capitalize_name : forall s r, name_text s -> lower r = r -> capitalize (s ++ r) = titled s ++ r.
Proof.
  intros [|c s] r [N F] L; [contradiction|]. inversion F; subst. cbn [app capitalize titled]. rewrite (proj1 (large_upper c H1)), lower_app, L, (lower_letters s H2). reflexivity.
Qed.
Lemma lower_tail : forall num c n q, number_text num -> signed c n q -> lower (num ++ [c]) = num ++ [c].
Proof. intros num c n q [_ N] S. rewrite lower_app, (lower_digits num N). unfold lower at 1. cbn [map]. rewrite (proj1 (sign_facts c n q S)). reflexivity. Qed.

(** the parts of a key *)
Fixpoint span (p : ascii -> bool) (s : str) : str * str := match s with [] => ([], []) | c :: r => if p c then let '(a, b) := span p r in (c :: a, b) else ([], s) end.
Lemma span_app : forall p a c r, List.Forall (fun x => p x = true) a -> p c = false -> span p (a ++ c :: r) = (a, c :: r).
Proof. induction a as [|x a IH]; intros c r H P; [cbn; rewrite P; reflexivity|]. inversion H; subst. cbn [app span]. rewrite H2, IH by assumption. reflexivity. Qed.
Lemma titled_letters : forall s, List.Forall (fun c => is_letter c = true) s -> List.Forall (fun c => is_letter c = true) (titled s).
Proof.
  assert (A : forall c, is_letter c = true -> is_letter (small c) = true /\ is_letter (large c) = true) by (intros c; all_chars c; intros H; try discriminate H; split; reflexivity).
  intros [|c s] H; [constructor|]. inversion H; subst. constructor; [apply A; assumption|]. clear - A H3. induction s as [|d s IH]; [constructor|]. inversion H3; subst. constructor; [apply A; assumption|apply IH; assumption].
Qed.
Definition total (v : list Z) : Z := (nth 0 v 0 + nth 2 v 0 + nth 4 v 0 + nth 6 v 0 + nth 8 v 0)%Z.
Lemma forward_value : forall v, gaussians (params v) 0 = IZR (total v) / 1000000.
Proof.
  intros v. unfold gaussians, params, micro, total. rewrite Rsqr_0, !Rmult_0_r, exp_0, !plus_IZR. field.
Qed.
Definition near (v : list Z) (n : Z) : bool := (Z.abs (total v - 1000000 * n) <=? 60000)%Z.
Lemma near_ok : forall v n, near v n = true -> Rabs (gaussians (params v) 0 - IZR n) <= 6 / 100.
Proof.
  intros v n H. unfold near in H. apply Z.leb_le in H. rewrite forward_value. replace (IZR (total v) / 1000000 - IZR n) with (IZR (total v - 1000000 * n) / 1000000) by (rewrite minus_IZR, mult_IZR; field).
  unfold Rdiv. rewrite Rabs_mult, (Rabs_pos_eq (/ 1000000)) by lra. rewrite Rabs_Zabs. apply IZR_le in H. lra.
Qed.
Definition found (name : str) (n : Z) : bool := match find_amplitude amplitude_table name with Value v => near v n | Raises _ => false end.
Definition count98 : list nat := seq 1 98.
Lemma neutral_table : forallb (fun z => if Nat.eqb z 14 then true else match nth_error periodic_table (z - 1) with Some n => found (text n) (Z.of_nat z) | None => false end) count98 = true.
Proof. vm_compute. reflexivity. Qed.
Lemma neutral_found : forall z name, element z name -> (z <= 98)%Z -> z <> 14%Z -> found (text name) z = true.
Proof.
  intros z name [P E] L N. pose proof neutral_table as T. rewrite forallb_forall in T. specialize (T (Z.to_nat z)). assert (I : In (Z.to_nat z) count98) by (apply in_seq; lia). specialize (T I). cbn beta in T.
  destruct (Nat.eqb_spec (Z.to_nat z) 14); [lia|]. replace (Z.to_nat z - 1)%nat with (Z.to_nat (z - 1)) in T by lia. rewrite E in T. rewrite Z2Nat.id in T by lia. exact T.
Qed.
Lemma forward_neutral : forall z name t, element z name -> (z <= 98)%Z -> z <> 14%Z -> ion_of t name 0 -> name_text t ->
  exists f d, calc_scattering_amplitude_tabulated t 0 = Value (f, d) /\ Rabs (f - IZR z) <= 6 / 100.
Proof.
  intros z name t E L N I T. pose proof (neutral_found z name E L N) as F. assert (C : capitalize t = text name).
  { rewrite <- (app_nil_r t), (capitalize_name t []) by (try exact T; reflexivity). rewrite app_nil_r. unfold ion_of in I. inversion I as [txt T' E1 E2 E3|txt num c q T' Nu S E1 E2 E3]; [exact E2|].
    subst. destruct T as [_ T]. rewrite Forall_forall in T. assert (B : is_letter c = true) by (apply T; rewrite !in_app_iff; right; right; left; reflexivity). destruct S as [[-> _]|[-> _]]; discriminate B. }
  unfold calc_scattering_amplitude_tabulated, found in *. rewrite C. destruct (find_amplitude amplitude_table (text name)) as [v|]; [|discriminate F]. cbn [bind]. eexists. eexists. split; [reflexivity|]. apply near_ok, F.
Qed.
Lemma silicon : forall t s, titled t = text "Si" -> name_text t -> calc_scattering_amplitude_tabulated t s = Raises KeyError.
Proof.
  intros t s E T. unfold calc_scattering_amplitude_tabulated. rewrite <- (app_nil_r t), (capitalize_name t []) by (try exact T; reflexivity). rewrite app_nil_r, E. vm_compute. reflexivity.
Qed.

(** ions *)
Definition index_of (name : str) : option Z :=
  match find (fun p => same (text (snd p)) name) (combine (map Z.of_nat (seq 1 118)) periodic_table) with Some (z, _) => Some z | None => None end.
Definition key_ok (e : string * list Z) : bool :=
  let '(k, v) := e in
  let '(name, rest) := span is_letter (text k) in
  match rest with
  | [] => true
  | _ => match rev rest with
         | c :: r => let n := decimal (rev r) in
                     let q := if Ascii.eqb c "+" then n else if Ascii.eqb c "-" then (- n)%Z else 1000%Z in
                     match index_of name with Some z => near v (z - q) | None => true end
         | [] => true end
  end.
Lemma keys_ok : forallb key_ok amplitude_table = true.
Proof. vm_compute. reflexivity. Qed.
Lemma names_distinct : forallb (fun p => match index_of (text (snd p)) with Some z => Z.eqb z (fst p) | None => false end) (combine (map Z.of_nat (seq 1 118)) periodic_table) = true.
Proof. vm_compute. reflexivity. Qed.
Lemma index_element : forall z name, element z name -> index_of (text name) = Some z.
Proof.
  intros z name [P E]. pose proof names_distinct as T. rewrite forallb_forall in T.
  assert (B : (Z.to_nat (z - 1) < 118)%nat) by (change 118%nat with (List.length periodic_table); apply nth_error_Some; congruence).
  assert (I : In (z, name) (combine (map Z.of_nat (seq 1 118)) periodic_table)).
  { apply nth_error_In with (n := Z.to_nat (z - 1)). clear T. remember (Z.to_nat (z - 1)) as k eqn:K. assert (Z1 : z = Z.of_nat (k + 1)) by lia. rewrite Z1. clear K Z1 P.
    do 118 (destruct k as [|k]; [cbn in E; injection E as <-; reflexivity|]). lia. }
  specialize (T _ I). cbn [fst snd] in T. destruct (index_of (text name)) as [w|]; [|discriminate T]. apply Z.eqb_eq in T. congruence.
Qed.
Lemma find_in : forall t name v, find_amplitude t name = Value v -> exists k, In (k, v) t /\ text k = name.
Proof.
  induction t as [|[k w] t IH]; intros name v H; [discriminate H|]. cbn [find_amplitude] in H. destruct (same (text k) name) eqn:S.
  - injection H as <-. exists k. split; [left; reflexivity|]. apply same_iff, S.
  - destruct (IH name v H) as [k' [A B]]. exists k'. split; [right; exact A|exact B].
Qed.
Lemma forward_ion : forall z name txt num c q, element z name -> name_text txt -> titled txt = list_ascii_of_string name -> number_text num -> signed c (decimal num) q ->
  calc_scattering_amplitude_tabulated (txt ++ num ++ [c]) 0 = Raises KeyError \/
  exists f d, calc_scattering_amplitude_tabulated (txt ++ num ++ [c]) 0 = Value (f, d) /\ Rabs (f - IZR (z - q)) <= 6 / 100.
Proof.
  intros z name txt num c q E T Ti N S. unfold calc_scattering_amplitude_tabulated. rewrite (capitalize_name txt (num ++ [c]) T (lower_tail num c _ q N S)), Ti.
  destruct (find_amplitude amplitude_table (list_ascii_of_string name ++ num ++ [c])) as [v|e] eqn:F.
  - right. cbn [bind]. eexists. eexists. split; [reflexivity|]. apply near_ok. destruct (find_in _ _ _ F) as [k [I K]]. pose proof keys_ok as A. rewrite forallb_forall in A. specialize (A _ I). unfold key_ok in A. rewrite K in A.
    destruct N as [N1 N2]. destruct num as [|d num]; [contradiction|]. cbn [app] in A. rewrite span_app in A.
    + change (d :: num ++ [c]) with ((d :: num) ++ [c]) in A. rewrite rev_app_distr in A. cbn [rev app] in A. change (rev (rev num ++ [d])) with (rev (rev (d :: num))) in A. rewrite rev_involutive in A.
      pose proof (index_element z name E) as X. unfold text in X. rewrite X in A. clear X. destruct S as [[-> ->]|[-> ->]]; exact A.
    + rewrite <- Ti. apply titled_letters, T.
    + inversion N2; subst. clear - H1. revert H1. all_chars d; intros H; try discriminate H; reflexivity.
  - left. cbn [bind]. f_equal. clear - F. revert F. generalize amplitude_table. induction l as [|[k w] l IH]; intros F; [injection F as <-; reflexivity|]. cbn [find_amplitude] in F. destruct (same _ _); [discriminate F|]. apply IH, F.
Qed.

(** the derivative *)
Lemma gaussians_derive : forall p s, is_derive (gaussians p) s (gaussians_d_sthovl p s).
Proof.
  intros p s. unfold gaussians, gaussians_d_sthovl, Rsqr. auto_derive; [exact Logic.I|]. ring.
Qed.
Lemma derivative : forall ion s f d, calc_scattering_amplitude_tabulated ion s = Value (f, d) ->
  exists F : R -> R, (forall t : R, exists d' : R, calc_scattering_amplitude_tabulated ion t = Value (F t, d')) /\ F s = f /\ is_derive F s d.
Proof.
  intros ion s f d H. unfold calc_scattering_amplitude_tabulated in *. destruct (find_amplitude amplitude_table (capitalize ion)) as [v|]; [|discriminate H]. cbn [bind] in *. injection H as <- <-.
  exists (gaussians (params v)). split; [intros t; eexists; reflexivity|]. split; [reflexivity|apply gaussians_derive].
Qed.

(** decreasing *)
Definition rising : list string := ["K1+"; "Ca2+"; "Sc3+"; "Ti3+"; "Ti4+"; "V5+"; "Pd4+"; "Sn4+"]%string.
Definition same_signs (v : list Z) : bool := ((0 <=? nth 0 v 0 * nth 1 v 0) && (0 <=? nth 2 v 0 * nth 3 v 0) && (0 <=? nth 4 v 0 * nth 5 v 0) && (0 <=? nth 6 v 0 * nth 7 v 0))%Z.
Lemma signs_ok : forallb (fun e => existsb (String.eqb (fst e)) rising || same_signs (snd e)) amplitude_table = true.
Proof. vm_compute. reflexivity. Qed.
Lemma term_decreasing : forall a b s t, (0 <= a * b)%Z -> 0 <= s <= t -> micro a * exp (- micro b * Rsqr t) <= micro a * exp (- micro b * Rsqr s).
Proof.
  intros a b s t P [S T]. assert (Q : Rsqr s <= Rsqr t) by (apply Rsqr_incr_1; lra). unfold micro.
  destruct (Z.lt_trichotomy a 0) as [A|[A|A]].
  - assert (B : IZR b <= 0) by (apply IZR_le; nia). apply IZR_lt in A. apply Ropp_le_cancel. rewrite <- !Ropp_mult_distr_l_reverse. apply Rmult_le_compat_l; [lra|].
    assert (L : - (IZR b / 1000000) * Rsqr s <= - (IZR b / 1000000) * Rsqr t) by (apply Rmult_le_compat_l; [lra|exact Q]). destruct L as [L|L]; [left; apply exp_increasing, L|rewrite L; lra].
  - subst a. unfold Rdiv. rewrite !Rmult_0_l. lra.
  - assert (B : 0 <= IZR b) by (apply IZR_le; nia). apply IZR_lt in A. apply Rmult_le_compat_l; [lra|].
    assert (L : - (IZR b / 1000000) * Rsqr t <= - (IZR b / 1000000) * Rsqr s) by (rewrite !Ropp_mult_distr_l_reverse; apply Ropp_le_contravar, Rmult_le_compat_l; [lra|exact Q]). destruct L as [L|L]; [left; apply exp_increasing, L|rewrite L; lra].
Qed.
Lemma decreasing : forall ion s t fs ds ft dt, ~ In (capitalize ion) (map text rising) -> 0 <= s <= t ->
  calc_scattering_amplitude_tabulated ion s = Value (fs, ds) -> calc_scattering_amplitude_tabulated ion t = Value (ft, dt) -> ft <= fs.
Proof.
  intros ion s t fs ds ft dt N L E1 E2. unfold calc_scattering_amplitude_tabulated in *. destruct (find_amplitude amplitude_table (capitalize ion)) as [v|] eqn:F; [|discriminate E1]. cbn [bind] in *. injection E1 as <- _. injection E2 as <- _.
  destruct (find_in _ _ _ F) as [k [I K]]. pose proof signs_ok as A. rewrite forallb_forall in A. specialize (A _ I). cbn [fst snd] in A. apply orb_true_iff in A. destruct A as [A|A].
  - exfalso. apply N. apply existsb_exists in A. destruct A as [x [X1 X2]]. apply String.eqb_eq in X2. subst x. rewrite <- K. apply in_map, X1.
  - unfold same_signs in A. apply andb_true_iff in A. destruct A as [A A4]. apply andb_true_iff in A. destruct A as [A A3]. apply andb_true_iff in A. destruct A as [A1 A2]. apply Z.leb_le in A1, A2, A3, A4.
    unfold gaussians, params. pose proof (term_decreasing _ _ s t A1 L). pose proof (term_decreasing _ _ s t A2 L). pose proof (term_decreasing _ _ s t A3 L). pose proof (term_decreasing _ _ s t A4 L). lra.
Qed.
(** K1+: the amplitude grows at large angles *)
Lemma potassium : exists f d g e, calc_scattering_amplitude_tabulated (text "K1+") 0 = Value (f, d) /\ calc_scattering_amplitude_tabulated (text "K1+") 100 = Value (g, e) /\ f < g.
Proof.
  unfold calc_scattering_amplitude_tabulated. assert (F : exists v, find_amplitude amplitude_table (capitalize (text "K1+")) = Value v /\ v = [7957800; 12633100; 7491700; 767400; 6359000; -2000; 1191500; 31912800; -4997800]%Z) by (eexists; split; [vm_compute; reflexivity|reflexivity]).
  destruct F as [v [F ->]]. rewrite F. cbn [bind]. do 4 eexists. split; [reflexivity|]. split; [reflexivity|]. rewrite forward_value. unfold gaussians, params, micro, total. cbn [nth].
  assert (E : forall x, 0 < exp x) by exact exp_pos. pose proof (E (- (12633100 / 1000000) * Rsqr 100)). pose proof (E (- (767400 / 1000000) * Rsqr 100)). pose proof (E (- (31912800 / 1000000) * Rsqr 100)).
  assert (X : 20 <= exp (- (-2000 / 1000000) * Rsqr 100)). { replace (- (-2000 / 1000000) * Rsqr 100) with 20 by (unfold Rsqr; field). left. apply Rlt_trans with (1 + 20); [lra|apply exp_ineq1; lra]. }
  cbn [Z.add]. match goal with |- IZR ?n / _ < _ => let m := eval vm_compute in n in change n with m end. lra.
Qed.
Lemma table_met : element 26 "Fe" /\ name_text (text "fE") /\ titled (text "fE") = text "Fe" /\ number_text (text "3") /\ signed "+" (decimal (text "3")) 3 /\
  calc_scattering_amplitude_tabulated (text "fE3+") 0 <> Raises KeyError /\ ~ In (capitalize (text "fE3+")) (map text rising) /\ ion_of (text "fE3+") "Fe" 3 /\ In ("Fe"%string, 3%Z) magnetic_ions /\
  ion_of (text "si") "Si" 0 /\ ~ In ("Si"%string, 0%Z) magnetic_ions.
Proof.
  assert (N : name_text (text "fE")) by (split; [discriminate|repeat constructor]). assert (D : number_text (text "3")) by (split; [discriminate|repeat constructor]).
  assert (S : signed "+" (decimal (text "3")) 3) by (left; split; reflexivity).
  split; [split; reflexivity|]. split; [exact N|]. split; [reflexivity|]. split; [exact D|]. split; [exact S|]. split.
  { unfold calc_scattering_amplitude_tabulated. destruct (find_amplitude amplitude_table (capitalize (text "fE3+"))) as [v|] eqn:F; [cbn [bind]; discriminate|]. exfalso. revert F. vm_compute. discriminate. }
  split. { intros I. cbn in I. repeat (destruct I as [I|I]; [discriminate I|]). exact I. }
  split; [exact (Ion_charged (text "fE") (text "3") "+" 3 N D S)|]. split; [unfold magnetic_ions; cbn [In]; tauto|]. split; [apply (Ion_neutral (text "si")); split; [discriminate|repeat constructor]|].
  intros I. unfold magnetic_ions in I. cbn [In] in I. repeat (destruct I as [I|I]; [discriminate I|]). exact I.
Qed.

(** magnetic form factors *)
Definition total_j (v : list Z) : Z := (nth 0 v 0 + nth 2 v 0 + nth 4 v 0 + nth 6 v 0)%Z.
Lemma j0_forward : forall v w lande kappa, calc_form_factor false 0 lande kappa (jpar_of v) w = IZR (total_j v) / 1000000.
Proof.
  intros v w lande kappa. unfold calc_form_factor, calc_j0, calc_j2, j_h. replace (0 / kappa) with 0 by (unfold Rdiv; ring). rewrite Rsqr_0, !Rmult_0_r. unfold j_sum, jpar_of, params, micro, total_j. cbn [j_A j_a j_B j_b j_C j_c j_D].
  rewrite !Rmult_0_r, exp_0, !plus_IZR. field.
Qed.
Lemma magnetic_table_ok : forallb (fun p => match find_magnetic magnetic_table (text (fst p)) (snd p) with Some (j0, _) => (Z.abs (total_j j0 - 1000000) <=? 6000)%Z | None => false end) magnetic_ions = true.
Proof. vm_compute. reflexivity. Qed.
Lemma ion_read : forall w1 t w2 name q, blank_text w1 -> blank_text w2 -> ion_of t name q -> ion_parts (w1 ++ t ++ w2) = Value (text name, q, None).
Proof.
  intros w1 t w2 name q B1 B2 I. unfold ion_of in I. unfold text. inversion I as [txt T E1 E2 E3|txt num c p T N S E1 E2 E3].
  - apply neutral_ion; assumption.
  - apply charged_ion; assumption.
Qed.
Lemma magnetic_forward : forall w1 t w2 name q, blank_text w1 -> blank_text w2 -> ion_of t name q -> In (name, q) magnetic_ions ->
  exists j0 j2, get_j0_j2_parameters (w1 ++ t ++ w2) = Value (j0, j2) /\ forall lande kappa, Rabs (calc_form_factor false 0 lande kappa j0 j2 - 1) <= 6 / 1000.
Proof.
  intros w1 t w2 name q B1 B2 I M. unfold get_j0_j2_parameters. rewrite (ion_read _ _ _ _ _ B1 B2 I). cbn [bind]. pose proof magnetic_table_ok as A. rewrite forallb_forall in A. specialize (A _ M). cbn [fst snd] in A.
  destruct (find_magnetic magnetic_table (text name) q) as [[v w]|]; [|discriminate A]. apply Z.leb_le in A. do 2 eexists. split; [reflexivity|]. intros lande kappa. rewrite j0_forward.
  replace (IZR (total_j v) / 1000000 - 1) with (IZR (total_j v - 1000000) / 1000000) by (rewrite minus_IZR; field). unfold Rdiv. rewrite Rabs_mult, (Rabs_pos_eq (/ 1000000)) by lra. rewrite Rabs_Zabs. apply IZR_le in A. lra.
Qed.
Lemma magnetic_keys : map (fun e => (fst (fst (fst e)), snd (fst (fst e)))) magnetic_table = magnetic_ions.
Proof. vm_compute. reflexivity. Qed.
Lemma find_magnetic_in : forall t name q v, find_magnetic t (text name) q = Some v -> In (name, q) (map (fun e => (fst (fst (fst e)), snd (fst (fst e)))) t).
Proof.
  induction t as [|[[[k c] a] b] t IH]; intros name q v H; [discriminate H|]. cbn [find_magnetic] in H. destruct (same (text k) (text name) && Z.eqb c q)%bool eqn:E.
  - apply andb_true_iff in E. destruct E as [E1 E2]. apply same_iff in E1. apply text_inj in E1. apply Z.eqb_eq in E2. subst. left. reflexivity.
  - right. eapply IH, H.
Qed.
Lemma magnetic_unknown : forall w1 t w2 name q, blank_text w1 -> blank_text w2 -> ion_of t name q -> ~ In (name, q) magnetic_ions ->
  exists j0 j2, get_j0_j2_parameters (w1 ++ t ++ w2) = Value (j0, j2) /\ forall only_orbital s lande kappa, calc_form_factor only_orbital s lande kappa j0 j2 = 0.
Proof.
  intros w1 t w2 name q B1 B2 I M. unfold get_j0_j2_parameters. rewrite (ion_read _ _ _ _ _ B1 B2 I). cbn [bind]. destruct (find_magnetic magnetic_table (text name) q) as [v|] eqn:F.
  - exfalso. apply M. rewrite <- magnetic_keys. eapply find_magnetic_in, F.
  - do 2 eexists. split; [reflexivity|]. intros b s lande kappa. unfold calc_form_factor, calc_j0, calc_j2, j_sum, no_jpar. cbn [j_A j_a j_B j_b j_C j_c j_D]. destruct b; ring.
Qed.
