(** Standard settings, in the form used by the property file. *)
From Coq Require Import Reals ZArith QArith List String Ascii Bool Lia.
From Verif Require Import Spec.Symm Spec.SgSpec Model.SgTables Model.WyckoffData Model.SpaceGroup Proofs.SgAllP Proofs.SgConjP Proofs.SgRef2P.
Import ListNotations.
Open Scope string_scope.
Open Scope Z_scope.
Lemma standard : forall it r, 1 <= it <= 230 -> space_group it (ref_code it) = Some r ->
  (it <> 228 -> new_space_group (mkInput (Some it) None None None None None) = Some r) /\ (it = 228 -> space_group 228 (Some "1") = Some r).
Proof.
  intros it r I H. unfold ref_code in H. split; intros N.
  - destruct (Z.eqb_spec it 228); [contradiction|]. fold (by_number it). rewrite new_by_number by exact I. exact H.
  - subst it. exact H.
Qed.
Lemma settings_conjugate : forall it code g, 1 <= it <= 230 -> offered (get_it_coordinate_system_codes_by_it_number it) code ->
  space_group it code = Some g -> misplaced_centre it code = false ->
  exists r f ops_r ops,
    ((it <> 228 -> new_space_group (mkInput (Some it) None None None None None) = Some r) /\ (it = 228 -> space_group 228 (Some "1") = Some r)) /\
    get_symm_elems (sg_full r) = Some ops_r /\ get_symm_elems (sg_full g) = Some ops /\
    axes_of_code code = Some (e_r f) /\ 0 < e_d f /\ carries f ops_r ops.
Proof.
  intros it code g I O B M. destruct (conjugate it code g I O B M) as [r [f [o [o' [R K]]]]]. exists r, f, o, o'. split; [now apply standard|exact K].
Qed.
Lemma not_conjugate : exists r g ops_r ops A, new_space_group (mkInput (Some 50) None None None None None) = Some r /\ space_group 50 (Some "1cab") = Some g /\
  get_symm_elems (sg_full r) = Some ops_r /\ get_symm_elems (sg_full g) = Some ops /\ axes_of_code (Some "1cab") = Some A /\
  forall f, e_r f = A -> ~ carries f ops_r ops.
Proof.
  destruct not_conjugate_50 as [r [g [o [o' [A [R K]]]]]]. exists r, g, o, o', A. split; [|exact K]. apply (standard 50 r); [lia|exact R|lia].
Qed.
