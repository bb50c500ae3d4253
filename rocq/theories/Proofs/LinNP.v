From Coq Require Import Reals Lra Lia List Arith.
From Verif Require Import Spec.LinN.
Import ListNotations.
Open Scope R_scope.
Lemma sumn_ext n f g : (forall i, (i < n)%nat -> f i = g i) -> sumn n f = sumn n g.
Proof. induction n as [|n IH]; intros H; cbn; [reflexivity|]. rewrite IH, H by (intros; try apply H; lia). reflexivity. Qed.
Lemma sumn_plus n f g : sumn n (fun i => f i + g i) = sumn n f + sumn n g.
Proof. induction n as [|n IH]; cbn; [lra|]. rewrite IH. ring. Qed.
Lemma sumn_scal n c f : sumn n (fun i => c * f i) = c * sumn n f.
Proof. induction n as [|n IH]; cbn; [lra|]. rewrite IH. ring. Qed.
Lemma sumn_scal_r n c f : sumn n (fun i => f i * c) = sumn n f * c.
Proof. induction n as [|n IH]; cbn; [lra|]. rewrite IH. ring. Qed.
Lemma sumn_opp n f : sumn n (fun i => - f i) = - sumn n f.
Proof. induction n as [|n IH]; cbn; [lra|]. rewrite IH. ring. Qed.
Lemma sumn_zero n f : (forall i, (i < n)%nat -> f i = 0) -> sumn n f = 0.
Proof. intros H. rewrite (sumn_ext n f (fun _ => 0)) by exact H. clear H. induction n as [|n IH]; cbn; lra. Qed.
Lemma sumn_swap n m f : sumn n (fun i => sumn m (fun j => f i j)) = sumn m (fun j => sumn n (fun i => f i j)).
Proof.
  induction n as [|n IH]; cbn.
  - symmetry. apply sumn_zero. reflexivity.
  - rewrite IH. rewrite <- sumn_plus. reflexivity.
Qed.
Lemma sumn_delta n i f : (i < n)%nat -> sumn n (fun j => f j * delta j i) = f i.
Proof.
  induction n as [|n IH]; intros H; [lia|]. cbn. destruct (Nat.eq_dec i n) as [->|N].
  - rewrite sumn_zero; [unfold delta; destruct (Nat.eq_dec n n); [ring|congruence]|].
    intros j J. unfold delta. destruct (Nat.eq_dec j n); [lia|ring].
  - rewrite IH by lia. unfold delta. destruct (Nat.eq_dec n i); [lia|ring].
Qed.
Lemma sumn_delta' n i f : (i < n)%nat -> sumn n (fun j => delta i j * f j) = f i.
Proof.
  intros H. rewrite <- (sumn_delta n i f H). apply sumn_ext. intros j J. unfold delta.
  destruct (Nat.eq_dec i j), (Nat.eq_dec j i); subst; try congruence; ring.
Qed.
Lemma sumn_S n f : sumn (S n) f = f O + sumn n (fun i => f (S i)).
Proof. induction n as [|n IH]; [cbn; ring|]. change (sumn (S (S n)) f) with (sumn (S n) f + f (S n)). rewrite IH. cbn [sumn]. ring. Qed.
Lemma sumn_nonneg n f : (forall i, (i < n)%nat -> 0 <= f i) -> 0 <= sumn n f.
Proof. induction n as [|n IH]; intros H; cbn; [lra|]. assert (0 <= sumn n f) by (apply IH; intros; apply H; lia). assert (0 <= f n) by (apply H; lia). lra. Qed.
Lemma suml_ext {A} (f g : A -> R) l : (forall x, In x l -> f x = g x) -> suml f l = suml g l.
Proof. induction l as [|a l IH]; intros H; cbn; [reflexivity|]. rewrite IH, H by (intros; try apply H; cbn; auto). reflexivity. Qed.
Lemma suml_app {A} (f : A -> R) l m : suml f (l ++ m) = suml f l + suml f m.
Proof. induction l as [|a l IH]; cbn; [lra|]. rewrite IH. ring. Qed.
Lemma suml_plus {A} (f g : A -> R) l : suml (fun x => f x + g x) l = suml f l + suml g l.
Proof. induction l as [|a l IH]; cbn; [lra|]. rewrite IH. ring. Qed.
Lemma suml_scal {A} (c : R) (f : A -> R) l : suml (fun x => c * f x) l = c * suml f l.
Proof. induction l as [|a l IH]; cbn; [lra|]. rewrite IH. ring. Qed.
Lemma suml_nth {A} (f : A -> R) l d : suml f l = sumn (length l) (fun i => f (nth i l d)).
Proof. induction l as [|a l IH]; [reflexivity|]. cbn [length suml]. rewrite sumn_S, IH. reflexivity. Qed.
Lemma suml_map {A B} (f : B -> R) (g : A -> B) l : suml f (map g l) = suml (fun x => f (g x)) l.
Proof. induction l as [|a l IH]; cbn; congruence. Qed.
Lemma mulmm_assoc n m a b c i j : mulmm m (mulmm n a b) c i j = mulmm n a (mulmm m b c) i j.
Proof.
  unfold mulmm. transitivity (sumn m (fun k => sumn n (fun l => a i l * b l k * c k j))).
  - apply sumn_ext. intros k _. rewrite <- sumn_scal_r. reflexivity.
  - rewrite sumn_swap. apply sumn_ext. intros l _. rewrite <- sumn_scal. apply sumn_ext. intros; ring.
Qed.
