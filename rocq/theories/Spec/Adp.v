(** Vocabulary for displacement parameters. *)
From Coq Require Import Reals.
From Verif Require Import Spec.Lin3 Spec.Cell.
Open Scope R_scope.
Definition eye : M3 R := mkM 1 0 0 0 1 0 0 0 1.
(** a symmetric tensor with non-negative quadratic form (a physical displacement tensor) *)
Definition psd (q : Q6 R) : Prop := forall v : ix -> R, 0 <= sum3 (fun i => sum3 (fun j => v i * qget q i j * v j)).
(** the tensor with its n-th stored element (11, 22, 33, 12, 13, 23) replaced by t, and that element *)
Definition q_vary (q : Q6 R) (n : nat) (t : R) : Q6 R :=
  let '(mkQ a b c d e f) := q in
  match n with 0 => mkQ t b c d e f | 1 => mkQ a t c d e f | 2 => mkQ a b t d e f | 3 => mkQ a b c t e f | 4 => mkQ a b c d t f | 5 => mkQ a b c d e t | _ => q end%nat.
Definition q_elem (q : Q6 R) (n : nat) : R :=
  let '(mkQ a b c d e f) := q in match n with 0 => a | 1 => b | 2 => c | 3 => d | 4 => e | _ => f end%nat.
