(** * SpecSingular: the diagonals for which Neptune's internal matrix is singular *)
From Verif Require Import Base Field Spec SpecNeptune.
Local Open Scope nat_scope.

(** all diagonals without zero entries *)
Definition nonzero_diagonal {F : Type} {Fo : FOps F} (t : nat) (m : list F) : Prop := length m = t /\ forall i, i < t -> nth i m f0 <> f0.
(** L lists, without repetition, those for which the matrix (m on the diagonal, ones elsewhere) is not invertible *)
Definition lists_singular {F : Type} {Fo : FOps F} (t : nat) (L : list (list F)) : Prop :=
  NoDup L /\ forall m, In m L <-> nonzero_diagonal t m /\ ~ invertible t (np_int_matrix (fun i => nth i m f0)).
(** the number of them, times p *)
Definition singular_number (p : Z) (t : nat) : Z :=
  let n := Z.of_nat t in (p * ((p - 1) ^ n - (p - 2) ^ n - n * (p - 2) ^ (n - 1) + n) + (p - 2) ^ n - 2 ^ n)%Z.
