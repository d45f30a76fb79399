(** * SpecMDS: branch number and minors, independent of the model *)
From Verif Require Import Base Field Spec.

Section SpecMDS.
  Context {F : Type} {Fo : FOps F}.

  (** number of non-zero entries *)
  Definition weight (x : list F) : nat := length (filter (fun a => negb (feqb a f0)) x).

  (** branch number n + 1 *)
  Definition is_mds (n : nat) (A : mat) : Prop :=
    forall x, length x = n -> x <> repeat f0 n -> n + 1 <= weight x + weight (mat_apply n n A x).

  (** every square submatrix (choice of distinct rows and distinct columns) is nonsingular *)
  Definition minors_nonsingular (n : nat) (A : mat) : Prop :=
    forall rows cols : list nat, NoDup rows -> NoDup cols -> length rows = length cols ->
      (forall r, In r rows -> r < n) -> (forall c, In c cols -> c < n) ->
      nonsingular (length rows) (fun i j => A (nth i rows 0) (nth j cols 0)).
End SpecMDS.
