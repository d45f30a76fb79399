(** * SpecRagged: matrices whose rows have different lengths

    [Vec<Vec<F>>] does not force the rows of a matrix to have one length.  These words
    describe such matrices; nothing here refers to the model. *)
From Verif Require Import Base Field.

Section Ragged.
  Context {F : Type} {Fo : FOps F}.

  (** [n] rows, the first of length [n], the others at least as long. *)
  Definition wide (n : nat) (m : list (list F)) : Prop :=
    length m = n /\ length (nth 0 m []) = n /\ forall i, i < n -> n <= length (nth i m []).

  (** Keep the first [n] entries of every row. *)
  Definition narrow (n : nat) (m : list (list F)) : list (list F) := map (firstn n) m.

  (** All entries behind the first [n] of a row are zero. *)
  Definition surplus_zero (n : nat) (m : list (list F)) : Prop :=
    forall i j, i < length m -> n <= j < length (nth i m []) -> nth j (nth i m []) f0 = f0.
End Ragged.
