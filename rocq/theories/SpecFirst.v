(** * SpecFirst: rounds in which the first words of two states differ, independent of the model *)
From Verif Require Import Base Field Spec.

Section SpecFirst.
  Context {F : Type} {Fo : FOps F}.

  (** the states of x before the rounds lo, lo + 1, ..., lo + n - 1 *)
  Definition states (step : nat -> list F -> res (list F)) (lo n : nat) (x : list F) (st : nat -> list F) : Prop :=
    forall k, k < n -> for_range lo (lo + k) step x = Ok (st k).

  (** in how many of n states the first words differ *)
  Definition first_differ (n : nat) (st st' : nat -> list F) : nat :=
    length (filter (fun k => negb (feqb (nth 0 (st k) f0) (nth 0 (st' k) f0))) (seq 0 n)).
End SpecFirst.

Section SpecActive.
  Context {F : Type} {Fo : FOps F}.

  (** the first words of any two different states differ in at least m of n consecutive rounds *)
  Definition active_rounds (t : nat) (step : nat -> list F -> res (list F)) (lo n m : nat) : Prop :=
    forall x y, length x = t -> length y = t -> x <> y ->
      exists st st', states step lo n x st /\ states step lo n y st' /\ m <= first_differ n st st'.

  (** some two different states have equal first words in n consecutive rounds *)
  Definition quiet_pair (t : nat) (step : nat -> list F -> res (list F)) (lo n : nat) : Prop :=
    exists x y st st', length x = t /\ length y = t /\ x <> y /\
      states step lo n x st /\ states step lo n y st' /\ first_differ n st st' = 0.

  (** positions 1, ..., t - 1 hold different values *)
  Definition distinct_from_1 (t : nat) (m : nat -> F) : Prop :=
    forall i j, 1 <= i < t -> 1 <= j < t -> i <> j -> m i <> m j.

  (** two of the positions 1, ..., t - 1 hold the same value *)
  Definition repeated_from_1 (t : nat) (m : nat -> F) : Prop :=
    exists i j, 1 <= i < t /\ 1 <= j < t /\ i <> j /\ m i = m j.
End SpecActive.
