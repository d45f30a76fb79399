(** * SpecSymmetry: rearranging the words of a state *)
From Verif Require Import Base Field Spec.
Local Open Scope nat_scope.

(** s rearranges the positions 0, ..., t-1 *)
Definition rearrangement (t : nat) (s : nat -> nat) : Prop :=
  (forall i, i < t -> s i < t) /\ (forall i j, i < t -> j < t -> s i = s j -> i = j).
(** word i of the result is word s i of x *)
Definition rearrange {F : Type} {Fo : FOps F} (t : nat) (s : nat -> nat) (x : list F) : list F :=
  map (fun i => nth (s i) x f0) (seq 0 t).
(** rearranging the input words rearranges the output words in the same way *)
Definition symmetric_under {F : Type} {Fo : FOps F} (t : nat) (s : nat -> nat) (f : list F -> res (list F)) : Prop :=
  forall x, length x = t -> exists y, f x = Ok y /\ length y = t /\ f (rearrange t s x) = Ok (rearrange t s y).
(** s moves whole blocks of four words; e = 0: the words of a block keep their places, e = 2: in every block the two halves change places *)
Definition moves_blocks (t : nat) (s : nat -> nat) : Prop :=
  exists b e, (e = 0 \/ e = 2) /\ forall i, i < t -> s i = 4 * b (i / 4) + (i + e) mod 4.
