(** * SpecUnbiased: how many sequences of random draws give a value *)
From Verif Require Import Base Field Spec.
Local Open Scope nat_scope.

(** the first draws are those in l *)
Definition starts_with {F : Type} {Fo : FOps F} (l : list F) (rng : nat -> F) : Prop := forall i, i < length l -> rng i = nth i l f0.
(** L lists, without repetition, the sequences of k draws after which the outcome P is settled, however the draws continue *)
Definition lists_draws {F : Type} {Fo : FOps F} (k : nat) (P : (nat -> F) -> Prop) (L : list (list F)) : Prop :=
  NoDup L /\ forall l, In l L <-> length l = k /\ forall rng, starts_with l rng -> P rng.
(** k draws, t of them given and non-zero, in order, with any number of zeros in between; directly after them [extra] given draws *)
Fixpoint draws_number (p : Z) (extra k t : nat) : Z :=
  match t, k with
  | O, _ => if extra <=? k then (p ^ Z.of_nat (k - extra))%Z else 0%Z
  | S _, O => 0%Z
  | S t', S k' => (draws_number p extra k' t + draws_number p extra k' t')%Z
  end.
