(** * SpecWhole: S-boxes with different inputs over a whole permutation, independent of the model *)
From Verif Require Import Base Field Spec.

Section SpecWhole.
  Context {F : Type} {Fo : FOps F}.

  (** rounds lo, ..., hi - 1 are of the second kind, all others of the first *)
  Definition mixed (full part : nat -> list F -> res (list F)) (lo hi r : nat) : list F -> res (list F) :=
    if (lo <=? r) && (r <? hi) then part r else full r.

  (** st r is the state of x before round r of a permutation of n rounds, st n its result *)
  Definition runs (start : list F -> res (list F)) (round : nat -> list F -> res (list F)) (n : nat)
      (perm : list F -> res (list F)) (x : list F) (st : nat -> list F) : Prop :=
    start x = Ok (st 0) /\ (forall r, r < n -> round r (st r) = Ok (st (S r))) /\ perm x = Ok (st n).

  (** 1 if the first words differ *)
  Definition first_active (u v : list F) : nat := if feqb (nth 0 u f0) (nth 0 v f0) then 0 else 1.

  (** any two different inputs give different inputs to at least m S-boxes in all: [act] counts them in a round of the first
      kind, in a round of the second kind there is one S-box, at the first word *)
  Definition whole_active (t : nat) (act : list F -> list F -> nat) (perm start : list F -> res (list F))
      (full part : nat -> list F -> res (list F)) (lo hi n m : nat) : Prop :=
    forall x y, length x = t -> length y = t -> x <> y ->
      exists st st', runs start (mixed full part lo hi) n perm x st /\ runs start (mixed full part lo hi) n perm y st' /\
        m <= list_sum (map (fun r => if (lo <=? r) && (r <? hi) then first_active (st r) (st' r) else act (st r) (st' r)) (seq 0 n)).
End SpecWhole.

(** full rounds come in two halves of rf/2 rounds; any two consecutive ones have b active S-boxes, a single one has 1,
    and m more are in the partial rounds *)
Definition whole_bound (rf b m : nat) : nat := 2 * (rf / 2 / 2 * b + (rf / 2) mod 2) + m.
