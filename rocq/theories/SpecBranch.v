(** * SpecBranch: differing words before and after a map, independent of the model *)
From Verif Require Import Base Field Spec SpecMDS.

Section SpecBranch.
  Context {F : Type} {Fo : FOps F}.

  (** number of positions in which two vectors differ *)
  Definition differ (x y : list F) : nat :=
    length (filter (fun i => negb (feqb (nth i x f0) (nth i y f0))) (seq 0 (length x))).

  (** the least number of non-zero words of a non-zero vector and its image together *)
  Definition branch_number (t : nat) (A : mat) (b : nat) : Prop :=
    (forall x, length x = t -> x <> repeat f0 t -> b <= weight x + weight (mat_apply t t A x)) /\
    (exists x, length x = t /\ x <> repeat f0 t /\ weight x + weight (mat_apply t t A x) = b).

  (** the least number of words in which two different vectors and their images differ together *)
  Definition active_words (t : nat) (f : list F -> res (list F)) (b : nat) : Prop :=
    (forall x y, length x = t -> length y = t -> x <> y ->
       exists u v, f x = Ok u /\ f y = Ok v /\ b <= differ x y + differ u v) /\
    (exists x y u v, length x = t /\ length y = t /\ x <> y /\ f x = Ok u /\ f y = Ok v /\ differ x y + differ u v = b).

  (** a change of one word changes every word of the image *)
  Definition full_diffusion (t : nat) (f : list F -> res (list F)) : Prop :=
    forall x y, length x = t -> length y = t -> differ x y = 1 ->
      exists u v, f x = Ok u /\ f y = Ok v /\ differ u v = t.

  (** along 2 m consecutive rounds the states of two different inputs differ in at least m b words in total *)
  Definition trail_words (t b : nat) (round : nat -> list F -> res (list F)) (lo m : nat) : Prop :=
    forall x y, length x = t -> length y = t -> x <> y ->
      exists st st' : nat -> list F,
        (forall k, k <= 2 * m -> for_range lo (lo + k) round x = Ok (st k) /\ for_range lo (lo + k) round y = Ok (st' k)) /\
        m * b <= list_sum (map (fun k => differ (st k) (st' k)) (seq 0 (2 * m))).
End SpecBranch.

(** t + 1 (the largest possible) for t = 2, 3, 4, and t/4 + 4 for larger multiples of four *)
Definition p2_branch (t : nat) : nat := if t <=? 4 then t + 1 else t / 4 + 4.

(** characteristics excluded for the external matrices *)
Definition branch_bad_primes (t : nat) : list Z :=
  if t <? 4 then [2; 3]%Z else [2; 3; 5; 7; 11; 13; 19; 23]%Z.
