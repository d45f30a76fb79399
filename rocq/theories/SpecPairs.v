(** * SpecPairs: differing pairs of neighbouring words before and after a map, independent of the model *)
From Verif Require Import Base Field Spec SpecMDS.

Section SpecPairs.
  Context {F : Type} {Fo : FOps F}.

  (** number of pairs (words 2i and 2i+1) in which two vectors differ *)
  Definition differ_pairs (x y : list F) : nat :=
    length (filter (fun i => negb (feqb (nth (2 * i) x f0) (nth (2 * i) y f0) && feqb (nth (2 * i + 1) x f0) (nth (2 * i + 1) y f0)))
      (seq 0 (length x / 2))).

  (** the rows and columns with even and with odd numbers *)
  Definition even_part (A : @mat F) : @mat F := fun i j => A (2 * i) (2 * j).
  Definition odd_part (A : @mat F) : @mat F := fun i j => A (2 * i + 1) (2 * j + 1).

  (** the least number of pairs in which two different vectors and their images differ together *)
  Definition active_pairs (t : nat) (f : list F -> res (list F)) (b : nat) : Prop :=
    (forall x y, length x = t -> length y = t -> x <> y ->
       exists u v, f x = Ok u /\ f y = Ok v /\ b <= differ_pairs x y + differ_pairs u v) /\
    (exists x y u v, length x = t /\ length y = t /\ x <> y /\ f x = Ok u /\ f y = Ok v /\ differ_pairs x y + differ_pairs u v = b).

  (** a change of one pair changes every pair of the image *)
  Definition full_pair_diffusion (t : nat) (f : list F -> res (list F)) : Prop :=
    forall x y, length x = t -> length y = t -> differ_pairs x y = 1 ->
      exists u v, f x = Ok u /\ f y = Ok v /\ differ_pairs u v = t / 2.

  (** along 2 m consecutive rounds the states of two different inputs differ in at least m b pairs in total *)
  Definition trail_pairs (t b : nat) (round : nat -> list F -> res (list F)) (lo m : nat) : Prop :=
    forall x y, length x = t -> length y = t -> x <> y ->
      exists st st' : nat -> list F,
        (forall k, k <= 2 * m -> for_range lo (lo + k) round x = Ok (st k) /\ for_range lo (lo + k) round y = Ok (st' k)) /\
        m * b <= list_sum (map (fun k => differ_pairs (st k) (st' k)) (seq 0 (2 * m))).
End SpecPairs.

(** characteristics in which one of the fixed blocks of width 4 or 8 is not MDS *)
Definition np_mds_bad_primes (t : nat) : list Z :=
  match t with 4 => [2; 3]%Z | 8 => [2; 3; 5; 7; 11; 17]%Z | _ => [] end.
