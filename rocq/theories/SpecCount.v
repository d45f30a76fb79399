(** * SpecCount: counting states *)
From Verif Require Import Base Field Spec.
Local Open Scope nat_scope.

Section Count.
  Context {F : Type} {Fo : FOps F}.
  (** the field elements 0, 1, ..., p-1 *)
  Definition elements (p : Z) : list F := map (fun k => f_of_Z (Z.of_nat k)) (seq 0 (Z.to_nat p)).
  (** all vectors of length n *)
  Fixpoint vectors (p : Z) (n : nat) : list (list F) :=
    match n with
    | 0 => [[]]
    | S m => flat_map (fun a => map (cons a) (vectors p m)) (elements p)
    end.
  (** how many vectors of length n satisfy Q *)
  Definition number (p : Z) (n : nat) (Q : list F -> bool) : Z := Z.of_nat (length (filter Q (vectors p n))).
  (** Q holds for the output of f *)
  Definition after (f : list F -> res (list F)) (Q : list F -> bool) (x : list F) : bool :=
    match f x with Ok y => Q y | _ => false end.
  (** word k is h *)
  Definition word_is (k : nat) (h : F) (y : list F) : bool := feqb (nth k y f0) h.
  (** g gives h *)
  Definition gives (g : list F -> res F) (h : F) (x : list F) : bool :=
    match g x with Ok y => feqb y h | _ => false end.
  (** a uniformly distributed input gives a uniformly distributed output *)
  Definition keeps_uniform (p : Z) (n : nat) (f : list F -> res (list F)) : Prop :=
    forall Q, number p n (after f Q) = number p n Q.
  (** some value is taken by at least p^(n-1) of the p^n vectors; with two words or more, two different vectors share it *)
  Definition must_collide (p : Z) (n : nat) (g : list F -> res F) : Prop :=
    exists h, (p ^ Z.of_nat (n - 1) <= number p n (gives g h))%Z /\
      (2 <= n -> exists x x', length x = n /\ length x' = n /\ x <> x' /\ g x = Ok h /\ g x' = Ok h).
End Count.
