(** * SpecSbox: how often an S-box agrees with affine maps, independent of the model *)
From Verif Require Import Base Field Spec.

Section SpecSbox.
  Context {F : Type} {Fo : FOps F}.

  (** f (x + a) - f x takes each value at most n times, for every a other than zero *)
  Definition differential_bound (f : F -> res F) (n : nat) : Prop :=
    forall a b L, a <> f0 -> NoDup L ->
      (forall x, In x L -> exists u v, f (fadd x a) = Ok u /\ f x = Ok v /\ fsub u v = b) -> length L <= n.

  (** f agrees with any affine map at no more than n points *)
  Definition affine_bound (f : F -> res F) (n : nat) : Prop :=
    forall a b L, NoDup L -> (forall x, In x L -> f x = Ok (fadd (fmul a x) b)) -> length L <= n.

  (** the two words of the output difference for an input difference (a, b) *)
  Definition pair_difference (f : F -> F -> F * F) (a b x1 x2 : F) : F * F :=
    (fsub (fst (f (fadd x1 a) (fadd x2 b))) (fst (f x1 x2)), fsub (snd (f (fadd x1 a) (fadd x2 b))) (snd (f x1 x2))).

  (** on pairs: every output difference arises from at most n pairs; n is the least such bound *)
  Definition pair_uniformity (f : F -> F -> F * F) (n : Z) : Prop :=
    (forall a b c L, ~ (a = f0 /\ b = f0) -> NoDup L ->
       (forall x, In x L -> pair_difference f a b (fst x) (snd x) = c) -> (Z.of_nat (length L) <= n)%Z) /\
    (exists a b c L, ~ (a = f0 /\ b = f0) /\ NoDup L /\
       (forall x, In x L -> pair_difference f a b (fst x) (snd x) = c) /\ Z.of_nat (length L) = n).
End SpecSbox.
