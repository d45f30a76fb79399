(** * ModelRandom: the sampling functions of src/fields/utils.rs

    [F::rand(&mut thread_rng())] is an arbitrary stream [rng : nat -> F]; the position [pos] of the next
    draw is threaded through the code in evaluation order. *)
From Verif Require Import Base Field.

Section Random.
  Context {F : Type} {Fo : FOps F}.

  (** src/fields/utils.rs:14-17 random_scalar *)
  Definition random_scalar (rng : nat -> F) (pos : nat) : F * nat := (rng pos, S pos).

  (** src/fields/utils.rs:19-26 random_scalar_without_0: an unbounded loop; [Fuel] when it has not
      returned after [fuel] draws *)
  Fixpoint random_scalar_without_0 (fuel : nat) (rng : nat -> F) (pos : nat) : res (F * nat) :=
    match fuel with
    | O => Fuel
    | S fuel' =>
        let '(element, pos) := random_scalar rng pos in
        if negb (fis_zero element) then Ok (element, pos) else random_scalar_without_0 fuel' rng pos
    end.

  (** [(0..n).map(|_| utils::random_scalar()).collect()] *)
  Fixpoint random_vec (n : nat) (rng : nat -> F) (pos : nat) : list F * nat :=
    match n with
    | O => ([], pos)
    | S n' =>
        let '(a, pos) := random_scalar rng pos in
        let '(l, pos) := random_vec n' rng pos in
        (a :: l, pos)
    end.
  (** n such vectors of length m *)
  Fixpoint random_rows (n m : nat) (rng : nat -> F) (pos : nat) : list (list F) * nat :=
    match n with
    | O => ([], pos)
    | S n' =>
        let '(a, pos) := random_vec m rng pos in
        let '(l, pos) := random_rows n' m rng pos in
        (a :: l, pos)
    end.
End Random.
