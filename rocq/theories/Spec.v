(** * Spec: the mathematical vocabulary used in property statements.

    Finite sums, powers, matrices given entry by entry.  Independent of the model. *)
From Verif Require Import Base Field.

Section Spec.
  Context {F : Type} {Fo : FOps F}.

  (** f 0 + f 1 + ... + f (n-1) *)
  Fixpoint sumn (n : nat) (f : nat -> F) : F :=
    match n with O => f0 | S k => fadd (sumn k f) (f k) end.

  (** x^n *)
  Fixpoint fpow (x : F) (n : nat) : F :=
    match n with O => f1 | S k => fmul x (fpow x k) end.

  (** the natural number n as a field element, 1 + ... + 1 *)
  Definition fnat (n : nat) : F := sumn n (fun _ => f1).

  (** A matrix is a function giving its entries. *)
  Definition mat := nat -> nat -> F.

  (** Matrix times vector: the n-vector with entries sum_(j<m) A i j * x_j. *)
  Definition mat_apply (n m : nat) (A : mat) (x : list F) : list F :=
    map (fun i => sumn m (fun j => fmul (A i j) (nth j x f0))) (seq 0 n).

  (** Matrix product over inner dimension n. *)
  Definition mat_mul (n : nat) (A B : mat) : mat :=
    fun i j => sumn n (fun k => fmul (A i k) (B k j)).

  Definition mat_id : mat := fun i j => if i =? j then f1 else f0.

  (** Entries of a vector of rows. *)
  Definition entry (m : list (list F)) : mat := fun i j => nth j (nth i m []) f0.

  (** m is a matrix with r rows, all of length c. *)
  Definition dims (r c : nat) (m : list (list F)) : Prop :=
    length m = r /\ forall i, i < r -> length (nth i m []) = c.

  (** A and B agree on the leading n x n block. *)
  Definition mat_eq (n : nat) (A B : mat) : Prop :=
    forall i j, i < n -> j < n -> A i j = B i j.

  (** B is the two-sided inverse of the n x n matrix A. *)
  Definition is_inverse (n : nat) (A B : mat) : Prop :=
    mat_eq n (mat_mul n A B) mat_id /\ mat_eq n (mat_mul n B A) mat_id.

  Definition invertible (n : nat) (A : mat) : Prop := exists B, is_inverse n A B.

  (** The leading k x k block of A is nonsingular: only the zero vector is mapped to zero. *)
  Definition nonsingular (k : nat) (A : mat) : Prop :=
    forall x : nat -> F,
      (forall i, i < k -> sumn k (fun j => fmul (A i j) (x j)) = f0) ->
      forall j, j < k -> x j = f0.
End Spec.

(** A partial function (outcome-valued) restricted to vectors of length [t] is a bijection
    of the set of vectors of length [t]: total, length preserving, injective, onto. *)
Definition bijective_on {F : Type} (t : nat) (f : list F -> res (list F)) : Prop :=
  (forall x, length x = t -> exists y, f x = Ok y /\ length y = t) /\
  (forall x x' y, length x = t -> length x' = t -> f x = Ok y -> f x' = Ok y -> x = x') /\
  (forall y, length y = t -> exists x, length x = t /\ f x = Ok y).
