(** * SpecMinPoly: minimal polynomials of matrices, irreducibility, linear subspaces *)
From Verif Require Import Base Field Spec SpecPoseidon.

(** f applied n times *)
Fixpoint iter {A : Type} (n : nat) (f : A -> A) (x : A) : A :=
  match n with O => x | S m => f (iter m f x) end.

Section SpecMinPoly.
  Context {F : Type} {Fo : FOps F}.

  (** Polynomials are coefficient lists, lowest degree first.  The value of [g] at the t x t matrix [M]. *)
  Definition mat_poly (t : nat) (g : list F) (M : mat) : mat :=
    fun i j => sumn (length g) (fun k => fmul (nth k g f0) (mat_pow t M k i j)).

  Definition annihilates (t : nat) (g : list F) (M : mat) : Prop :=
    forall i j, i < t -> j < t -> mat_poly t g M i j = f0.

  (** [g ++ [1]], of degree [length g], is the monic polynomial of least degree that annihilates M *)
  Definition is_minimal_polynomial (t : nat) (M : mat) (g : list F) : Prop :=
    annihilates t (g ++ [f1]) M /\
    forall h, length h < length g -> ~ annihilates t (h ++ [f1]) M.

  (** the coefficient of x^k in the product of two polynomials *)
  Definition product_coefficient (a b : list F) (k : nat) : F :=
    sumn (S k) (fun i => fmul (nth i a f0) (nth (k - i) b f0)).

  (** the monic polynomial [g ++ [1]] of degree >= 1 is not a product of two monic polynomials of smaller degree *)
  Definition is_irreducible (g : list F) : Prop :=
    1 <= length g /\
    ~ exists a b, length a < length g /\ length b < length g /\
        forall k, product_coefficient (a ++ [f1]) (b ++ [f1]) k = nth k (g ++ [f1]) f0.

  (** a set of vectors of length t that is closed under linear combinations *)
  Definition is_subspace (t : nat) (S : list F -> Prop) : Prop :=
    (forall v, S v -> length v = t) /\
    (forall v w a b, S v -> S w ->
       S (map (fun i => fadd (fmul a (nth i v f0)) (fmul b (nth i w f0))) (seq 0 t))).
End SpecMinPoly.

(** a fallible function applied n times *)
Fixpoint repeatM {A : Type} (n : nat) (f : A -> res A) (x : A) : res A :=
  match n with O => Ok x | S m => bind (f x) (repeatM m f) end.
