(** * SpecDraws: invertible matrices among all matrices of field elements *)
From Verif Require Import Base Field Spec.
Local Open Scope nat_scope.

(** L lists, without repetition, the invertible n x n matrices *)
Definition lists_invertible {F : Type} {Fo : FOps F} (n : nat) (L : list (list (list F))) : Prop :=
  NoDup L /\ forall m, In m L <-> dims n n m /\ invertible n (entry m).
(** the number of them: (p^n - 1) (p^n - p) ... (p^n - p^(n-1)) *)
Definition invertible_number (p : Z) (n : nat) : Z :=
  fold_right Z.mul 1%Z (map (fun i => (p ^ Z.of_nat n - p ^ Z.of_nat i)%Z) (seq 0 n)).
(** n * n consecutive draws, row after row *)
Definition drawn {F : Type} (rng : nat -> F) (n first : nat) : list (list F) :=
  map (fun i => map (fun j => rng (first + i * n + j)) (seq 0 n)) (seq 0 n).
