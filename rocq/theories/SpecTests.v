(** * SpecTests: when the unit tests of the repository pass *)
From Verif Require Import Base Field Spec SpecNeptune ModelInstances ModelNeptune ModelTests.

Section SpecTests.
  Context {F : Type} {Fo : FOps F}.

  (** The loops that draw a second, different vector stop within [fuel] attempts. *)
  Definition lively (fuel : nat) (rnd : nat -> F) : Prop :=
    forall t q, 1 <= t <= 24 -> exists k, k < fuel /\ map rnd (seq q t) <> map rnd (seq (q + (1 + k) * t) t).

  (** The loops that draw nonzero parameters stop within [fuel] attempts. *)
  Definition nonzero_draws (fuel : nat) (rng : nat -> nat -> F) : Prop := forall i q, exists k, k < fuel /\ rng i (q + k) <> (f0 : F).

  (** both matrices of a Neptune instance are invertible *)
  Definition np_good (P : NeptuneParams F) : Prop :=
    invertible (np_t P) (entry (np_m_e P)) /\ invertible (np_t P) (np_int_matrix (fun i => fadd (nth i (np_mu P) f0) f1)).
End SpecTests.

(** the tests whose result does not depend on the draws of a Neptune instance *)
Definition independent (tst : test) : bool :=
  match tst with
  | ConsistentNp _ | Input24 _ _ _ _ => false
  | MatmulEqualities t => (t =? 4) || (t =? 8)
  | _ => true
  end.
