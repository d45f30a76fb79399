(** * Declared fields and S-box exponents: C46 - C49 *)
From Coq Require Import Znumtheory.
From Verif Require Import Base Field Spec SpecPoseidon2 SpecFields SpecPoseidon ModelFields ModelInstances ModelPoseidon2 ModelPoseidon F13.
From Verif Require ProofFieldFacts ProofCollision ProofPoseidon.
Local Open Scope nat_scope.

(** ** C46 *)
Theorem C46_moduli_prime : forall p g, In (p, g) declared_fields -> prime p.
Proof. exact ProofFieldFacts.declared_primes. Qed.
Print Assumptions C46_moduli_prime.

Example C46_ex : In (p_goldilocks, 7%Z) declared_fields /\ p_goldilocks = (2 ^ 64 - 2 ^ 32 + 1)%Z /\
  p_babybear = (15 * 2 ^ 27 + 1)%Z.
Proof. repeat split. cbn. auto. Qed.

(** ** C47 *)
Theorem C47_generators_primitive :
  forall p g, In (p, g) declared_fields ->
  forall F (Fo : FOps F), is_prime_field Fo p ->
    (forall k, fpow (f_of_Z g) k = (f1 : F) <-> (p - 1 | Z.of_nat k)%Z) /\
    (forall x : F, x <> f0 -> exists k, fpow (f_of_Z g) k = x).
Proof. exact ProofFieldFacts.declared_generators. Qed.
Print Assumptions C47_generators_primitive.

(** for comparison: in the field of 13 elements 3 is not primitive (3^3 = 1) *)
Example C47_ex : In (p_babybear, 31%Z) declared_fields /\ fpow (e13 3) 3 = (f1 : F13) /\ ~ (13 - 1 | 3)%Z.
Proof.
  split; [left; reflexivity|]. split; [vm_compute; reflexivity|].
  intros H. apply Z.divide_pos_le in H; lia.
Qed.

(** ** C48 *)
Theorem C48_shipped_exponents :
  forall p d, In (p, d) shipped_sboxes ->
  least_exponent p d /\ forall F (Fo : FOps F), is_prime_field Fo p ->
    (forall x y : F, fpow x d = fpow y d -> x = y) /\ (forall y : F, exists x, fpow x d = y).
Proof. exact ProofFieldFacts.shipped_exponents. Qed.
Print Assumptions C48_shipped_exponents.

Example C48_ex : In (p_babybear, 7) shipped_sboxes /\ length shipped_sboxes = 85.
Proof. split; [left; reflexivity|vm_compute; reflexivity]. Qed.

(** ** C49 *)
Theorem C49_poseidon2_collides :
  forall F (Fo : FOps F) p, is_prime_field Fo p ->
  forall dbg t d rf rp diag mi rc P,
    p2_new dbg t d rf rp diag mi rc = Ok P ->
    (N.of_nat rf + N.of_nat rp < usize_mod)%N ->
    p2_width t -> sbox_degree d -> p2_data_ok t rf rp diag rc -> 0 < rf + rp ->
    Z.gcd (Z.of_nat d) (p - 1) <> 1%Z -> collision t (p2_permutation dbg P).
Proof. exact @ProofCollision.p2_collision. Qed.
Print Assumptions C49_poseidon2_collides.

Theorem C49_poseidon_collides :
  forall F (Fo : FOps F) p, is_prime_field Fo p ->
  forall dbg t d rf rp (mds rc : list (list F)) P,
    ps_new dbg t d rf rp mds rc = Ok P -> (N.of_nat rf + N.of_nat rp < usize_mod)%N -> dims t t mds ->
    ProofPoseidon.ps_rows_ok t rf rp rc -> Z.gcd (Z.of_nat d) (p - 1) <> 1%Z ->
    collision t (ps_permutation dbg P) /\ collision t (ps_permutation_not_opt dbg P).
Proof. exact @ProofCollision.ps_collision. Qed.
Print Assumptions C49_poseidon_collides.

(** such instances are accepted, for every width *)
Theorem C49_poseidon2_accepted :
  forall F (Fo : FOps F) p, is_prime_field Fo p ->
  forall dbg t d, p2_width t -> sbox_degree d -> Z.gcd (Z.of_nat d) (p - 1) <> 1%Z ->
    exists diag mi rc (P : Poseidon2Params F), p2_new dbg t d 8 56 diag mi rc = Ok P /\
      dims 64 t rc /\ length diag = t /\ collision t (p2_permutation dbg P).
Proof. exact @ProofFieldFacts.p2_accepted. Qed.
Print Assumptions C49_poseidon2_accepted.

Theorem C49_poseidon_accepted :
  forall F (Fo : FOps F) p, is_prime_field Fo p ->
  forall dbg t d, 2 <= t -> sbox_degree d -> Z.gcd (Z.of_nat d) (p - 1) <> 1%Z ->
    exists mds rc (P : PoseidonParams F), ps_new dbg t d 8 56 mds rc = Ok P /\
      dims t t mds /\ dims 64 t rc /\ collision t (ps_permutation dbg P) /\ collision t (ps_permutation_not_opt dbg P).
Proof. exact @ProofFieldFacts.ps_accepted. Qed.
Print Assumptions C49_poseidon_accepted.

(** the hypothesis holds for d = 3 in every declared field *)
Theorem C49_three_not_coprime : forall p g, In (p, g) declared_fields -> Z.gcd 3 (p - 1) = 3%Z.
Proof. exact ProofFieldFacts.three_not_coprime. Qed.
Print Assumptions C49_three_not_coprime.

(** an explicit collision over the field of 13 elements: one full round, d = 3 and 1^3 = 3^3 *)
Example C49_ex : Z.gcd 3 (13 - 1) = 3%Z /\
  (P <- @p2_new F13 true 2 3 2 0 [] [] (map l13 [[0;0];[0;0]]%Z) ;; out13 (@p2_permutation _ F13_ops true P (l13 [6;4]%Z))) =
  (P <- @p2_new F13 true 2 3 2 0 [] [] (map l13 [[0;0];[0;0]]%Z) ;; out13 (@p2_permutation _ F13_ops true P (l13 [9;9]%Z))).
Proof. split; vm_compute; reflexivity. Qed.
