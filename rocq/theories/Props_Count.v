(** * Uniform outputs and unavoidable collisions: C86 *)
From Verif Require Import Base Field Spec ModelPoseidon2 ModelPoseidon ModelGmimc ModelNeptune ModelMerkle ModelInstances SpecPoseidon2 SpecNeptune SpecInstances
  SpecCount F13 Props_Matrix Props_Poseidon Props_Poseidon2 Props_Neptune Props_Gmimc Props_Merkle.
From Verif Require ProofCount.
Local Open Scope nat_scope.

(** the list that is counted: every vector once *)
Theorem C86_vectors :
  forall F (Fo : FOps F) p, is_prime_field Fo p -> forall n,
    (forall x : list F, In x (vectors p n) <-> length x = n) /\ NoDup (vectors (F := F) p n) /\
    number (F := F) p n (fun _ => true) = (p ^ Z.of_nat n)%Z.
Proof. exact @ProofCount.vectors_spec. Qed.
Print Assumptions C86_vectors.

(** Uniform input, uniform output: for every set Q of states, as many inputs are mapped into Q as there are states in Q.
    This is the case exactly under the following conditions. *)
Theorem C86_poseidon2 :
  forall F (Fo : FOps F) p, is_prime_field Fo p ->
  forall dbg t d rf rp (diag : list F) (mi rc : list (list F)) P,
    p2_new dbg t d rf rp diag mi rc = Ok P -> (N.of_nat rf + N.of_nat rp < usize_mod)%N ->
    p2_width t -> sbox_degree d -> p2_data_ok t rf rp diag rc ->
    (keeps_uniform p t (p2_permutation dbg P) <->
     (rf + rp = 0 \/ Z.gcd (Z.of_nat d) (p - 1) = 1%Z) /\ ~ In p (ext_bad_primes t) /\ (rp = 0 \/ invertible t (int_matrix t diag))).
Proof. exact @ProofCount.p2_uniform. Qed.
Print Assumptions C86_poseidon2.

Theorem C86_poseidon :
  forall F (Fo : FOps F) p, is_prime_field Fo p ->
  forall dbg t d rf rp (mds rc : list (list F)) P,
    ps_new dbg t d rf rp mds rc = Ok P -> (N.of_nat rf + N.of_nat rp < usize_mod)%N -> dims t t mds -> ps_enough_constants t (rf + rp) rc ->
    (keeps_uniform p t (ps_permutation dbg P) <-> Z.gcd (Z.of_nat d) (p - 1) = 1%Z) /\
    (keeps_uniform p t (ps_permutation_not_opt dbg P) <-> Z.gcd (Z.of_nat d) (p - 1) = 1%Z).
Proof. exact @ProofCount.ps_uniform. Qed.
Print Assumptions C86_poseidon.

Theorem C86_gmimc :
  forall F (Fo : FOps F) p, is_prime_field Fo p ->
  forall dbg rng t d rounds (P : GmimcParams F), gm_new rng t d rounds = Ok P -> 1 <= t -> 1 <= rounds ->
    keeps_uniform p t (gm_permutation dbg P) /\ keeps_uniform p t (gm_permutation_not_opt dbg P).
Proof. exact @ProofCount.gm_uniform. Qed.
Print Assumptions C86_gmimc.

Theorem C86_neptune :
  forall F (Fo : FOps F) p, is_prime_field Fo p ->
  forall dbg fuel rng t d rf rp (P : NeptuneParams F),
    np_new dbg fuel rng t d rf rp = Ok P -> (N.of_nat rf + N.of_nat rp < usize_mod)%N -> 2 <= t ->
    (keeps_uniform p t (np_permutation dbg P) <->
     invertible t (entry (np_m_e P)) /\ (rf = 0 \/ p <> 5%Z) /\
     (rp = 0 \/ (invertible t (np_int_matrix (fun i => fadd (nth i (np_mu P) f0) f1)) /\ Z.gcd (Z.of_nat d) (p - 1) = 1%Z))).
Proof. exact @ProofCount.np_uniform. Qed.
Print Assumptions C86_neptune.

(** the shipped instances: each value of each output word has exactly p^(t-1) preimages *)
Theorem C86_poseidon2_shipped :
  forall I, In I p2_instances -> forall F (Fo : FOps F), is_prime_field Fo (qi_p I) -> forall dbg,
  exists Q, p2_instance_params dbg I = Ok Q /\ keeps_uniform (qi_p I) (qi_t I) (p2_permutation dbg Q) /\
    forall k h, k < qi_t I -> number (qi_p I) (qi_t I) (after (p2_permutation dbg Q) (word_is k h)) = (qi_p I ^ Z.of_nat (qi_t I - 1))%Z.
Proof. exact ProofCount.p2_shipped_words. Qed.
Print Assumptions C86_poseidon2_shipped.

Theorem C86_poseidon_shipped :
  forall I, In I ps_instances -> forall F (Fo : FOps F), is_prime_field Fo (si_p I) -> forall dbg,
  exists Q, ps_instance_params dbg I = Ok Q /\ keeps_uniform (si_p I) (si_t I) (ps_permutation dbg Q) /\
    forall k h, k < si_t I -> number (si_p I) (si_t I) (after (ps_permutation dbg Q) (word_is k h)) = (si_p I ^ Z.of_nat (si_t I - 1))%Z.
Proof. exact ProofCount.ps_shipped_words. Qed.
Print Assumptions C86_poseidon_shipped.

(** Collisions exist: some digest has at least p preimages under compress, some root belongs to at least p^(n-1) sets of n elements. *)
Theorem C86_poseidon2_collisions :
  forall F (Fo : FOps F) p, is_prime_field Fo p ->
  forall dbg d rf rp (diag : list F) (mi rc : list (list F)) P,
    p2_new dbg 3 d rf rp diag mi rc = Ok P -> (N.of_nat rf + N.of_nat rp < usize_mod)%N -> sbox_degree d -> p2_data_ok 3 rf rp diag rc ->
    must_collide p 2 (p2_compress dbg P) /\
    forall fuel n, 64 <= fuel -> 1 <= n -> (N.of_nat n <= 2 ^ 63)%N -> must_collide p n (fp_accumulate dbg fuel (p2_compress dbg P)).
Proof. exact @ProofCount.p2_collide. Qed.
Print Assumptions C86_poseidon2_collisions.

Theorem C86_poseidon_collisions :
  forall F (Fo : FOps F) p, is_prime_field Fo p ->
  forall dbg d rf rp (mds rc : list (list F)) P,
    ps_new dbg 3 d rf rp mds rc = Ok P -> (N.of_nat rf + N.of_nat rp < usize_mod)%N -> dims 3 3 mds -> ps_enough_constants 3 (rf + rp) rc ->
    must_collide p 2 (ps_compress dbg P) /\
    forall fuel n, 64 <= fuel -> 1 <= n -> (N.of_nat n <= 2 ^ 63)%N -> must_collide p n (fp_accumulate dbg fuel (ps_compress dbg P)).
Proof. exact @ProofCount.ps_collide. Qed.
Print Assumptions C86_poseidon_collisions.

Theorem C86_gmimc_collisions :
  forall F (Fo : FOps F) p, is_prime_field Fo p ->
  forall dbg rng d rounds (P : GmimcParams F), gm_new rng 3 d rounds = Ok P -> 1 <= rounds ->
    must_collide p 2 (gm_compress dbg P) /\
    forall fuel n, 64 <= fuel -> 1 <= n -> (N.of_nat n <= 2 ^ 63)%N -> must_collide p n (fp_accumulate dbg fuel (gm_compress dbg P)).
Proof. exact @ProofCount.gm_collide. Qed.
Print Assumptions C86_gmimc_collisions.

Theorem C86_neptune_collisions :
  forall F (Fo : FOps F) p, is_prime_field Fo p ->
  forall dbg fuel rng d rf rp (P : NeptuneParams F), np_new dbg fuel rng 4 d rf rp = Ok P -> (N.of_nat rf + N.of_nat rp < usize_mod)%N ->
    must_collide p 2 (np_compress dbg P) /\
    forall fuel n, 64 <= fuel -> 1 <= n -> (N.of_nat n <= 2 ^ 63)%N -> must_collide p n (fp_accumulate dbg fuel (np_compress dbg P)).
Proof. exact @ProofCount.np_collide. Qed.
Print Assumptions C86_neptune_collisions.

(** ** Examples over the field with 13 elements *)
(** the pairs with first output word 1: 13 of 169 with d = 5, not with d = 3 *)
Definition ex_two (d : nat) : res Z :=
  P <- ps_new (Fo := F13_ops) true 2 d 2 1 (m13 [[1;2];[3;1]]%Z) (m13 [[1;2];[3;4];[5;6]]%Z) ;;
  Ok (@number _ F13_ops 13 2 (@after _ (ps_permutation (Fo := F13_ops) true P) (@word_is _ F13_ops 0 (e13 1)))).
Example C86_ex_poseidon : ex_two 5 = Ok 13%Z /\ ex_two 3 <> Ok 13%Z.
Proof. split; [vm_compute; reflexivity|]. intros H. vm_compute in H. discriminate. Qed.
(** the digest 1 occurs for 17 of the 169 pairs *)
Example C86_ex_digest :
  (P <- m41_3 true ;; Ok (@number _ F13_ops 13 2 (gives (Fo := F13_ops) (p2_compress (Fo := F13_ops) true P) (e13 1)))) = Ok 17%Z.
Proof. vm_compute. reflexivity. Qed.
Example C86_ex_gmimc : exists P, gm_new (fun k => e13 (Z.of_nat k + 2)) 2 3 2 = Ok P /\
  @number _ F13_ops 13 2 (@after _ (gm_permutation (Fo := F13_ops) true P) (@word_is _ F13_ops 1 (e13 1))) = 13%Z.
Proof. eexists. split; [reflexivity|]. vm_compute. reflexivity. Qed.
