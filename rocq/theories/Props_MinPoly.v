(** * The internal matrices of the shipped Poseidon2 instances: C57 *)
From Verif Require Import Base Field Spec SpecPoseidon SpecMinPoly SpecInstances ModelPoseidon2 ModelInstances ModelSubspace Fp Primes F13.
From Verif Require PolyMod ProofMinPoly2.
Local Open Scope nat_scope.

(** ** C57: no invariant subspaces *)
Theorem C57_internal_minimal_polynomials :
  forall I, In I p2_instances -> qi_t I <> 3 ->
  forall F (Fo : FOps F), is_prime_field Fo (qi_p I) ->
  let M := entry (map (map (f_of_Z (F := F))) (qi_mat I)) in
  check_minpoly_condition (qi_t I) M /\
  forall i, 1 <= i <= 4 * qi_t I ->
    exists g, is_minimal_polynomial (qi_t I) (mat_pow (qi_t I) M i) g /\ length g = qi_t I /\ is_irreducible g.
Proof. exact ProofMinPoly2.p2_minimal_polynomials. Qed.
Print Assumptions C57_internal_minimal_polynomials.

(** No proper subspace is mapped to itself by 1, 2, ..., 4t applications of the code's internal layer. *)
Theorem C57_no_invariant_subspace :
  forall I, In I p2_instances -> qi_t I <> 3 ->
  forall F (Fo : FOps F), is_prime_field Fo (qi_p I) -> forall dbg,
  exists Q, p2_instance_params dbg I = Ok Q /\
  forall i, 1 <= i <= 4 * qi_t I ->
  forall S : list F -> Prop, is_subspace (qi_t I) S ->
    (forall v w, S v -> repeatM i (fun x => p2_matmul_internal Q x (p2_diag Q)) v = Ok w -> S w) ->
    (exists v, S v /\ v <> repeat f0 (qi_t I)) ->
    forall v, length v = qi_t I -> S v.
Proof. exact ProofMinPoly2.p2_no_invariant_subspace. Qed.
Print Assumptions C57_no_invariant_subspace.

(** For t = 3 the claim fails: the internal layer fixes every vector (a, -a, 0). *)
Theorem C57_width_3_refuted :
  forall I, In I p2_instances -> qi_t I = 3 ->
  forall F (Fo : FOps F), is_prime_field Fo (qi_p I) -> forall dbg,
  exists Q, p2_instance_params dbg I = Ok Q /\
  (exists S : list F -> Prop, is_subspace (qi_t I) S /\
    (forall v, S v -> p2_matmul_internal Q v (p2_diag Q) = Ok v) /\
    (exists v, S v /\ v <> repeat f0 (qi_t I)) /\ (exists v, length v = qi_t I /\ ~ S v)) /\
  ~ check_minpoly_condition (qi_t I) (entry (map (map (f_of_Z (F := F))) (qi_mat I))).
Proof. exact ProofMinPoly2.p2_width3_refuted. Qed.
Print Assumptions C57_width_3_refuted.

(** The hypotheses are met: 11 instances have t <> 3, 4 have t = 3, and their fields exist. *)
Example C57_ex : length (filter (fun I => negb (qi_t I =? 3)) p2_instances) = 11 /\
  length (filter (fun I => qi_t I =? 3) p2_instances) = 4 /\
  is_prime_field (fp_ops P_babybear P_babybear_ok) (qi_p POSEIDON2_BABYBEAR_24_PARAMS) /\
  is_prime_field (fp_ops P_bls12 P_bls12_ok) (qi_p POSEIDON2_BLS_3_PARAMS).
Proof.
  split; [reflexivity|]. split; [reflexivity|]. split.
  - exact (fp_is_prime_field P_babybear P_babybear_ok prime_babybear eq_refl).
  - exact (fp_is_prime_field P_bls12 P_bls12_ok prime_bls12 eq_refl).
Qed.

(** The notions are not empty: modulo 13 the matrix ((2,1),(1,3)) has the minimal polynomial x^2 - 5x + 5,
    and x^2 - 1 is not irreducible. *)
Example C57_minpoly_ex :
  is_minimal_polynomial 2 (entry [l13 [2; 1]; l13 [1; 3]]%Z) (l13 [5; -5]%Z) /\ ~ is_irreducible (l13 [-1; 0]%Z).
Proof.
  split.
  - split.
    + intros i j Hi Hj. destruct i as [|[|i]]; [| |lia]; (destruct j as [|[|j]]; [| |lia]); vm_compute; reflexivity.
    + intros [|a [|b h]] Hh Hk; [| |cbn in Hh; lia].
      * specialize (Hk 0 0 ltac:(lia) ltac:(lia)). apply (f_equal f_to_Z) in Hk. vm_compute in Hk. discriminate.
      * specialize (Hk 0 1 ltac:(lia) ltac:(lia)). unfold mat_poly in Hk. cbn [app length sumn nth] in Hk.
        assert (E : mat_pow 2 (entry [l13 [2; 1]; l13 [1; 3]]%Z) 0 0 1 = f0) by (vm_compute; reflexivity).
        assert (E1 : fmul f1 (mat_pow 2 (entry [l13 [2; 1]; l13 [1; 3]]%Z) 1 0 1) = f1) by (vm_compute; reflexivity).
        rewrite E, E1 in Hk. apply (ff_one_neq_zero _ F13_is_field). rewrite <- Hk. exact (ProofMinPoly2.zero_terms F13_is_field a).
  - intros [_ H]. apply H. exists [e13 1], [e13 (-1)]. split; [cbn; lia|]. split; [cbn; lia|].
    apply (ProofMinPoly2.product_list F13_is_field). apply (PolyMod.leqb_true F13_field). vm_compute. reflexivity.
Qed.
