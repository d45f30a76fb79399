(** * Origin of the shipped constants: C50, C51, C52 *)
From Verif Require Import Base Field Spec SpecMDS SpecInstances ModelInstances ModelPoseidon ModelGrain Fp Primes.
From Verif Require ProofGrain4.
Local Open Scope nat_scope.

(** ** C50 *)
Theorem C50_poseidon2_from_grain :
  forall I, In I p2_instances -> forall n, (2 ^ (Z.of_nat n - 1) <= qi_p I < 2 ^ Z.of_nat n)%Z ->
  exists s,
    (exists n0, forall fuel, n0 <= fuel ->
       generate_constants fuel n (qi_t I) (qi_rf I) (qi_rp I) (qi_p I) (grain_start 1 0 n (qi_t I) (qi_rf I) (qi_rp I)) =
       Ok (concat (qi_rc I), s)) /\
    (4 <= qi_t I -> exists rejected, forall F (Fo : FOps F), is_prime_field Fo (qi_p I) -> exists s1 n0, forall fuel, n0 <= fuel ->
       grain_diagonal (F := F) fuel n (qi_t I) rejected s = Ok (map (fun i => f_of_Z (zentry (qi_mat I) i i)) (seq 0 (qi_t I)), s1)).
Proof. exact ProofGrain4.p2_from_grain. Qed.
Print Assumptions C50_poseidon2_from_grain.

(** the generator evaluated bit by bit: the first constant of a shipped table *)
Example C50_ex : (2 ^ (Z.of_nat 31 - 1) <= qi_p POSEIDON2_BABYBEAR_16_PARAMS < 2 ^ Z.of_nat 31)%Z /\
  4 <= qi_t POSEIDON2_BABYBEAR_16_PARAMS /\
  exists s, draw_below 100 10 31 (qi_p POSEIDON2_BABYBEAR_16_PARAMS) (grain_start 1 0 31 16 8 13) =
    Ok (zentry (qi_rc POSEIDON2_BABYBEAR_16_PARAMS) 0 0, s) /\ zentry (qi_rc POSEIDON2_BABYBEAR_16_PARAMS) 0 0 = 1774958255%Z.
Proof.
  split; [vm_compute; split; congruence|]. split; [vm_compute; lia|]. eexists. split; vm_compute; reflexivity.
Qed.

(** ** C51 *)
Theorem C51_poseidon_from_grain :
  forall I, In I ps_instances -> forall n, (2 ^ (Z.of_nat n - 1) <= si_p I < 2 ^ Z.of_nat n)%Z ->
  exists s,
    (exists n0, forall fuel, n0 <= fuel ->
       generate_constants_poseidon fuel n (si_t I) (si_rf I) (si_rp I) (si_p I) (grain_start 1 1 n (si_t I) (si_rf I) (si_rp I)) =
       Ok (concat (si_rc I), s)) /\
    (forall F (Fo : FOps F), is_prime_field Fo (si_p I) -> exists s1 n0, forall fuel, n0 <= fuel ->
       create_mds_p (F := F) fuel fuel n (si_t I) s = Ok (map (map f_of_Z) (si_mds I), s1)).
Proof. exact ProofGrain4.ps_from_grain. Qed.
Print Assumptions C51_poseidon_from_grain.

Example C51_ex : (2 ^ (Z.of_nat 64 - 1) <= si_p POSEIDON_GOLDILOCKS_8_PARAMS < 2 ^ Z.of_nat 64)%Z /\
  exists s, draw_below 100 10 64 (si_p POSEIDON_GOLDILOCKS_8_PARAMS) (grain_start 1 1 64 8 8 22) =
    Ok (zentry (si_rc POSEIDON_GOLDILOCKS_8_PARAMS) 0 0, s).
Proof. split; [vm_compute; split; congruence|]. eexists. vm_compute. reflexivity. Qed.

(** ** C52 *)
Theorem C52_poseidon_shipped_mds :
  forall I, In I ps_instances -> forall F (Fo : FOps F), is_prime_field Fo (si_p I) ->
  minors_nonsingular (si_t I) (entry (map (map (f_of_Z (F := F))) (si_mds I))) /\
  is_mds (si_t I) (entry (map (map (f_of_Z (F := F))) (si_mds I))).
Proof. exact ProofGrain4.ps_shipped_mds. Qed.
Print Assumptions C52_poseidon_shipped_mds.

(** the same for the code: two different inputs of [matmul] with a shipped matrix *)
Theorem C52_poseidon_shipped_branch_number :
  forall I, In I ps_instances -> forall F (Fo : FOps F), is_prime_field Fo (si_p I) ->
  forall dbg x y, length x = si_t I -> length y = si_t I -> x <> y ->
  exists u v, ps_matmul dbg x (map (map (f_of_Z (F := F))) (si_mds I)) = Ok u /\ ps_matmul dbg y (map (map f_of_Z) (si_mds I)) = Ok v /\
    si_t I + 1 <= length (filter (fun i => negb (feqb (nth i x f0) (nth i y f0))) (seq 0 (si_t I))) +
                  length (filter (fun i => negb (feqb (nth i u f0) (nth i v f0))) (seq 0 (si_t I))).
Proof. exact ProofGrain4.ps_shipped_branch. Qed.
Print Assumptions C52_poseidon_shipped_branch_number.

Example C52_ex : In POSEIDON_BN_PARAMS ps_instances /\ is_prime_field (fp_ops P_bn256 P_bn256_ok) (si_p POSEIDON_BN_PARAMS) /\
  repeat (f0 (FOps := fp_ops P_bn256 P_bn256_ok)) 3 <> repeat (f1 (FOps := fp_ops P_bn256 P_bn256_ok)) 3.
Proof.
  split; [unfold ps_instances; cbn [In]; right; right; right; right; right; right; left; reflexivity|].
  split; [exact (fp_is_prime_field P_bn256 P_bn256_ok prime_bn256 eq_refl)|].
  intros E. apply (f_equal (fun l => f_to_Z (FOps := fp_ops P_bn256 P_bn256_ok) (hd (f0 (FOps := fp_ops P_bn256 P_bn256_ok)) l))) in E.
  vm_compute in E. discriminate.
Qed.
