(** * The generation script run with the shipped round numbers: C58, C61 *)
From Coq Require Import Ascii String.
From Verif Require Import Base Field Spec SpecPoseidon2 SpecInstances ModelFields ModelHex ModelPoseidon ModelPoseidon2 ModelInstances
  ModelGrain ModelSubspace ModelGenerate ModelPrint Fp Primes F13.
From Verif Require CertGrainP2 CertReject ProofReject ProofGenerate ProofScriptPerm ProofPrint.
Local Open Scope nat_scope.

(** ** C58: generate_constants followed by generate_matrix_partial yields the shipped constants and internal matrix, and nothing else *)
Theorem C58_poseidon2_internal_matrix_generated :
  forall I, In I p2_instances -> forall n, (2 ^ (Z.of_nat n - 1) <= qi_p I < 2 ^ Z.of_nat n)%Z ->
  exists s,
    (exists n0, forall fuel, n0 <= fuel ->
       generate_constants fuel n (qi_t I) (qi_rf I) (qi_rp I) (qi_p I) (grain_start 1 0 n (qi_t I) (qi_rf I) (qi_rp I)) =
       Ok (concat (qi_rc I), s)) /\
    (forall F (Fo : FOps F), is_prime_field Fo (qi_p I) -> exists s1 n0, forall fuel, n0 <= fuel -> forall M' s',
       generate_matrix_partial (F := F) fuel n (qi_t I) s M' s' <-> M' = map (map f_of_Z) (qi_mat I) /\ s' = s1).
Proof. exact ProofGenerate.p2_generate_matrix_partial. Qed.
Print Assumptions C58_poseidon2_internal_matrix_generated.

(** The loop does reject: the first diagonal drawn for Goldilocks, width 8, fails the check (and is not the shipped one). *)
Example C58_ex : In POSEIDON2_GOLDILOCKS_8_PARAMS p2_instances /\
  is_prime_field (fp_ops P_goldilocks P_goldilocks_ok) (qi_p POSEIDON2_GOLDILOCKS_8_PARAMS) /\
  (2 ^ (Z.of_nat 64 - 1) <= qi_p POSEIDON2_GOLDILOCKS_8_PARAMS < 2 ^ Z.of_nat 64)%Z /\
  let g := hd [] CertGrainP2.rejected_POSEIDON2_GOLDILOCKS_8_PARAMS in
  ~ check_minpoly_condition (Fo := fp_ops P_goldilocks P_goldilocks_ok) 8
      (entry (Fo := fp_ops P_goldilocks P_goldilocks_ok) (partial_matrix (Fo := fp_ops P_goldilocks P_goldilocks_ok) 8 g)) /\
  nth 0 g 0%Z <> zentry (qi_mat POSEIDON2_GOLDILOCKS_8_PARAMS) 0 0.
Proof.
  assert (HP : is_prime_field (fp_ops P_goldilocks P_goldilocks_ok) (qi_p POSEIDON2_GOLDILOCKS_8_PARAMS))
    by exact (fp_is_prime_field P_goldilocks P_goldilocks_ok prime_goldilocks eq_refl).
  split; [unfold p2_instances; cbn [In]; do 7 right; left; reflexivity|]. split; [exact HP|].
  split; [vm_compute; split; congruence|]. intros g. split.
  - refine (ProofReject.reject_ok _ _ _ _ _ _ prime_goldilocks CertReject.reject_POSEIDON2_GOLDILOCKS_8_PARAMS g _ _ _ HP).
    left. reflexivity.
  - vm_compute. congruence.
Qed.

(** ** C61: the script's reference permutations are the permutations of the Rust code, and its output is the source text *)
Theorem C61_matrix_full :
  forall F (Fo : FOps F) p, is_prime_field Fo p -> forall t,
  (t = 2 \/ t = 3 \/ t mod 4 = 0 -> exists M, generate_matrix_full (F := F) t = Ok M /\ dims t t M /\ mat_eq t (entry M) (ext_matrix t)) /\
  (~ (t = 2 \/ t = 3 \/ t mod 4 = 0) -> generate_matrix_full (F := F) t = Panic).
Proof. exact @ProofScriptPerm.generate_matrix_full_ok. Qed.
Print Assumptions C61_matrix_full.

Theorem C61_poseidon2_reference :
  forall I, In I p2_instances -> forall F (Fo : FOps F), is_prime_field Fo (qi_p I) -> forall dbg,
  exists Q MF, p2_instance_params dbg I = Ok Q /\ generate_matrix_full (F := F) (qi_t I) = Ok MF /\
  forall x, length x = qi_t I ->
    script_poseidon2 (qi_t I) (qi_d I) (qi_rf I) (qi_rp I) MF (map (map f_of_Z) (qi_mat I)) (map f_of_Z (concat (qi_rc I))) x =
    p2_permutation dbg Q x.
Proof. exact ProofScriptPerm.p2_script_permutation. Qed.
Print Assumptions C61_poseidon2_reference.

Theorem C61_poseidon_reference :
  forall I, In I ps_instances -> forall F (Fo : FOps F), is_prime_field Fo (si_p I) -> forall dbg,
  exists Q, ps_instance_params dbg I = Ok Q /\
  forall x, length x = si_t I ->
    script_poseidon (si_t I) (si_d I) (si_rf I) (si_rp I) (map (map f_of_Z) (si_mds I)) (map f_of_Z (concat (si_rc I))) x =
    ps_permutation dbg Q x.
Proof. exact ProofScriptPerm.ps_script_permutation. Qed.
Print Assumptions C61_poseidon_reference.

(** MATRIX_PARTIAL_DIAGONAL_M_1 is the shipped diagonal *)
Theorem C61_poseidon2_diagonal :
  forall I, In I p2_instances -> forall F (Fo : FOps F), is_prime_field Fo (qi_p I) ->
  map (fun i => entry (matrix_partial_m_1 (qi_t I) (map (map (f_of_Z (F := F))) (qi_mat I))) i i) (seq 0 (qi_t I)) = map f_of_Z (qi_diag I).
Proof. exact ProofScriptPerm.p2_diagonal_m_1. Qed.
Print Assumptions C61_poseidon2_diagonal.

(** the least exponent from 3 on that is coprime to p - 1 *)
Theorem C61_get_alpha :
  forall p, (5 <= p)%Z -> exists a, (3 <= a < p - 1)%Z /\ (Z.gcd a (p - 1) = 1)%Z /\
    (forall b, 3 <= b < a -> Z.gcd b (p - 1) <> 1)%Z /\ forall fuel, Z.to_nat p <= fuel -> get_alpha fuel p = Ok a.
Proof. exact ProofPrint.get_alpha_ok. Qed.
Print Assumptions C61_get_alpha.
Theorem C61_shipped_alpha :
  (forall I, In I p2_instances -> forall fuel, 5 <= fuel -> get_alpha fuel (qi_p I) = Ok (Z.of_nat (qi_d I))) /\
  (forall I, In I ps_instances -> forall fuel, 5 <= fuel -> get_alpha fuel (si_p I) = Ok (Z.of_nat (si_d I))).
Proof. exact ProofPrint.shipped_alpha. Qed.
Print Assumptions C61_shipped_alpha.

(** what to_hex prints is read back by from_hex, and is the text of the shipped literals *)
Theorem C61_to_hex_from_hex :
  forall F (Fo : FOps F) p v, (0 <= v < p)%Z -> from_hex (to_hex p v) = Ok (f_of_Z v : F).
Proof. exact @ProofPrint.to_hex_round_trip. Qed.
Print Assumptions C61_to_hex_from_hex.
Theorem C61_poseidon2_texts :
  forall I, In I p2_instances ->
  map (literal (qi_bytes I)) (qi_diag I) = map (to_hex (qi_p I)) (qi_diag I) /\
  map (map (literal (qi_bytes I))) (qi_mat I) = map (map (to_hex (qi_p I))) (qi_mat I) /\
  map (map (literal (qi_bytes I))) (qi_rc I) = map (map (to_hex (qi_p I))) (qi_rc I).
Proof. exact ProofPrint.p2_texts. Qed.
Print Assumptions C61_poseidon2_texts.
Theorem C61_poseidon_texts :
  forall I, In I ps_instances ->
  map (map (literal (si_bytes I))) (si_mds I) = map (map (to_hex (si_p I))) (si_mds I) /\
  map (map (literal (si_bytes I))) (si_rc I) = map (map (to_hex (si_p I))) (si_rc I).
Proof. exact ProofPrint.ps_texts. Qed.
Print Assumptions C61_poseidon_texts.

Example C61_ex : get_alpha 3 13 = Ok 5%Z /\ get_alpha 5 p_goldilocks = Ok 7%Z /\ to_hex 2013265921 48879 = "0x0000beef"%string /\
  to_hex 257 255 = "0x00ff"%string /\ generate_matrix_full (F := F13) 6 = Panic /\
  match generate_matrix_full (F := F13) 8 with Ok M => map (f_to_Z (F := F13)) (nth 5 M []) = [4; 6; 1; 1; 8; 12; 2; 2]%Z | _ => False end /\
  (M <- generate_matrix_full (F := F13) 2 ;; out <- script_poseidon2 2 5 2 1 M [l13 [2; 1]; l13 [1; 3]]%Z (l13 [1; 2; 3; 0; 4; 5]%Z) (l13 [0; 1]%Z) ;; Ok (map (f_to_Z (F := F13)) out)) =
  Ok [9; 0]%Z.
Proof. repeat (split; [vm_compute; reflexivity|]). vm_compute. reflexivity. Qed.
