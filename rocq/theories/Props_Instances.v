(** * Shipped parameter objects: C04, C12, C17 and the known-answer tests C56 *)
From Coq Require Import Ascii String.
From Verif Require Import Base Field Spec SpecPoseidon SpecPoseidon2 SpecInstances SpecFields ModelFields ModelHex ModelPoseidon2 ModelPoseidon
  ModelInstances ModelKats Fp Primes ZField.
From Verif Require ProofKats ProofKnown.
Local Open Scope nat_scope.

(** The text of a literal: src/poseidon2/poseidon2_instance_bls12.rs writes 32-byte numbers in this form. *)
Example literal_ex : literal 4 785637949 = "0x2ed3e23d"%string.
Proof. vm_compute. reflexivity. Qed.

(** ** C04 *)
Theorem C04_poseidon2_shipped :
  forall I, In I p2_instances ->
  forall F (Fo : FOps F), is_prime_field Fo (qi_p I) -> forall dbg,
  exists Q, p2_instance_params dbg I = Ok Q /\ bijective_on (qi_t I) (p2_permutation dbg Q) /\
    forall x, length x = qi_t I -> p2_permutation dbg Q x =
      Ok (p2_ref (qi_t I) (qi_d I) (qi_rf I) (qi_rp I) (map (f_of_Z (F := F)) (qi_diag I)) (map (map f_of_Z) (qi_rc I)) x).
Proof. exact ProofKats.p2_shipped_permutation. Qed.
Print Assumptions C04_poseidon2_shipped.

(** the hypotheses are met by a concrete field for each instance *)
Example C04_ex : Datatypes.length p2_instances = 15 /\
  is_prime_field (fp_ops P_goldilocks P_goldilocks_ok) (qi_p POSEIDON2_GOLDILOCKS_12_PARAMS) /\
  (exists F (Fo : FOps F), is_prime_field Fo (qi_p POSEIDON2_VESTA_PARAMS)).
Proof.
  split; [reflexivity|]. split.
  - exact (fp_is_prime_field P_goldilocks P_goldilocks_ok prime_goldilocks eq_refl).
  - exists (Fp P_vesta), (fp_ops P_vesta P_vesta_ok). exact (fp_is_prime_field P_vesta P_vesta_ok prime_vesta eq_refl).
Qed.

(** ** C12 *)
Theorem C12_poseidon2_data_consistent :
  forall I, In I p2_instances ->
  p2_consistent I /\ good_arguments (qi_p I) (qi_t I) (qi_d I) (qi_rf I) (qi_rp I) /\
  forall F (Fo : FOps F), is_prime_field Fo (qi_p I) ->
    mat_eq (qi_t I) (int_matrix (qi_t I) (map f_of_Z (qi_diag I))) (entry (map (map (f_of_Z (F := F))) (qi_mat I))).
Proof. exact ProofKats.p2_shipped_consistent. Qed.
Print Assumptions C12_poseidon2_data_consistent.

Example C12_ex : zentry (qi_mat POSEIDON2_BABYBEAR_16_PARAMS) 3 3 = (1 + nth 3 (qi_diag POSEIDON2_BABYBEAR_16_PARAMS) 0)%Z /\
  zentry (qi_mat POSEIDON2_BABYBEAR_16_PARAMS) 3 4 = 1%Z /\ zentry (qi_rc POSEIDON2_BABYBEAR_16_PARAMS) 4 0 <> 0%Z /\
  zentry (qi_rc POSEIDON2_BABYBEAR_16_PARAMS) 4 1 = 0%Z.
Proof. repeat split; vm_compute; congruence. Qed.

(** ** C17 *)
Theorem C17_poseidon_shipped :
  forall I, In I ps_instances ->
  ps_consistent I /\ forall F (Fo : FOps F), is_prime_field Fo (si_p I) -> forall dbg,
    exists Q, ps_instance_params dbg I = Ok Q /\
      (forall x, length x = si_t I -> ps_permutation dbg Q x = ps_permutation_not_opt dbg Q x /\
         ps_permutation dbg Q x = Ok (ps_ref (si_t I) (si_d I) (si_rf I) (si_rp I)
            (entry (map (map (f_of_Z (F := F))) (si_mds I))) (map (map f_of_Z) (si_rc I)) x)) /\
      bijective_on (si_t I) (ps_permutation dbg Q) /\ bijective_on (si_t I) (ps_permutation_not_opt dbg Q).
Proof. exact ProofKats.ps_shipped_permutation. Qed.
Print Assumptions C17_poseidon_shipped.

Example C17_ex : Datatypes.length ps_instances = 15 /\
  is_prime_field (fp_ops P_babybear P_babybear_ok) (si_p POSEIDON_BABYBEAR_24_PARAMS).
Proof. split; [reflexivity|]. exact (fp_is_prime_field P_babybear P_babybear_ok prime_babybear eq_refl). Qed.

(** ** C56 *)
Theorem C56_poseidon2_known_answers :
  forall I out, In (I, out) p2_kats ->
  forall F (Fo : FOps F), is_prime_field Fo (qi_p I) -> forall dbg,
  exists Q, p2_instance_params dbg I = Ok Q /\
    p2_permutation dbg Q (map f_of_Z (iota (qi_t I))) = Ok (map (f_of_Z (F := F)) out).
Proof. exact ProofKnown.p2_known_answers. Qed.
Print Assumptions C56_poseidon2_known_answers.

Theorem C56_poseidon_known_answers :
  forall I out, In (I, out) ps_kats ->
  forall F (Fo : FOps F), is_prime_field Fo (si_p I) -> forall dbg,
  exists Q, ps_instance_params dbg I = Ok Q /\
    ps_permutation dbg Q (map f_of_Z (iota (si_t I))) = Ok (map (f_of_Z (F := F)) out) /\
    ps_permutation_not_opt dbg Q (map f_of_Z (iota (si_t I))) = Ok (map (f_of_Z (F := F)) out).
Proof. exact ProofKnown.ps_known_answers. Qed.
Print Assumptions C56_poseidon_known_answers.

Example C56_ex : Datatypes.length p2_kats = 8 /\ Datatypes.length ps_kats = 6 /\ iota 3 = [0; 1; 2]%Z.
Proof. repeat split. Qed.
