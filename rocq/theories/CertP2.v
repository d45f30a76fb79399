(** * CertP2: checks of the shipped Poseidon2 constants *)
From Coq Require Import Uint63.
From Verif Require Import Base Field Fp Primes ModelInstances ProofInstances.

Lemma cert_POSEIDON2_BABYBEAR_16_PARAMS : p2_cert P_babybear P_babybear_ok POSEIDON2_BABYBEAR_16_PARAMS = true.
Proof. vm_cast_no_check (eq_refl true). Qed.
Lemma cert_POSEIDON2_BABYBEAR_24_PARAMS : p2_cert P_babybear P_babybear_ok POSEIDON2_BABYBEAR_24_PARAMS = true.
Proof. vm_cast_no_check (eq_refl true). Qed.
Lemma cert_POSEIDON2_BLS_2_PARAMS : p2_cert P_bls12 P_bls12_ok POSEIDON2_BLS_2_PARAMS = true.
Proof. vm_cast_no_check (eq_refl true). Qed.
Lemma cert_POSEIDON2_BLS_3_PARAMS : p2_cert P_bls12 P_bls12_ok POSEIDON2_BLS_3_PARAMS = true.
Proof. vm_cast_no_check (eq_refl true). Qed.
Lemma cert_POSEIDON2_BLS_4_PARAMS : p2_cert P_bls12 P_bls12_ok POSEIDON2_BLS_4_PARAMS = true.
Proof. vm_cast_no_check (eq_refl true). Qed.
Lemma cert_POSEIDON2_BLS_8_PARAMS : p2_cert P_bls12 P_bls12_ok POSEIDON2_BLS_8_PARAMS = true.
Proof. vm_cast_no_check (eq_refl true). Qed.
Lemma cert_POSEIDON2_BN256_PARAMS : p2_cert P_bn256 P_bn256_ok POSEIDON2_BN256_PARAMS = true.
Proof. vm_cast_no_check (eq_refl true). Qed.
Lemma cert_POSEIDON2_GOLDILOCKS_8_PARAMS : p2_cert P_goldilocks P_goldilocks_ok POSEIDON2_GOLDILOCKS_8_PARAMS = true.
Proof. vm_cast_no_check (eq_refl true). Qed.
Lemma cert_POSEIDON2_GOLDILOCKS_12_PARAMS : p2_cert P_goldilocks P_goldilocks_ok POSEIDON2_GOLDILOCKS_12_PARAMS = true.
Proof. vm_cast_no_check (eq_refl true). Qed.
Lemma cert_POSEIDON2_GOLDILOCKS_16_PARAMS : p2_cert P_goldilocks P_goldilocks_ok POSEIDON2_GOLDILOCKS_16_PARAMS = true.
Proof. vm_cast_no_check (eq_refl true). Qed.
Lemma cert_POSEIDON2_GOLDILOCKS_20_PARAMS : p2_cert P_goldilocks P_goldilocks_ok POSEIDON2_GOLDILOCKS_20_PARAMS = true.
Proof. vm_cast_no_check (eq_refl true). Qed.
Lemma cert_POSEIDON2_PALLAS_3_PARAMS : p2_cert P_pallas P_pallas_ok POSEIDON2_PALLAS_3_PARAMS = true.
Proof. vm_cast_no_check (eq_refl true). Qed.
Lemma cert_POSEIDON2_PALLAS_4_PARAMS : p2_cert P_pallas P_pallas_ok POSEIDON2_PALLAS_4_PARAMS = true.
Proof. vm_cast_no_check (eq_refl true). Qed.
Lemma cert_POSEIDON2_PALLAS_8_PARAMS : p2_cert P_pallas P_pallas_ok POSEIDON2_PALLAS_8_PARAMS = true.
Proof. vm_cast_no_check (eq_refl true). Qed.
Lemma cert_POSEIDON2_VESTA_PARAMS : p2_cert P_vesta P_vesta_ok POSEIDON2_VESTA_PARAMS = true.
Proof. vm_cast_no_check (eq_refl true). Qed.
