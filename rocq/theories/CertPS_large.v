(** * CertPS_large: checks of the shipped Poseidon constants over the 255-bit fields *)
From Coq Require Import Uint63.
From Verif Require Import Base Field Fp Primes ModelInstances ProofInstances.

Lemma cert_POSEIDON_BLS_2_PARAMS : ps_cert P_bls12 P_bls12_ok POSEIDON_BLS_2_PARAMS = true.
Proof. vm_cast_no_check (eq_refl true). Qed.
Lemma cert_POSEIDON_BLS_3_PARAMS : ps_cert P_bls12 P_bls12_ok POSEIDON_BLS_3_PARAMS = true.
Proof. vm_cast_no_check (eq_refl true). Qed.
Lemma cert_POSEIDON_BLS_4_PARAMS : ps_cert P_bls12 P_bls12_ok POSEIDON_BLS_4_PARAMS = true.
Proof. vm_cast_no_check (eq_refl true). Qed.
Lemma cert_POSEIDON_BLS_8_PARAMS : ps_cert P_bls12 P_bls12_ok POSEIDON_BLS_8_PARAMS = true.
Proof. vm_cast_no_check (eq_refl true). Qed.
Lemma cert_POSEIDON_BN_PARAMS : ps_cert P_bn256 P_bn256_ok POSEIDON_BN_PARAMS = true.
Proof. vm_cast_no_check (eq_refl true). Qed.
Lemma cert_POSEIDON_PALLAS_3_PARAMS : ps_cert P_pallas P_pallas_ok POSEIDON_PALLAS_3_PARAMS = true.
Proof. vm_cast_no_check (eq_refl true). Qed.
Lemma cert_POSEIDON_PALLAS_4_PARAMS : ps_cert P_pallas P_pallas_ok POSEIDON_PALLAS_4_PARAMS = true.
Proof. vm_cast_no_check (eq_refl true). Qed.
Lemma cert_POSEIDON_PALLAS_8_PARAMS : ps_cert P_pallas P_pallas_ok POSEIDON_PALLAS_8_PARAMS = true.
Proof. vm_cast_no_check (eq_refl true). Qed.
Lemma cert_POSEIDON_VESTA_PARAMS : ps_cert P_vesta P_vesta_ok POSEIDON_VESTA_PARAMS = true.
Proof. vm_cast_no_check (eq_refl true). Qed.
