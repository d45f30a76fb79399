(** * CertPS_small: checks of the shipped Poseidon constants over BabyBear and Goldilocks *)
From Coq Require Import Uint63.
From Verif Require Import Base Field Fp Primes ModelInstances ProofInstances.

Lemma cert_POSEIDON_BABYBEAR_16_PARAMS : ps_cert P_babybear P_babybear_ok POSEIDON_BABYBEAR_16_PARAMS = true.
Proof. vm_cast_no_check (eq_refl true). Qed.
Lemma cert_POSEIDON_BABYBEAR_24_PARAMS : ps_cert P_babybear P_babybear_ok POSEIDON_BABYBEAR_24_PARAMS = true.
Proof. vm_cast_no_check (eq_refl true). Qed.
Lemma cert_POSEIDON_GOLDILOCKS_8_PARAMS : ps_cert P_goldilocks P_goldilocks_ok POSEIDON_GOLDILOCKS_8_PARAMS = true.
Proof. vm_cast_no_check (eq_refl true). Qed.
Lemma cert_POSEIDON_GOLDILOCKS_12_PARAMS : ps_cert P_goldilocks P_goldilocks_ok POSEIDON_GOLDILOCKS_12_PARAMS = true.
Proof. vm_cast_no_check (eq_refl true). Qed.
Lemma cert_POSEIDON_GOLDILOCKS_16_PARAMS : ps_cert P_goldilocks P_goldilocks_ok POSEIDON_GOLDILOCKS_16_PARAMS = true.
Proof. vm_cast_no_check (eq_refl true). Qed.
Lemma cert_POSEIDON_GOLDILOCKS_20_PARAMS : ps_cert P_goldilocks P_goldilocks_ok POSEIDON_GOLDILOCKS_20_PARAMS = true.
Proof. vm_cast_no_check (eq_refl true). Qed.
