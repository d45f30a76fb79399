(** * CertGrainPS: checks of the shipped Poseidon constants against the Grain generator.
    The arguments (numbers of words and of draws, rejected diagonals) are those found by tools/gen_grain.py. *)
From Coq Require Import Uint63.
From Verif Require Import Base Field Fp Primes ModelInstances ProofGrain3.

Lemma grain_POSEIDON_GOLDILOCKS_8_PARAMS : ps_grain_b P_goldilocks P_goldilocks_ok (N.to_nat 4078) (N.to_nat 256) POSEIDON_GOLDILOCKS_8_PARAMS = true.
Proof. vm_cast_no_check (eq_refl true). Qed.
Lemma grain_POSEIDON_GOLDILOCKS_12_PARAMS : ps_grain_b P_goldilocks P_goldilocks_ok (N.to_nat 6152) (N.to_nat 384) POSEIDON_GOLDILOCKS_12_PARAMS = true.
Proof. vm_cast_no_check (eq_refl true). Qed.
Lemma grain_POSEIDON_GOLDILOCKS_16_PARAMS : ps_grain_b P_goldilocks P_goldilocks_ok (N.to_nat 8199) (N.to_nat 512) POSEIDON_GOLDILOCKS_16_PARAMS = true.
Proof. vm_cast_no_check (eq_refl true). Qed.
Lemma grain_POSEIDON_GOLDILOCKS_20_PARAMS : ps_grain_b P_goldilocks P_goldilocks_ok (N.to_nat 10243) (N.to_nat 640) POSEIDON_GOLDILOCKS_20_PARAMS = true.
Proof. vm_cast_no_check (eq_refl true). Qed.
Lemma grain_POSEIDON_BABYBEAR_16_PARAMS : ps_grain_b P_babybear P_babybear_ok (N.to_nat 3046) (N.to_nat 395) POSEIDON_BABYBEAR_16_PARAMS = true.
Proof. vm_cast_no_check (eq_refl true). Qed.
Lemma grain_POSEIDON_BABYBEAR_24_PARAMS : ps_grain_b P_babybear P_babybear_ok (N.to_nat 6194) (N.to_nat 796) POSEIDON_BABYBEAR_24_PARAMS = true.
Proof. vm_cast_no_check (eq_refl true). Qed.
Lemma grain_POSEIDON_BLS_2_PARAMS : ps_grain_b P_bls12 P_bls12_ok (N.to_nat 9400) (N.to_nat 148) POSEIDON_BLS_2_PARAMS = true.
Proof. vm_cast_no_check (eq_refl true). Qed.
Lemma grain_POSEIDON_BLS_3_PARAMS : ps_grain_b P_bls12 P_bls12_ok (N.to_nat 14095) (N.to_nat 222) POSEIDON_BLS_3_PARAMS = true.
Proof. vm_cast_no_check (eq_refl true). Qed.
Lemma grain_POSEIDON_BLS_4_PARAMS : ps_grain_b P_bls12 P_bls12_ok (N.to_nat 18350) (N.to_nat 287) POSEIDON_BLS_4_PARAMS = true.
Proof. vm_cast_no_check (eq_refl true). Qed.
Lemma grain_POSEIDON_BLS_8_PARAMS : ps_grain_b P_bls12 P_bls12_ok (N.to_nat 37045) (N.to_nat 583) POSEIDON_BLS_8_PARAMS = true.
Proof. vm_cast_no_check (eq_refl true). Qed.
Lemma grain_POSEIDON_BN_PARAMS : ps_grain_b P_bn256 P_bn256_ok (N.to_nat 16860) (N.to_nat 265) POSEIDON_BN_PARAMS = true.
Proof. vm_cast_no_check (eq_refl true). Qed.
Lemma grain_POSEIDON_PALLAS_3_PARAMS : ps_grain_b P_pallas P_pallas_ok (N.to_nat 24734) (N.to_nat 389) POSEIDON_PALLAS_3_PARAMS = true.
Proof. vm_cast_no_check (eq_refl true). Qed.
Lemma grain_POSEIDON_PALLAS_4_PARAMS : ps_grain_b P_pallas P_pallas_ok (N.to_nat 31170) (N.to_nat 488) POSEIDON_PALLAS_4_PARAMS = true.
Proof. vm_cast_no_check (eq_refl true). Qed.
Lemma grain_POSEIDON_PALLAS_8_PARAMS : ps_grain_b P_pallas P_pallas_ok (N.to_nat 64899) (N.to_nat 1018) POSEIDON_PALLAS_8_PARAMS = true.
Proof. vm_cast_no_check (eq_refl true). Qed.
Lemma grain_POSEIDON_VESTA_PARAMS : ps_grain_b P_vesta P_vesta_ok (N.to_nat 24734) (N.to_nat 389) POSEIDON_VESTA_PARAMS = true.
Proof. vm_cast_no_check (eq_refl true). Qed.
