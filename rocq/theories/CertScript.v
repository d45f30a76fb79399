(** * CertScript: the round numbers of the shipped Poseidon2 and Poseidon instances *)
From Coq Require Import ZArith.
From Verif Require Import ModelFields ProofScript.
Local Open Scope Z_scope.

Lemma search_babybear_16 : search_b 16 7 128 (Thr 6 12 2 12 3 23 1) 14 8 13 = true.
Proof. vm_cast_no_check (eq_refl true). Qed.
Lemma rounds_babybear_16 : rounds_b p_babybear 31 16 7 128 8 13 (Thr 6 12 2 12 3 23 1) 6 12 = true.
Proof. vm_cast_no_check (eq_refl true). Qed.
Lemma search_babybear_24 : search_b 24 7 128 (Thr 6 12 2 12 2 23 1) 22 8 21 = true.
Proof. vm_cast_no_check (eq_refl true). Qed.
Lemma rounds_babybear_24 : rounds_b p_babybear 31 24 7 128 8 21 (Thr 6 12 2 12 2 23 1) 6 19 = true.
Proof. vm_cast_no_check (eq_refl true). Qed.
Lemma search_bls12_2 : search_b 2 5 128 (Thr 6 56 1 56 19 28 27) 57 8 56 = true.
Proof. vm_cast_no_check (eq_refl true). Qed.
Lemma rounds_bls12_2 : rounds_b p_bls12 255 2 5 128 8 56 (Thr 6 56 1 56 19 28 27) 6 52 = true.
Proof. vm_cast_no_check (eq_refl true). Qed.
Lemma search_bls12_3 : search_b 3 5 128 (Thr 6 56 1 56 14 28 22) 57 8 56 = true.
Proof. vm_cast_no_check (eq_refl true). Qed.
Lemma rounds_bls12_3 : rounds_b p_bls12 255 3 5 128 8 56 (Thr 6 56 1 56 14 28 22) 6 52 = true.
Proof. vm_cast_no_check (eq_refl true). Qed.
Lemma search_bls12_4 : search_b 4 5 128 (Thr 6 56 1 56 12 28 20) 57 8 56 = true.
Proof. vm_cast_no_check (eq_refl true). Qed.
Lemma rounds_bls12_4 : rounds_b p_bls12 255 4 5 128 8 56 (Thr 6 56 1 56 12 28 20) 6 52 = true.
Proof. vm_cast_no_check (eq_refl true). Qed.
Lemma search_bls12_8 : search_b 8 5 128 (Thr 6 56 2 56 7 28 12) 58 8 57 = true.
Proof. vm_cast_no_check (eq_refl true). Qed.
Lemma rounds_bls12_8 : rounds_b p_bls12 255 8 5 128 8 57 (Thr 6 56 2 56 7 28 12) 6 53 = true.
Proof. vm_cast_no_check (eq_refl true). Qed.
Lemma rounds_bn256_3 : rounds_b p_bn256 254 3 5 128 8 56 (Thr 6 56 1 56 14 28 22) 6 52 = true.
Proof. vm_cast_no_check (eq_refl true). Qed.
Lemma search_goldilocks_8 : search_b 8 7 128 (Thr 6 23 2 23 6 23 11) 23 8 22 = true.
Proof. vm_cast_no_check (eq_refl true). Qed.
Lemma rounds_goldilocks_8 : rounds_b p_goldilocks 64 8 7 128 8 22 (Thr 6 23 2 23 6 23 11) 6 20 = true.
Proof. vm_cast_no_check (eq_refl true). Qed.
Lemma search_goldilocks_12 : search_b 12 7 128 (Thr 6 23 2 23 4 23 1) 23 8 22 = true.
Proof. vm_cast_no_check (eq_refl true). Qed.
Lemma rounds_goldilocks_12 : rounds_b p_goldilocks 64 12 7 128 8 22 (Thr 6 23 2 23 4 23 1) 6 20 = true.
Proof. vm_cast_no_check (eq_refl true). Qed.
Lemma search_goldilocks_16 : search_b 16 7 128 (Thr 6 23 2 23 3 23 1) 23 8 22 = true.
Proof. vm_cast_no_check (eq_refl true). Qed.
Lemma rounds_goldilocks_16 : rounds_b p_goldilocks 64 16 7 128 8 22 (Thr 6 23 2 23 3 23 1) 6 20 = true.
Proof. vm_cast_no_check (eq_refl true). Qed.
Lemma search_goldilocks_20 : search_b 20 7 128 (Thr 6 23 2 23 3 23 1) 23 8 22 = true.
Proof. vm_cast_no_check (eq_refl true). Qed.
Lemma rounds_goldilocks_20 : rounds_b p_goldilocks 64 20 7 128 8 22 (Thr 6 23 2 23 3 23 1) 6 20 = true.
Proof. vm_cast_no_check (eq_refl true). Qed.
Lemma rounds_pallas_3 : rounds_b p_pallas 255 3 5 128 8 56 (Thr 6 56 1 56 14 28 22) 6 52 = true.
Proof. vm_cast_no_check (eq_refl true). Qed.
Lemma rounds_pallas_4 : rounds_b p_pallas 255 4 5 128 8 56 (Thr 6 56 1 56 12 28 20) 6 52 = true.
Proof. vm_cast_no_check (eq_refl true). Qed.
Lemma rounds_pallas_8 : rounds_b p_pallas 255 8 5 128 8 57 (Thr 6 56 2 56 7 28 12) 6 53 = true.
Proof. vm_cast_no_check (eq_refl true). Qed.
Lemma rounds_vesta_3 : rounds_b p_vesta 255 3 5 128 8 56 (Thr 6 56 1 56 14 28 22) 6 52 = true.
Proof. vm_cast_no_check (eq_refl true). Qed.
