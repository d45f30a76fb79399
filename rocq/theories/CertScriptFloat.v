(** * CertScriptFloat: the inequalities of the shipped instances keep away from their bounds (C75) *)
From Coq Require Import ZArith List.
From Verif Require Import ModelFields ProofScript ProofScriptFloat.
Import ListNotations.
Local Open Scope Z_scope.

Lemma away_2_5 : away_ok 2 5 128 [27; 25; 23; 22; 21; 20; 19; 18; 17; 16; 15; 15; 14; 14; 13; 13; 13; 12; 12; 12; 11; 11; 11; 11; 10; 10; 10; 10; 10; 9; 9; 9; 9; 9; 9; 9; 8; 8; 8; 8; 8; 8; 8; 8; 8; 8; 7] = true.
Proof. vm_cast_no_check (eq_refl true). Qed.
Lemma away_3_5 : away_ok 3 5 128 [22; 19; 17; 14; 12; 10; 8; 6; 4; 2; 1; 1; 1; 1; 1; 1; 1; 1; 1; 1; 1; 1; 1; 1; 1; 1; 1; 1; 1; 1; 1; 1; 1; 1; 1; 1; 1; 1; 1; 1; 1; 1; 1; 1; 1; 1; 1] = true.
Proof. vm_cast_no_check (eq_refl true). Qed.
Lemma away_4_5 : away_ok 4 5 128 [20; 17; 14; 11; 9; 7; 5; 3; 2; 1; 1; 1; 1; 1; 1; 1; 1; 1; 1; 1; 1; 1; 1; 1; 1; 1; 1; 1; 1; 1; 1; 1; 1; 1; 1; 1; 1; 1; 1; 1; 1; 1; 1; 1; 1; 1; 1] = true.
Proof. vm_cast_no_check (eq_refl true). Qed.
Lemma away_8_5 : away_ok 8 5 128 [12; 7; 4; 1; 1; 1; 1; 1; 1; 1; 1; 1; 1; 1; 1; 1; 1; 1; 1; 1; 1; 1; 1; 1; 1; 1; 1; 1; 1; 1; 1; 1; 1; 1; 1; 1; 1; 1; 1; 1; 1; 1; 1; 1; 1; 1; 1] = true.
Proof. vm_cast_no_check (eq_refl true). Qed.
Lemma away_8_7 : away_ok 8 7 128 [11; 6; 2; 1; 1; 1; 1; 1; 1; 1; 1; 1; 1; 1; 1; 1; 1; 1; 1; 1; 1; 1; 1; 1; 1; 1; 1; 1; 1; 1; 1; 1; 1; 1; 1; 1; 1; 1; 1; 1; 1; 1; 1; 1; 1; 1; 1] = true.
Proof. vm_cast_no_check (eq_refl true). Qed.
Lemma away_12_7 : away_ok 12 7 128 [1; 1; 1; 1; 1; 1; 1; 1; 1; 1; 1; 1; 1; 1; 1; 1; 1; 1; 1; 1; 1; 1; 1; 1; 1; 1; 1; 1; 1; 1; 1; 1; 1; 1; 1; 1; 1; 1; 1; 1; 1; 1; 1; 1; 1; 1; 1] = true.
Proof. vm_cast_no_check (eq_refl true). Qed.
Lemma away_16_7 : away_ok 16 7 128 [1; 1; 1; 1; 1; 1; 1; 1; 1; 1; 1; 1; 1; 1; 1; 1; 1; 1; 1; 1; 1; 1; 1; 1; 1; 1; 1; 1; 1; 1; 1; 1; 1; 1; 1; 1; 1; 1; 1; 1; 1; 1; 1; 1; 1; 1; 1] = true.
Proof. vm_cast_no_check (eq_refl true). Qed.
Lemma away_20_7 : away_ok 20 7 128 [1; 1; 1; 1; 1; 1; 1; 1; 1; 1; 1; 1; 1; 1; 1; 1; 1; 1; 1; 1; 1; 1; 1; 1; 1; 1; 1; 1; 1; 1; 1; 1; 1; 1; 1; 1; 1; 1; 1; 1; 1; 1; 1; 1; 1; 1; 1] = true.
Proof. vm_cast_no_check (eq_refl true). Qed.
Lemma away_24_7 : away_ok 24 7 128 [1; 1; 1; 1; 1; 1; 1; 1; 1; 1; 1; 1; 1; 1; 1; 1; 1; 1; 1; 1; 1; 1; 1; 1; 1; 1; 1; 1; 1; 1; 1; 1; 1; 1; 1; 1; 1; 1; 1; 1; 1; 1; 1; 1; 1; 1; 1] = true.
Proof. vm_cast_no_check (eq_refl true). Qed.
Lemma clear_babybear_16 : clear_ok p_babybear 31 16 7 128 (Thr 6 12 2 12 3 23 1) = true.
Proof. vm_cast_no_check (eq_refl true). Qed.
Lemma clear_babybear_24 : clear_ok p_babybear 31 24 7 128 (Thr 6 12 2 12 2 23 1) = true.
Proof. vm_cast_no_check (eq_refl true). Qed.
Lemma clear_bls12_2 : clear_ok p_bls12 255 2 5 128 (Thr 6 56 1 56 19 28 27) = true.
Proof. vm_cast_no_check (eq_refl true). Qed.
Lemma clear_bls12_3 : clear_ok p_bls12 255 3 5 128 (Thr 6 56 1 56 14 28 22) = true.
Proof. vm_cast_no_check (eq_refl true). Qed.
Lemma clear_bls12_4 : clear_ok p_bls12 255 4 5 128 (Thr 6 56 1 56 12 28 20) = true.
Proof. vm_cast_no_check (eq_refl true). Qed.
Lemma clear_bls12_8 : clear_ok p_bls12 255 8 5 128 (Thr 6 56 2 56 7 28 12) = true.
Proof. vm_cast_no_check (eq_refl true). Qed.
Lemma clear_bn256_3 : clear_ok p_bn256 254 3 5 128 (Thr 6 56 1 56 14 28 22) = true.
Proof. vm_cast_no_check (eq_refl true). Qed.
Lemma clear_goldilocks_8 : clear_ok p_goldilocks 64 8 7 128 (Thr 6 23 2 23 6 23 11) = true.
Proof. vm_cast_no_check (eq_refl true). Qed.
Lemma clear_goldilocks_12 : clear_ok p_goldilocks 64 12 7 128 (Thr 6 23 2 23 4 23 1) = true.
Proof. vm_cast_no_check (eq_refl true). Qed.
Lemma clear_goldilocks_16 : clear_ok p_goldilocks 64 16 7 128 (Thr 6 23 2 23 3 23 1) = true.
Proof. vm_cast_no_check (eq_refl true). Qed.
Lemma clear_goldilocks_20 : clear_ok p_goldilocks 64 20 7 128 (Thr 6 23 2 23 3 23 1) = true.
Proof. vm_cast_no_check (eq_refl true). Qed.
Lemma clear_pallas_3 : clear_ok p_pallas 255 3 5 128 (Thr 6 56 1 56 14 28 22) = true.
Proof. vm_cast_no_check (eq_refl true). Qed.
Lemma clear_pallas_4 : clear_ok p_pallas 255 4 5 128 (Thr 6 56 1 56 12 28 20) = true.
Proof. vm_cast_no_check (eq_refl true). Qed.
Lemma clear_pallas_8 : clear_ok p_pallas 255 8 5 128 (Thr 6 56 2 56 7 28 12) = true.
Proof. vm_cast_no_check (eq_refl true). Qed.
Lemma clear_vesta_3 : clear_ok p_vesta 255 3 5 128 (Thr 6 56 1 56 14 28 22) = true.
Proof. vm_cast_no_check (eq_refl true). Qed.
