(** * ProofKats: all shipped instances, and their known-answer tests *)
From Verif Require Import Base Field Spec LinAlg Limbs Fp FieldPow SpecPoseidon SpecPoseidon2 ModelPoseidon2 ModelPoseidon
  ModelFields ModelInstances ModelKats SpecInstances Transfer TransferRef Elim ProofInstances Primes CertP2 CertPS_small CertPS_large.
From Verif Require ProofPoseidon2.
From Coq Require Import Znumtheory.
Local Open Scope nat_scope.

Lemma p2_all I : In I p2_instances -> exists P Hok, prime (qi_p I) /\ p2_cert P Hok I = true.
Proof.
  intros H. unfold p2_instances in H. cbn [In] in H.
  destruct H as [<-|H]; [exact (ex_intro _ P_babybear (ex_intro _ P_babybear_ok (conj prime_babybear cert_POSEIDON2_BABYBEAR_16_PARAMS)))|].
  destruct H as [<-|H]; [exact (ex_intro _ P_babybear (ex_intro _ P_babybear_ok (conj prime_babybear cert_POSEIDON2_BABYBEAR_24_PARAMS)))|].
  destruct H as [<-|H]; [exact (ex_intro _ P_bls12 (ex_intro _ P_bls12_ok (conj prime_bls12 cert_POSEIDON2_BLS_2_PARAMS)))|].
  destruct H as [<-|H]; [exact (ex_intro _ P_bls12 (ex_intro _ P_bls12_ok (conj prime_bls12 cert_POSEIDON2_BLS_3_PARAMS)))|].
  destruct H as [<-|H]; [exact (ex_intro _ P_bls12 (ex_intro _ P_bls12_ok (conj prime_bls12 cert_POSEIDON2_BLS_4_PARAMS)))|].
  destruct H as [<-|H]; [exact (ex_intro _ P_bls12 (ex_intro _ P_bls12_ok (conj prime_bls12 cert_POSEIDON2_BLS_8_PARAMS)))|].
  destruct H as [<-|H]; [exact (ex_intro _ P_bn256 (ex_intro _ P_bn256_ok (conj prime_bn256 cert_POSEIDON2_BN256_PARAMS)))|].
  destruct H as [<-|H]; [exact (ex_intro _ P_goldilocks (ex_intro _ P_goldilocks_ok (conj prime_goldilocks cert_POSEIDON2_GOLDILOCKS_8_PARAMS)))|].
  destruct H as [<-|H]; [exact (ex_intro _ P_goldilocks (ex_intro _ P_goldilocks_ok (conj prime_goldilocks cert_POSEIDON2_GOLDILOCKS_12_PARAMS)))|].
  destruct H as [<-|H]; [exact (ex_intro _ P_goldilocks (ex_intro _ P_goldilocks_ok (conj prime_goldilocks cert_POSEIDON2_GOLDILOCKS_16_PARAMS)))|].
  destruct H as [<-|H]; [exact (ex_intro _ P_goldilocks (ex_intro _ P_goldilocks_ok (conj prime_goldilocks cert_POSEIDON2_GOLDILOCKS_20_PARAMS)))|].
  destruct H as [<-|H]; [exact (ex_intro _ P_pallas (ex_intro _ P_pallas_ok (conj prime_pallas cert_POSEIDON2_PALLAS_3_PARAMS)))|].
  destruct H as [<-|H]; [exact (ex_intro _ P_pallas (ex_intro _ P_pallas_ok (conj prime_pallas cert_POSEIDON2_PALLAS_4_PARAMS)))|].
  destruct H as [<-|H]; [exact (ex_intro _ P_pallas (ex_intro _ P_pallas_ok (conj prime_pallas cert_POSEIDON2_PALLAS_8_PARAMS)))|].
  destruct H as [<-|H]; [exact (ex_intro _ P_vesta (ex_intro _ P_vesta_ok (conj prime_vesta cert_POSEIDON2_VESTA_PARAMS)))|].
  destruct H.
Qed.

Lemma ps_all I : In I ps_instances -> exists P Hok, prime (si_p I) /\ ps_cert P Hok I = true.
Proof.
  intros H. unfold ps_instances in H. cbn [In] in H.
  destruct H as [<-|H]; [exact (ex_intro _ P_babybear (ex_intro _ P_babybear_ok (conj prime_babybear cert_POSEIDON_BABYBEAR_16_PARAMS)))|].
  destruct H as [<-|H]; [exact (ex_intro _ P_babybear (ex_intro _ P_babybear_ok (conj prime_babybear cert_POSEIDON_BABYBEAR_24_PARAMS)))|].
  destruct H as [<-|H]; [exact (ex_intro _ P_bls12 (ex_intro _ P_bls12_ok (conj prime_bls12 cert_POSEIDON_BLS_2_PARAMS)))|].
  destruct H as [<-|H]; [exact (ex_intro _ P_bls12 (ex_intro _ P_bls12_ok (conj prime_bls12 cert_POSEIDON_BLS_3_PARAMS)))|].
  destruct H as [<-|H]; [exact (ex_intro _ P_bls12 (ex_intro _ P_bls12_ok (conj prime_bls12 cert_POSEIDON_BLS_4_PARAMS)))|].
  destruct H as [<-|H]; [exact (ex_intro _ P_bls12 (ex_intro _ P_bls12_ok (conj prime_bls12 cert_POSEIDON_BLS_8_PARAMS)))|].
  destruct H as [<-|H]; [exact (ex_intro _ P_bn256 (ex_intro _ P_bn256_ok (conj prime_bn256 cert_POSEIDON_BN_PARAMS)))|].
  destruct H as [<-|H]; [exact (ex_intro _ P_goldilocks (ex_intro _ P_goldilocks_ok (conj prime_goldilocks cert_POSEIDON_GOLDILOCKS_8_PARAMS)))|].
  destruct H as [<-|H]; [exact (ex_intro _ P_goldilocks (ex_intro _ P_goldilocks_ok (conj prime_goldilocks cert_POSEIDON_GOLDILOCKS_12_PARAMS)))|].
  destruct H as [<-|H]; [exact (ex_intro _ P_goldilocks (ex_intro _ P_goldilocks_ok (conj prime_goldilocks cert_POSEIDON_GOLDILOCKS_16_PARAMS)))|].
  destruct H as [<-|H]; [exact (ex_intro _ P_goldilocks (ex_intro _ P_goldilocks_ok (conj prime_goldilocks cert_POSEIDON_GOLDILOCKS_20_PARAMS)))|].
  destruct H as [<-|H]; [exact (ex_intro _ P_pallas (ex_intro _ P_pallas_ok (conj prime_pallas cert_POSEIDON_PALLAS_3_PARAMS)))|].
  destruct H as [<-|H]; [exact (ex_intro _ P_pallas (ex_intro _ P_pallas_ok (conj prime_pallas cert_POSEIDON_PALLAS_4_PARAMS)))|].
  destruct H as [<-|H]; [exact (ex_intro _ P_pallas (ex_intro _ P_pallas_ok (conj prime_pallas cert_POSEIDON_PALLAS_8_PARAMS)))|].
  destruct H as [<-|H]; [exact (ex_intro _ P_vesta (ex_intro _ P_vesta_ok (conj prime_vesta cert_POSEIDON_VESTA_PARAMS)))|].
  destruct H.
Qed.

(** ** Poseidon2 *)
Theorem p2_shipped_consistent I : In I p2_instances ->
  p2_consistent I /\ good_arguments (qi_p I) (qi_t I) (qi_d I) (qi_rf I) (qi_rp I) /\
  forall F (Fo : FOps F), is_prime_field Fo (qi_p I) ->
    mat_eq (qi_t I) (int_matrix (qi_t I) (map f_of_Z (qi_diag I))) (entry (map (map (f_of_Z (F := F))) (qi_mat I))).
Proof.
  intros HI. destruct (p2_all I HI) as [P [Hok [Hpr H]]]. destruct (p2_cert_parts P Hok I H) as [Ep [H7 [Hb [HA [HC HE]]]]].
  split; [exact HC|]. split; [exact HA|]. intros F Fo HP. apply (p2_matrix_applied I HP); [apply HA|exact HC].
Qed.

Lemma p2_consistent_data I {F} {Fo : FOps F} : p2_consistent I -> p2_width (qi_t I) -> qi_rf I mod 2 = 0 ->
  p2_data_ok (qi_t I) (qi_rf I) (qi_rp I) (map (f_of_Z (F := F)) (qi_diag I)) (map (map f_of_Z) (qi_rc I)).
Proof.
  intros HC Hw He. pose proof (Nat.div_mod (qi_rf I) 2 ltac:(lia)). split; [|split].
  - intros r Hr. rewrite (map_of_Z_row _ _ _ r (pc_rc_shape I HC)); lia.
  - intros r Hr. rewrite (map_of_Z_row _ _ _ r (pc_rc_shape I HC)) by lia. pose proof (ProofPoseidon2.p2_width_pos _ Hw). lia.
  - intros _ _. rewrite map_length, (pc_diag_length I HC). lia.
Qed.

Lemma p2_shipped_ref I : In I p2_instances ->
  forall F (Fo : FOps F), is_prime_field Fo (qi_p I) -> forall dbg,
  exists Q, p2_instance_params dbg I = Ok Q /\
    forall x, length x = qi_t I -> p2_permutation dbg Q x =
      Ok (p2_ref (qi_t I) (qi_d I) (qi_rf I) (qi_rp I) (map (f_of_Z (F := F)) (qi_diag I)) (map (map f_of_Z) (qi_rc I)) x).
Proof.
  intros HI F Fo HP dbg. destruct (p2_all I HI) as [P [Hok [Hpr H]]].
  destruct (p2_cert_parts P Hok I H) as [Ep [H7 [Hb [HA [HC HE]]]]].
  destruct (p2_new_succeeds (F := F) dbg _ _ _ _ _ (map f_of_Z (qi_diag I)) (map (map f_of_Z) (qi_mat I)) (map (map f_of_Z) (qi_rc I)) HA) as [Q HQ].
  exists Q. rewrite (p2_instance_residues dbg I HC Hb). split; [exact HQ|]. intros x Hx.
  destruct HA as [Hd He Hw Hp1 Hg Hov].
  apply (ProofPoseidon2.p2_permutation_ref (prime_field_is_field HP) dbg _ _ _ _ _ _ _ Q x HQ Hov Hw Hd); [|exact Hx].
  apply p2_consistent_data; assumption.
Qed.

Theorem p2_shipped_permutation I : In I p2_instances ->
  forall F (Fo : FOps F), is_prime_field Fo (qi_p I) -> forall dbg,
  exists Q, p2_instance_params dbg I = Ok Q /\ bijective_on (qi_t I) (p2_permutation dbg Q) /\
    forall x, length x = qi_t I -> p2_permutation dbg Q x =
      Ok (p2_ref (qi_t I) (qi_d I) (qi_rf I) (qi_rp I) (map (f_of_Z (F := F)) (qi_diag I)) (map (map f_of_Z) (qi_rc I)) x).
Proof.
  intros HI F Fo HP dbg. destruct (p2_all I HI) as [P [Hok [Hpr H]]].
  destruct (p2_cert_bijective P Hok I Hpr H (Fo := Fo) HP dbg) as [Q [HQ HB]].
  destruct (p2_shipped_ref I HI F Fo HP dbg) as [Q' [HQ' HR]]. exists Q.
  rewrite HQ in HQ'. injection HQ' as <-. split; [exact HQ|]. split; [exact HB|exact HR].
Qed.

(** ** Poseidon *)
Theorem ps_shipped_permutation I : In I ps_instances ->
  ps_consistent I /\ forall F (Fo : FOps F), is_prime_field Fo (si_p I) -> forall dbg,
    exists Q, ps_instance_params dbg I = Ok Q /\
      (forall x, length x = si_t I -> ps_permutation dbg Q x = ps_permutation_not_opt dbg Q x /\
         ps_permutation dbg Q x = Ok (ps_ref (si_t I) (si_d I) (si_rf I) (si_rp I)
            (entry (map (map (f_of_Z (F := F))) (si_mds I))) (map (map f_of_Z) (si_rc I)) x)) /\
      bijective_on (si_t I) (ps_permutation dbg Q) /\ bijective_on (si_t I) (ps_permutation_not_opt dbg Q).
Proof.
  intros HI. destruct (ps_all I HI) as [P [Hok [Hpr H]]]. split; [apply (ps_cert_parts P Hok I H)|].
  intros F Fo HP dbg. apply (ps_cert_ok P Hok I Hpr H (Fo := Fo) HP dbg).
Qed.
