(** * ProofQuiet3: active partial rounds of the shipped instances *)
From Coq Require Import Znumtheory.
From Verif Require Import Base Field Spec FieldPow LinAlg LoopLemmas Bij Elim SpecPoseidon2 SpecPoseidon SpecFirst SpecInstances
  ModelPoseidon2 ModelPoseidon ModelInstances ModelSubspace ProofPoseidon2 ProofBranch2 ProofInstances ProofQuiet ProofQuiet2.
From Verif Require ProofKats ProofGrain4 ProofTrail2 ProofPoseidon2Bij.
Local Open Scope nat_scope.

Theorem p2_shipped_count I : In I p2_instances -> forall F (Fo : FOps F), is_prime_field Fo (qi_p I) -> forall dbg,
  exists Q, p2_instance_params dbg I = Ok Q /\
  forall lo n, qi_rf I / 2 <= lo -> lo + n <= qi_rf I / 2 + qi_rp I -> active_rounds (qi_t I) (p2_partial_round Q) lo n (n / qi_t I).
Proof.
  intros HI F Fo HP dbg. pose proof (prime_field_is_field HP) as HF. destruct (ProofKats.p2_all I HI) as [P [Hok [Hpr H]]].
  destruct (p2_cert_bijective P Hok I Hpr H (Fo := Fo) HP dbg) as [Q [HQ HB]]. exists Q. split; [exact HQ|].
  destruct (p2_cert_parts P Hok I H) as [Ep [H7 [Hb [HA [HC HE]]]]]. rewrite (p2_instance_residues dbg I HC Hb) in HQ.
  destruct HA as [Hd He Hw Hp1 Hg Hov]. pose proof (p2_width_pos _ Hw) as W2. pose proof (Nat.div_mod (qi_rf I) 2 ltac:(lia)) as Dm.
  assert (HR : forall r, r < qi_rf I + qi_rp I -> length (nth r (map (map (f_of_Z (F := F))) (qi_rc I)) []) = qi_t I).
  { intros r Hr. rewrite (map_of_Z_row _ _ _ r (pc_rc_shape I HC)); lia. }
  assert (HD : p2_data_ok (qi_t I) (qi_rf I) (qi_rp I) (map (f_of_Z (F := F)) (qi_diag I)) (map (map f_of_Z) (qi_rc I))).
  { split; [intros r Hr; rewrite HR; lia|]. split; [intros r Hr; rewrite HR; lia|]. intros _ _. rewrite map_length, (pc_diag_length I HC). lia. }
  destruct (proj1 (ProofPoseidon2Bij.p2_permutation_bijective_iff HP dbg _ _ _ _ _ _ _ Q HQ Hov Hw Hd HD) HB) as [_ [_ [Z|HI']]]; [lia|].
  intros lo n Hlo Hn.
  assert (HS := p2_step_is HF _ _ _ _ _ _ _ _ _ lo n HQ Hov Hw Hd).
  assert (HS' : step_is (qi_t I) (int_matrix (qi_t I) (map f_of_Z (qi_diag I))) (p2_partial_round Q)
    (fun r a => fpow (fadd a (nth 0 (nth r (map (map f_of_Z) (qi_rc I)) []) f0)) (qi_d I)) lo n).
  { apply HS; [intros _; rewrite map_length, (pc_diag_length I HC); lia|]. intros r Hr. rewrite HR; lia. }
  apply (step_count HF (qi_t I) _ _ _ lo n ltac:(lia) HS').
  - apply (invertible_nonsingular HF). exact HI'.
  - intros r a b. apply (sbox_inj HP); [apply degree_pos, Hd|exact Hg].
  - intros v Hv. destruct (ProofTrail2.p2_algorithms I HI F Fo HP) as [A1 _].
    apply (proj1 (alg1_hidden HF (qi_t I) _ ltac:(unfold p2_width in Hw; cbn [In] in Hw; lia)) A1).
    apply (hidden_ext (qi_t I) (int_matrix (qi_t I) (map f_of_Z (qi_diag I)))); [|exact Hv].
    intros i j Hi Hj. apply (p2_matrix_applied I HP Hw HC); assumption.
Qed.

Theorem ps_shipped_count I : In I ps_instances -> forall F (Fo : FOps F), is_prime_field Fo (si_p I) -> forall dbg,
  exists Q, ps_instance_params dbg I = Ok Q /\
  forall lo n, lo + n <= si_rf I + si_rp I -> active_rounds (si_t I) (ps_partial_round dbg Q) lo n (n / si_t I).
Proof.
  intros HI F Fo HP dbg. pose proof (prime_field_is_field HP) as HF. destruct (ProofKats.ps_all I HI) as [P [Hok [Hpr H]]].
  destruct (ps_cert_ok P Hok I Hpr H (Fo := Fo) HP dbg) as [Q [HQ _]]. exists Q. split; [exact HQ|].
  destruct (ps_cert_parts P Hok I H) as [Ep [H7 [Hb [HA [HC _]]]]]. rewrite (ps_instance_residues dbg I HC Hb) in HQ.
  destruct HA as [Hd He Hw Hp1 Hg Hov]. pose proof (p2_width_pos _ Hw) as W2.
  pose proof (map_of_Z_dims (F := F) _ _ _ (sc_mds_shape I HC)) as HD.
  destruct (ProofGrain4.ps_shipped_mds I HI F Fo HP) as [_ HM].
  intros lo n Hn. apply (ps_count HP dbg _ _ _ _ _ _ Q lo n HQ Hov HD); [|exact Hg| |apply (ProofTrail2.ps_algorithms I HI F Fo HP)].
  - intros r Hr. rewrite (map_of_Z_row _ _ _ r (sc_rc_shape I HC)); lia.
  - apply (nonsingular_invertible HF). apply (mds_nonsingular HP). exact HM.
Qed.
