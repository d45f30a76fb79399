(** * Round numbers of the shipped GMiMC and Neptune instances: C26, C31 *)
From Coq Require Import Reals.
From Verif Require Import Base ModelFields SpecRounds.
From Verif Require ProofRounds.

(** ** C26 *)
(** instances over BN256, Pallas and Vesta with t <= 9 *)
Definition C26_rounded_up (i : gm_instance) : Prop := In (gi_p i) [p_bn256; p_pallas; p_vesta] /\ gi_t i <= 9.

Theorem C26_gmimc_round_numbers :
  length gm_instances = 43 /\
  Forall (fun i => exists n, gmimc_rounds_formula (gi_p i) (gi_t i) (gi_d i) n /\
            (C26_rounded_up i -> Z.of_nat (gi_rounds i) = (n + 1)%Z) /\
            (~ C26_rounded_up i -> Z.of_nat (gi_rounds i) = n)) gm_instances.
Proof. exact (conj eq_refl ProofRounds.gm_instances_ok). Qed.
Print Assumptions C26_gmimc_round_numbers.

(** the formula determines the number *)
Theorem C26_formula_unique : forall p t d n n',
  gmimc_rounds_formula p t d n -> gmimc_rounds_formula p t d n' -> n = n'.
Proof. exact ProofRounds.gm_formula_fun. Qed.
Print Assumptions C26_formula_unique.

Example C26_ex : In (gm_inst p_bls12 2 5 224) gm_instances /\ gmimc_rounds_formula p_bls12 2 5 224 /\
  In (gm_inst p_bn256 3 5 226) gm_instances /\ gmimc_rounds_formula p_bn256 3 5 225.
Proof.
  split; [cbn; tauto|]. split; [apply (ProofRounds.gm_formula _ _ _ 220); vm_compute; reflexivity|].
  split; [cbn; tauto|]. apply (ProofRounds.gm_formula _ _ _ 219); vm_compute; reflexivity.
Qed.

(** ** C31 *)
Theorem C31_neptune_round_numbers_refuted :
  ~ Forall (fun i => exists n, neptune_rounds_formula 128 (ni_p i) (ni_t i) (ni_d i) n /\
                               (n <= Z.of_nat (ni_rp i))%Z) np_instances.
Proof. exact ProofRounds.np_instances_refuted. Qed.
Print Assumptions C31_neptune_round_numbers_refuted.

(** the instances over BN256 and Vesta *)
Definition C31_short (i : np_instance) : Prop := (ni_p i = p_bn256 \/ ni_p i = p_vesta) /\ ni_t i = 4.

Theorem C31_neptune_round_numbers :
  length np_instances = 12 /\
  Forall (fun i => exists n, neptune_rounds_formula 128 (ni_p i) (ni_t i) (ni_d i) n /\
            (C31_short i -> Z.of_nat (ni_rp i) = (n - 1)%Z) /\
            (~ C31_short i -> Z.of_nat (ni_rp i) = n)) np_instances.
Proof. exact (conj eq_refl ProofRounds.np_instances_ok). Qed.
Print Assumptions C31_neptune_round_numbers.

Theorem C31_formula_unique : forall kappa p t d n n',
  neptune_rounds_formula kappa p t d n -> neptune_rounds_formula kappa p t d n' -> n = n'.
Proof. exact ProofRounds.np_formula_fun. Qed.
Print Assumptions C31_formula_unique.

Example C31_ex : In (np_inst p_bn256 4 5 6 68) np_instances /\ neptune_rounds_formula 128 p_bn256 4 5 69.
Proof.
  split; [cbn; tauto|]. apply (ProofRounds.np_formula_big _ _ _ 61); vm_compute; (reflexivity || discriminate).
Qed.
