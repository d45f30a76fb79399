(** * Rounding errors of the parameter script: C75 *)
From Coq Require Import Reals Lra.
From Verif Require Import Base ModelFields ModelInstances SpecRounds SpecDouble ModelScript ModelScriptFloat.
From Verif Require ProofDouble ProofScriptFloat3.
Local Open Scope nat_scope.

(** every answer that the search can ask for may come from inexact values *)
Definition C75_inexact (sat : Z -> Z -> bool) (p : Z) (n t d : nat) : Prop :=
  forall rf rp, (4 <= rf < 100)%Z -> Z.even rf = true -> (1 <= rp < 2 ^ 20)%Z ->
    sat_computed p (Z.of_nat n) (Z.of_nat t) rf rp (Z.of_nat d) 128 (sat rf rp).
(** the security margin is computed with binary64 numbers *)
Definition C75_binary64 (scale : Z -> Z) : Prop := forall rp, (1 <= rp < 2 ^ 20)%Z -> scaled rp (scale rp).
Definition C75_bits (n : nat) (p : Z) : Prop := (2 ^ (Z.of_nat n - 1) <= p < 2 ^ Z.of_nat n)%Z.

(** ** C75: ceil(float(R_P_t) * 1.075) is the ceiling of the exact product *)
Theorem C75_security_margin :
  forall rp, (1 <= rp < 2 ^ 20)%Z ->
  (exists k, scaled rp k) /\ (forall k, scaled rp k -> is_ceil (1075 / 1000 * IZR rp)%R k).
Proof. exact ProofScriptFloat3.security_margin. Qed.
Print Assumptions C75_security_margin.

(** ** C75: errors up to 1/1000 do not change the round numbers *)
Theorem C75_poseidon2_rounding :
  forall I, In I p2_instances -> forall n, C75_bits n (qi_p I) ->
  (exists sat, C75_inexact sat (qi_p I) n (qi_t I) (qi_d I)) /\
  (forall sat scale, C75_inexact sat (qi_p I) n (qi_t I) (qi_d I) -> C75_binary64 scale ->
     find_FD_round_numbers_fl sat scale (Z.of_nat (qi_t I)) true = (Z.of_nat (qi_rf I), Z.of_nat (qi_rp I))).
Proof. exact ProofScriptFloat3.p2_round_numbers_fl. Qed.
Print Assumptions C75_poseidon2_rounding.

Theorem C75_poseidon_rounding :
  forall I, In I ps_instances -> forall n, C75_bits n (si_p I) ->
  (exists sat, C75_inexact sat (si_p I) n (si_t I) (si_d I)) /\
  (forall sat scale, C75_inexact sat (si_p I) n (si_t I) (si_d I) -> C75_binary64 scale ->
     find_FD_round_numbers_fl sat scale (Z.of_nat (si_t I)) true = (Z.of_nat (si_rf I), Z.of_nat (si_rp I))).
Proof. exact ProofScriptFloat3.ps_round_numbers_fl. Qed.
Print Assumptions C75_poseidon_rounding.

(** 1.075 is no binary64 number, so the product is inexact also where 1.075 R_P_t is an integer *)
Example C75_ex_inexact : ~ double (1075 / 1000)%R.
Proof. exact ProofScriptFloat3.not_double_1075. Qed.
Example C75_ex_binary64 : exists scale, C75_binary64 scale /\ scale 40%Z = 43%Z /\ scale 52%Z = 56%Z.
Proof.
  exists (fun n => ((n * 1075 + 999) / 1000)%Z). split; [intros rp H; exact (ProofDouble.scaled_exists rp H)|]. split; reflexivity.
Qed.
