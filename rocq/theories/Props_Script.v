(** * Round numbers of the shipped Poseidon2 and Poseidon instances: C53 *)
From Coq Require Import Reals.
From Verif Require Import Base ModelFields ModelInstances SpecRounds ModelScript.
From Verif Require ProofScript2 ProofScript CertScript.
Local Open Scope nat_scope.

(** a test that decides the inequalities of the script on the values the search asks for *)
Definition C53_decides (sat : Z -> Z -> bool) (p : Z) (n t d : nat) : Prop :=
  forall rf rp, (4 <= rf)%Z -> Z.even rf = true -> (1 <= rp)%Z ->
    (sat rf rp = true <-> sat_inequiv_alpha p (Z.of_nat n) (Z.of_nat t) rf rp (Z.of_nat d) 128).
Definition C53_bits (n : nat) (p : Z) : Prop := (2 ^ (Z.of_nat n - 1) <= p < 2 ^ Z.of_nat n)%Z.

Theorem C53_poseidon2_round_numbers :
  forall I, In I p2_instances -> forall n, C53_bits n (qi_p I) ->
  (exists sat, C53_decides sat (qi_p I) n (qi_t I) (qi_d I)) /\
  (forall sat, C53_decides sat (qi_p I) n (qi_t I) (qi_d I) ->
     find_FD_round_numbers sat (Z.of_nat (qi_t I)) true = (Z.of_nat (qi_rf I), Z.of_nat (qi_rp I))) /\
  (exists a b, sat_inequiv_alpha (qi_p I) (Z.of_nat n) (Z.of_nat (qi_t I)) a b (Z.of_nat (qi_d I)) 128 /\
     Z.of_nat (qi_rf I) = (a + 2)%Z /\ is_ceil (1075 / 1000 * IZR b)%R (Z.of_nat (qi_rp I))).
Proof. exact ProofScript2.p2_round_numbers. Qed.
Print Assumptions C53_poseidon2_round_numbers.

Theorem C53_poseidon_round_numbers :
  forall I, In I ps_instances -> forall n, C53_bits n (si_p I) ->
  (exists sat, C53_decides sat (si_p I) n (si_t I) (si_d I)) /\
  (forall sat, C53_decides sat (si_p I) n (si_t I) (si_d I) ->
     find_FD_round_numbers sat (Z.of_nat (si_t I)) true = (Z.of_nat (si_rf I), Z.of_nat (si_rp I))) /\
  (exists a b, sat_inequiv_alpha (si_p I) (Z.of_nat n) (Z.of_nat (si_t I)) a b (Z.of_nat (si_d I)) 128 /\
     Z.of_nat (si_rf I) = (a + 2)%Z /\ is_ceil (1075 / 1000 * IZR b)%R (Z.of_nat (si_rp I))).
Proof. exact ProofScript2.ps_round_numbers. Qed.
Print Assumptions C53_poseidon_round_numbers.

(** both sides of the inequalities occur: Goldilocks, t = 12 *)
Example C53_ex : C53_bits 64 p_goldilocks /\
  sat_inequiv_alpha p_goldilocks 64 12 6 20 7 128 /\ ~ sat_inequiv_alpha p_goldilocks 64 12 6 19 7 128 /\
  ~ sat_inequiv_alpha p_goldilocks 64 12 4 40 7 128.
Proof.
  assert (H : ProofScript.thr_ok p_goldilocks 64 12 7 128 (ProofScript.Thr 6 23 2 23 4 23 1) = true) by (vm_compute; reflexivity).
  assert (D : forall rf rp, (4 <= rf)%Z -> Z.even rf = true -> (1 <= rp)%Z ->
    ProofScript.sat_b 12 7 128 (ProofScript.Thr 6 23 2 23 4 23 1) rf rp = true <-> sat_inequiv_alpha p_goldilocks 64 12 rf rp 7 128)
    by (intros rf rp; apply ProofScript.sat_b_ok; exact H).
  split; [split; [apply Z.leb_le|apply Z.ltb_lt]; vm_compute; reflexivity|].
  split; [apply D; [lia|reflexivity|lia|vm_compute; reflexivity]|].
  split; intros S; apply D in S; try lia; try reflexivity; vm_compute in S; discriminate S.
Qed.
