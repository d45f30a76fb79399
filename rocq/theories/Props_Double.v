(** * The parameter script with binary64 arithmetic: C91 *)
From Coq Require Import Reals Lra.
From Verif Require Import Base ModelFields ModelInstances SpecRounds SpecDouble ModelScript ModelScriptFloat ModelScriptDouble.
From Verif Require ProofDouble ProofScriptDouble ProofScriptDouble2 ProofScriptDouble3 ProofScriptDouble4.
Local Open Scope nat_scope.

(** every answer that the search can ask for is one of the program *)
Definition C91_program (sat : Z -> Z -> bool) (p : Z) (n t d : nat) : Prop :=
  forall rf rp, (4 <= rf < 100)%Z -> Z.even rf = true -> (1 <= rp < 2 ^ 20)%Z ->
    sat_double p (Z.of_nat n) (Z.of_nat t) rf rp (Z.of_nat d) 128 (sat rf rp).
Definition C91_margin (scale : Z -> Z) : Prop := forall rp, (1 <= rp < 2 ^ 20)%Z -> scaled rp (scale rp).
Definition C91_bits (n : nat) (p : Z) : Prop := (2 ^ (Z.of_nat n - 1) <= p < 2 ^ Z.of_nat n)%Z.
Definition C91_sizes (p n t al M : Z) : Prop :=
  (2 <= p < 2 ^ 256 /\ 0 <= n <= 1024 /\ 2 <= t <= 1024 /\ 2 <= al <= 1023 /\ 0 <= M <= 1024)%Z.
Definition C91_searched (rf rp : Z) : Prop := (4 <= rf < 100)%Z /\ Z.even rf = true /\ (1 <= rp < 2 ^ 20)%Z.

(** ** C91: one rounded operation is off by half a unit in the last place *)
Theorem C91_one_operation :
  forall k x v, (0 <= k <= 53)%Z -> (Rabs x <= IZR (2 ^ k))%R -> nearest x v -> (Rabs (v - x) <= / IZR (2 ^ (54 - k)))%R.
Proof. exact ProofScriptDouble.nearest_abs. Qed.
Print Assumptions C91_one_operation.

(** ** C91: the inequalities always have an answer, and every answer is within the error bound of C75 *)
Theorem C91_inequalities :
  forall p n t al M rf rp, C91_sizes p n t al M -> C91_searched rf rp ->
  (exists b, sat_double p n t rf rp al M b) /\
  (forall b, sat_double p n t rf rp al M b -> sat_computed p n t rf rp al M b).
Proof. exact ProofScriptDouble4.inequalities. Qed.
Print Assumptions C91_inequalities.

(** ** C91: the round numbers of every shipped instance are what the program finds *)
Theorem C91_poseidon2 :
  forall I, In I p2_instances -> forall n, C91_bits n (qi_p I) ->
  (exists sat, C91_program sat (qi_p I) n (qi_t I) (qi_d I)) /\
  (forall sat scale, C91_program sat (qi_p I) n (qi_t I) (qi_d I) -> C91_margin scale ->
     find_FD_round_numbers_fl sat scale (Z.of_nat (qi_t I)) true = (Z.of_nat (qi_rf I), Z.of_nat (qi_rp I))).
Proof. exact ProofScriptDouble3.p2_round_numbers_dbl. Qed.
Print Assumptions C91_poseidon2.

Theorem C91_poseidon :
  forall I, In I ps_instances -> forall n, C91_bits n (si_p I) ->
  (exists sat, C91_program sat (si_p I) n (si_t I) (si_d I)) /\
  (forall sat scale, C91_program sat (si_p I) n (si_t I) (si_d I) -> C91_margin scale ->
     find_FD_round_numbers_fl sat scale (Z.of_nat (si_t I)) true = (Z.of_nat (si_rf I), Z.of_nat (si_rp I))).
Proof. exact ProofScriptDouble3.ps_round_numbers_dbl. Qed.
Print Assumptions C91_poseidon.

(** ** C91: ceil(log(p, 2)) of lines 41 and 59 is the number of bits for four of the six fields *)
Theorem C91_field_bits :
  forall v,
  (log_base (IZR p_babybear) 2 v -> Rceil v = 31%Z) /\ (log_base (IZR p_goldilocks) 2 v -> Rceil v = 64%Z) /\
  (log_base (IZR p_bls12) 2 v -> Rceil v = 255%Z) /\ (log_base (IZR p_bn256) 2 v -> Rceil v = 254%Z).
Proof. exact ProofScriptDouble4.field_bits. Qed.
Print Assumptions C91_field_bits.

(** ** C91: for Pallas and Vesta it is one too small: the correctly rounded logarithm is 254, the prime has 255 bits *)
Theorem C91_pasta_bits_refuted :
  forall p, In p [p_pallas; p_vesta] ->
  C91_bits 255 p /\ Rceil (Rlog 2 (IZR p)) = 255%Z /\
  (forall v, nearest (Rlog 2 (IZR p)) v -> Rceil v = 254%Z) /\
  (exists v, log_base (IZR p) 2 v /\ Rceil v = 254%Z).
Proof. exact ProofScriptDouble4.pasta_bits_all. Qed.
Print Assumptions C91_pasta_bits_refuted.

(** the hypotheses can be met *)
Example C91_ex_sizes : C91_sizes p_goldilocks 64 12 7 128 /\ C91_searched 6 20.
Proof. exact ProofScriptDouble4.ex_sizes. Qed.
Example C91_ex_log : exists v, log_base (IZR p_goldilocks) 2 v.
Proof. exact ProofScriptDouble4.ex_log. Qed.
(** a rounded operation that is not exact: 1/3 is no binary64 number *)
Example C91_ex_third : ~ double (1 / 3)%R /\ exists v, nearest (1 / 3)%R v /\ v <> (1 / 3)%R.
Proof. exact ProofScriptDouble4.ex_third. Qed.
