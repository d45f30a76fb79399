(** * The search for round numbers is optimal: C71 *)
From Coq Require Import Reals Lra.
From Verif Require Import Base ModelFields ModelInstances SpecRounds ModelScript.
From Verif Require ProofSearch ProofScript2 ProofScript.
Local Open Scope Z_scope.

(** the pairs the search looks at and accepts *)
Definition C71_admissible (sat : Z -> Z -> bool) (rf rp : Z) : Prop :=
  4 <= rf < 100 /\ Z.even rf = true /\ 1 <= rp < 500 /\ sat rf rp = true.
(** what such a pair becomes: with the security margin two more full and 7.5 % more partial rounds *)
Definition C71_becomes (margin : bool) (rf rp R_F R_P : Z) : Prop :=
  if margin then R_F = rf + 2 /\ is_ceil (1075 / 1000 * IZR rp)%R R_P else R_F = rf /\ R_P = rp.

(** ** C71: the result has the least number of S-boxes, and among those the fewest full rounds *)
Theorem C71_search_optimal :
  forall sat t margin R_F R_P, 1 <= t -> find_FD_round_numbers sat t margin = (R_F, R_P) ->
  (exists rf rp, C71_admissible sat rf rp /\ C71_becomes margin rf rp R_F R_P) /\
  (forall rf rp R_F' R_P', C71_admissible sat rf rp -> C71_becomes margin rf rp R_F' R_P' ->
     t * R_F + R_P < t * R_F' + R_P' \/ (t * R_F + R_P = t * R_F' + R_P' /\ R_F <= R_F')) \/
  (R_F = 0 /\ R_P = 0 /\ forall rf rp, ~ C71_admissible sat rf rp).
Proof. exact ProofSearch.search_optimal. Qed.
Print Assumptions C71_search_optimal.

(** the size in bits is n times the number of S-boxes, so the same round numbers minimise it *)
Theorem C71_size_cost :
  forall n t R_F R_P, 1 <= t -> get_size_cost t R_F R_P (n * t) = n * (t * R_F + R_P).
Proof. exact ProofSearch.size_cost. Qed.
Print Assumptions C71_size_cost.

Theorem C71_final_numbers :
  forall sat n t margin R_F R_P, 1 <= t -> find_FD_round_numbers sat t margin = (R_F, R_P) ->
  poseidon_calc_final_numbers_fixed sat n t margin = [R_F; R_P; t * R_F + R_P; n * (t * R_F + R_P)].
Proof. exact ProofSearch.final_numbers. Qed.
Print Assumptions C71_final_numbers.

(** no round numbers that satisfy the inequalities of the script give a cheaper instance than the shipped one,
    also outside the ranges of the search *)
Theorem C71_poseidon2_optimal :
  forall I, In I p2_instances -> forall (n : nat) rf rp k, 2 ^ (Z.of_nat n - 1) <= qi_p I < 2 ^ Z.of_nat n -> 4 <= rf -> Z.even rf = true -> 1 <= rp ->
  sat_inequiv_alpha (qi_p I) (Z.of_nat n) (Z.of_nat (qi_t I)) rf rp (Z.of_nat (qi_d I)) 128 -> is_ceil (1075 / 1000 * IZR rp)%R k ->
  Z.of_nat (qi_t I) * Z.of_nat (qi_rf I) + Z.of_nat (qi_rp I) <= Z.of_nat (qi_t I) * (rf + 2) + k.
Proof. exact ProofSearch.p2_optimal. Qed.
Print Assumptions C71_poseidon2_optimal.

Theorem C71_poseidon_optimal :
  forall I, In I ps_instances -> forall (n : nat) rf rp k, 2 ^ (Z.of_nat n - 1) <= si_p I < 2 ^ Z.of_nat n -> 4 <= rf -> Z.even rf = true -> 1 <= rp ->
  sat_inequiv_alpha (si_p I) (Z.of_nat n) (Z.of_nat (si_t I)) rf rp (Z.of_nat (si_d I)) 128 -> is_ceil (1075 / 1000 * IZR rp)%R k ->
  Z.of_nat (si_t I) * Z.of_nat (si_rf I) + Z.of_nat (si_rp I) <= Z.of_nat (si_t I) * (rf + 2) + k.
Proof. exact ProofSearch.ps_optimal. Qed.
Print Assumptions C71_poseidon_optimal.

(** a tie: 2*4 + 5 = 2*6 + 1, the smaller number of full rounds wins; and no admissible pair at all *)
Example C71_ex_tie :
  find_FD_round_numbers (fun rf rp => (5 <=? rp) || (6 <=? rf)) 2 false = (4, 5) /\
  find_FD_round_numbers (fun rf rp => (5 <=? rp) || (6 <=? rf)) 3 true = (6, 6) /\
  find_FD_round_numbers (fun rf rp => 100 <=? rf) 3 true = (0, 0).
Proof. repeat split; vm_compute; reflexivity. Qed.
Example C71_ex_becomes : C71_becomes true 6 20 8 22.
Proof. split; [reflexivity|]. unfold is_ceil. lra. Qed.
(** a pair that the inequalities accept and that is dearer: Goldilocks, t = 12 *)
Example C71_ex_dearer : sat_inequiv_alpha p_goldilocks 64 12 8 20 7 128 /\ 12 * 8 + 22 < 12 * (8 + 2) + 22.
Proof.
  assert (H : ProofScript.thr_ok p_goldilocks 64 12 7 128 (ProofScript.Thr 6 23 2 23 4 23 1) = true) by (vm_compute; reflexivity).
  assert (D : forall rf rp, 4 <= rf -> Z.even rf = true -> 1 <= rp ->
    ProofScript.sat_b 12 7 128 (ProofScript.Thr 6 23 2 23 4 23 1) rf rp = true <-> sat_inequiv_alpha p_goldilocks 64 12 rf rp 7 128)
    by (intros rf rp; apply ProofScript.sat_b_ok; exact H).
  split; [|lia]. apply D; [lia|reflexivity|lia|vm_compute; reflexivity].
Qed.
