(** * What the subspace checks of the generation script decide: C64 *)
From Verif Require Import Base Field Spec SpecPoseidon SpecMinPoly ModelSubspace F13.
From Verif Require ProofSubspaceMeaning.
Local Open Scope nat_scope.

(** ** C64: algorithm_1 accepts a matrix exactly if no nonzero state keeps element 0 at zero through t iterates *)
Theorem C64_algorithm_1 :
  forall F (Fo : FOps F), is_field Fo -> forall t (M : mat), 2 <= t ->
  (algorithm_1 M t <->
   forall x, length x = t -> (forall k, k < t -> nth 0 (iter k (mat_apply t t M) x) f0 = f0) -> x = repeat f0 t).
Proof. intros F Fo. exact ProofSubspaceMeaning.algorithm_1_meaning. Qed.
Print Assumptions C64_algorithm_1.

(** algorithm_2 accepts exactly if the first t iterates of (1, 0, ..., 0) span all states *)
Theorem C64_algorithm_2 :
  forall F (Fo : FOps F), is_field Fo -> forall t (M : mat), 2 <= t ->
  (algorithm_2 M t <->
   forall y, length y = t -> exists a, length a = t /\
     forall i, i < t -> nth i y f0 = sumn t (fun k => fmul (nth k a f0) (nth i (iter (1 * k) (mat_apply t t M) (f1 :: repeat f0 (t - 1))) f0))).
Proof. intros F Fo. exact ProofSubspaceMeaning.algorithm_2_meaning. Qed.
Print Assumptions C64_algorithm_2.

(** algorithm_3 accepts exactly if the same holds for every 2nd, 3rd, ..., 4t-th iterate *)
Theorem C64_algorithm_3 :
  forall F (Fo : FOps F), is_field Fo -> forall t (M : mat), 2 <= t ->
  (algorithm_3 M t <-> forall r, 2 <= r <= 4 * t ->
   forall y, length y = t -> exists a, length a = t /\
     forall i, i < t -> nth i y f0 = sumn t (fun k => fmul (nth k a f0) (nth i (iter (r * k) (mat_apply t t M) (f1 :: repeat f0 (t - 1))) f0))).
Proof. intros F Fo. exact ProofSubspaceMeaning.algorithm_3_meaning. Qed.
Print Assumptions C64_algorithm_3.

(** So a matrix that passes algorithm_3 passes algorithm_2. *)
Theorem C64_algorithm_3_implies_2 :
  forall F (Fo : FOps F), is_field Fo -> forall t (M : mat), 2 <= t -> algorithm_3 M t -> algorithm_2 M t.
Proof. intros F Fo. exact ProofSubspaceMeaning.algorithm_3_2. Qed.
Print Assumptions C64_algorithm_3_implies_2.

(** A matrix that passes check_minpoly_condition passes algorithm_1 and algorithm_2; only the powers above 2t of
    algorithm_3 remain open, so the script's exit "not secure" can have no other cause for t >= 4. *)
Theorem C64_minpoly :
  forall F (Fo : FOps F), is_field Fo -> forall t (M : mat), 2 <= t -> check_minpoly_condition t M ->
  algorithm_1 M t /\ algorithm_2 M t /\
  (algorithm_3 M t <-> forall r, 2 * t < r <= 4 * t ->
   forall y, length y = t -> exists a, length a = t /\
     forall i, i < t -> nth i y f0 = sumn t (fun k => fmul (nth k a f0) (nth i (iter (r * k) (mat_apply t t M) (f1 :: repeat f0 (t - 1))) f0))).
Proof. intros F Fo. exact ProofSubspaceMeaning.minpoly_decides. Qed.
Print Assumptions C64_minpoly.

(** In width 2 the checks look at single entries. *)
Theorem C64_width_2 :
  forall F (Fo : FOps F), is_field Fo -> forall M : mat,
  (algorithm_1 M 2 <-> M 0 1 <> f0) /\ (algorithm_2 M 2 <-> M 1 0 <> f0) /\
  (algorithm_3 M 2 <-> forall r, 2 <= r <= 8 -> mat_pow 2 M r 1 0 <> f0).
Proof. intros F Fo. exact ProofSubspaceMeaning.width_2. Qed.
Print Assumptions C64_width_2.

(** The claim "check_minpoly_condition makes algorithm_3 superfluous" fails: a 2 x 2 matrix of order 7 modulo 13. *)
Theorem C64_minpoly_algorithm_3_refuted :
  check_minpoly_condition 2 (entry [l13 [0; 12]; l13 [1; 7]]%Z) /\ ~ algorithm_3 (entry [l13 [0; 12]; l13 [1; 7]]%Z) 2.
Proof. exact ProofSubspaceMeaning.order_7. Qed.
Print Assumptions C64_minpoly_algorithm_3_refuted.

(** No other implication among the three checks holds. *)
Theorem C64_other_implications_refuted :
  (let M := entry [l13 [1; 1]; l13 [0; 2]]%Z in algorithm_1 M 2 /\ ~ algorithm_2 M 2) /\
  (let M := entry [l13 [1; 0]; l13 [1; 2]]%Z in algorithm_3 M 2 /\ ~ algorithm_1 M 2) /\
  (let M := entry [l13 [0; 1]; l13 [1; 0]]%Z in algorithm_1 M 2 /\ algorithm_2 M 2 /\ ~ algorithm_3 M 2).
Proof. exact ProofSubspaceMeaning.independent_13. Qed.
Print Assumptions C64_other_implications_refuted.

(** The hypotheses are met: fields exist, and the matrix of order 7 passes check_minpoly_condition. *)
Example C64_ex : is_field F13_ops /\ check_minpoly_condition 2 (entry [l13 [0; 12]; l13 [1; 7]]%Z) /\
  algorithm_3 (entry [l13 [1; 0]; l13 [1; 2]]%Z) 2.
Proof.
  split; [exact F13_is_field|]. split; [exact (proj1 C64_minpoly_algorithm_3_refuted)|].
  exact (proj1 (proj1 (proj2 C64_other_implications_refuted))).
Qed.
