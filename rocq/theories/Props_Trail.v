(** * Partial rounds and the linear layers of the shipped instances: C59, C60 *)
From Verif Require Import Base Field Spec SpecPoseidon SpecMinPoly SpecInstances ModelPoseidon ModelPoseidon2 ModelInstances
  ModelGrain ModelSubspace ModelGenerate Fp Primes F13.
From Verif Require ProofTrail2.
Local Open Scope nat_scope.

(** ** C59: two different states cannot avoid the S-boxes of t consecutive partial rounds *)
Theorem C59_poseidon2_partial_rounds :
  forall I, In I p2_instances -> forall F (Fo : FOps F), is_prime_field Fo (qi_p I) -> forall dbg,
  exists Q, p2_instance_params dbg I = Ok Q /\
  (forall lo x y, qi_rf I / 2 <= lo -> lo + qi_t I <= qi_rf I / 2 + qi_rp I -> length x = qi_t I -> length y = qi_t I -> x <> y ->
    exists k u v, k < qi_t I /\ for_range lo (lo + k) (p2_partial_round Q) x = Ok u /\
      for_range lo (lo + k) (p2_partial_round Q) y = Ok v /\ nth 0 u f0 <> nth 0 v f0) /\
  ((exists x y, length x = qi_t I /\ length y = qi_t I /\ x <> y /\ forall k, k < qi_rp I -> exists u v,
      for_range (qi_rf I / 2) (qi_rf I / 2 + k) (p2_partial_round Q) x = Ok u /\
      for_range (qi_rf I / 2) (qi_rf I / 2 + k) (p2_partial_round Q) y = Ok v /\ nth 0 u f0 = nth 0 v f0) <-> qi_rp I < qi_t I).
Proof. exact ProofTrail2.p2_trails. Qed.
Print Assumptions C59_poseidon2_partial_rounds.

Theorem C59_poseidon_partial_rounds :
  forall I, In I ps_instances -> forall F (Fo : FOps F), is_prime_field Fo (si_p I) -> forall dbg,
  exists Q, ps_instance_params dbg I = Ok Q /\
  (forall lo x y, si_rf I / 2 <= lo -> lo + si_t I <= si_rf I / 2 + si_rp I -> length x = si_t I -> length y = si_t I -> x <> y ->
    exists k u v, k < si_t I /\ for_range lo (lo + k) (ps_partial_round dbg Q) x = Ok u /\
      for_range lo (lo + k) (ps_partial_round dbg Q) y = Ok v /\ nth 0 u f0 <> nth 0 v f0) /\
  ((exists x y, length x = si_t I /\ length y = si_t I /\ x <> y /\ forall k, k < si_rp I -> exists u v,
      for_range (si_rf I / 2) (si_rf I / 2 + k) (ps_partial_round dbg Q) x = Ok u /\
      for_range (si_rf I / 2) (si_rf I / 2 + k) (ps_partial_round dbg Q) y = Ok v /\ nth 0 u f0 = nth 0 v f0) <-> si_rp I < si_t I).
Proof. exact ProofTrail2.ps_trails. Qed.
Print Assumptions C59_poseidon_partial_rounds.

(** Both cases occur: the two instances over BabyBear have fewer partial rounds than words, so that some pairs of
    different states pass all partial rounds with equal S-box inputs; in all other instances no pair does. *)
Example C59_ex :
  filter (fun I => qi_rp I <? qi_t I) p2_instances = [POSEIDON2_BABYBEAR_16_PARAMS; POSEIDON2_BABYBEAR_24_PARAMS] /\
  filter (fun I => si_rp I <? si_t I) ps_instances = [POSEIDON_BABYBEAR_16_PARAMS; POSEIDON_BABYBEAR_24_PARAMS] /\
  length p2_instances = 15 /\ length ps_instances = 15 /\
  qi_rf POSEIDON2_BLS_3_PARAMS / 2 + qi_t POSEIDON2_BLS_3_PARAMS <= qi_rf POSEIDON2_BLS_3_PARAMS / 2 + qi_rp POSEIDON2_BLS_3_PARAMS /\
  is_prime_field (fp_ops P_bls12 P_bls12_ok) (qi_p POSEIDON2_BLS_3_PARAMS).
Proof.
  repeat (split; [vm_compute; reflexivity || lia|]). exact (fp_is_prime_field P_bls12 P_bls12_ok prime_bls12 eq_refl).
Qed.

(** ** C60: the checks of the generation script on the shipped linear layers *)
Theorem C60_poseidon2_algorithms :
  forall I, In I p2_instances -> forall F (Fo : FOps F), is_prime_field Fo (qi_p I) ->
  let M := entry (map (map (f_of_Z (F := F))) (qi_mat I)) in
  algorithm_1 M (qi_t I) /\ algorithm_2 M (qi_t I) /\ algorithm_3 M (qi_t I).
Proof. exact ProofTrail2.p2_algorithms. Qed.
Print Assumptions C60_poseidon2_algorithms.

Theorem C60_poseidon_algorithms :
  forall I, In I ps_instances -> forall F (Fo : FOps F), is_prime_field Fo (si_p I) ->
  let M := entry (map (map (f_of_Z (F := F))) (si_mds I)) in
  algorithm_1 M (si_t I) /\ algorithm_2 M (si_t I) /\ algorithm_3 M (si_t I).
Proof. exact ProofTrail2.ps_algorithms. Qed.
Print Assumptions C60_poseidon_algorithms.

(** The script's loop generate_matrix ends with the shipped MDS matrix and with no other. *)
Theorem C60_poseidon_generate_matrix :
  forall I, In I ps_instances -> forall n, (2 ^ (Z.of_nat n - 1) <= si_p I < 2 ^ Z.of_nat n)%Z ->
  exists s,
    (exists n0, forall fuel, n0 <= fuel ->
       generate_constants_poseidon fuel n (si_t I) (si_rf I) (si_rp I) (si_p I) (grain_start 1 1 n (si_t I) (si_rf I) (si_rp I)) =
       Ok (concat (si_rc I), s)) /\
    (forall F (Fo : FOps F), is_prime_field Fo (si_p I) -> exists s1 n0, forall fuel, n0 <= fuel -> forall M' s',
       generate_matrix (F := F) fuel n (si_t I) s M' s' <-> M' = map (map f_of_Z) (si_mds I) /\ s' = s1).
Proof. exact ProofTrail2.ps_generate_matrix. Qed.
Print Assumptions C60_poseidon_generate_matrix.

(** What the checks are about, said of the code: element 0 of t iterates of the linear layer determines the state,
    and for r <= 4t the iterates of (1, 0, ..., 0) under r-fold layers span all states. *)
Theorem C60_poseidon2_layers :
  forall I, In I p2_instances -> forall F (Fo : FOps F), is_prime_field Fo (qi_p I) -> forall dbg,
  exists Q, p2_instance_params dbg I = Ok Q /\ let layer := fun x => p2_matmul_internal Q x (p2_diag Q) in
  (forall x y, length x = qi_t I -> length y = qi_t I ->
    (forall k, k < qi_t I -> exists u v, repeatM k layer x = Ok u /\ repeatM k layer y = Ok v /\ nth 0 u f0 = nth 0 v f0) -> x = y) /\
  (forall r y, 1 <= r <= 4 * qi_t I -> length y = qi_t I -> exists a u, length a = qi_t I /\
    (forall k, k < qi_t I -> repeatM (r * k) layer (f1 :: repeat f0 (qi_t I - 1)) = Ok (u k)) /\
    forall i, i < qi_t I -> nth i y f0 = sumn (qi_t I) (fun k => fmul (nth k a f0) (nth i (u k) f0))).
Proof. exact ProofTrail2.p2_layers. Qed.
Print Assumptions C60_poseidon2_layers.

Theorem C60_poseidon_layers :
  forall I, In I ps_instances -> forall F (Fo : FOps F), is_prime_field Fo (si_p I) -> forall dbg,
  exists Q, ps_instance_params dbg I = Ok Q /\ let layer := fun x => ps_matmul dbg x (ps_mds Q) in
  (forall x y, length x = si_t I -> length y = si_t I ->
    (forall k, k < si_t I -> exists u v, repeatM k layer x = Ok u /\ repeatM k layer y = Ok v /\ nth 0 u f0 = nth 0 v f0) -> x = y) /\
  (forall r y, 1 <= r <= 4 * si_t I -> length y = si_t I -> exists a u, length a = si_t I /\
    (forall k, k < si_t I -> repeatM (r * k) layer (f1 :: repeat f0 (si_t I - 1)) = Ok (u k)) /\
    forall i, i < si_t I -> nth i y f0 = sumn (si_t I) (fun k => fmul (nth k a f0) (nth i (u k) f0))).
Proof. exact ProofTrail2.ps_layers. Qed.
Print Assumptions C60_poseidon_layers.

(** The checks are not always passed: modulo 13 a multiple of the identity fails algorithm_1. *)
Example C60_ex : ~ algorithm_1 (entry [l13 [2; 0]; l13 [0; 2]]%Z) 2 /\
  is_prime_field (fp_ops P_babybear P_babybear_ok) (si_p POSEIDON_BABYBEAR_24_PARAMS) /\
  (2 ^ (Z.of_nat 31 - 1) <= si_p POSEIDON_BABYBEAR_24_PARAMS < 2 ^ Z.of_nat 31)%Z.
Proof.
  split; [|split; [exact (fp_is_prime_field P_babybear P_babybear_ok prime_babybear eq_refl)|vm_compute; split; congruence]].
  intros H. destruct (H 1 ltac:(lia)) as [H1 _]. apply H1.
  intros [|[|k]] [|[|l]] Hk Hl; try lia; vm_compute; reflexivity.
Qed.
