(** * Differences that the S-boxes of the partial rounds do not see: C78 *)
From Verif Require Import Base Field Spec SpecPoseidon2 SpecPoseidon SpecNeptune SpecFirst SpecInstances
  ModelPoseidon2 ModelPoseidon ModelNeptune ModelInstances ModelSubspace Fp Primes F13.
From Verif Require LinAlg Elim ProofPoseidon2Bij ProofSubspaceMeaning ProofQuiet2 ProofQuiet3.
Local Open Scope nat_scope.

(** Poseidon2, any diagonal: the S-boxes of n partial rounds see every difference exactly when n >= t and the diagonal entries
    after the first are pairwise different (nothing to check for t = 2, 3). Otherwise some difference passes unseen. *)
Theorem C78_poseidon2 :
  forall F (Fo : FOps F), is_field Fo -> forall dbg t d rf rp (diag : list F) mi rc P lo n,
  p2_new dbg t d rf rp diag mi rc = Ok P -> (N.of_nat rf + N.of_nat rp < usize_mod)%N ->
  p2_width t -> sbox_degree d -> (4 <= t -> t <= length diag) -> (forall r, lo <= r < lo + n -> 1 <= length (nth r rc [])) ->
  (active_rounds t (p2_partial_round P) lo n 1 <-> t <= n /\ (4 <= t -> distinct_from_1 t (fun i => nth i diag f0))) /\
  (quiet_pair t (p2_partial_round P) lo n <-> n < t \/ 4 <= t /\ repeated_from_1 t (fun i => nth i diag f0)).
Proof. intros F Fo HF. exact (ProofQuiet2.p2_quiet HF). Qed.
Print Assumptions C78_poseidon2.

(** Poseidon, any matrix: exactly the matrices accepted by algorithm_1 of the generation script. *)
Theorem C78_poseidon :
  forall F (Fo : FOps F), is_field Fo -> forall dbg t d rf rp (mds rc : list (list F)) P lo n,
  ps_new dbg t d rf rp mds rc = Ok P -> (N.of_nat rf + N.of_nat rp < usize_mod)%N ->
  dims t t mds -> (forall r, lo <= r < lo + n -> t <= length (nth r rc [])) ->
  (active_rounds t (ps_partial_round dbg P) lo n 1 <-> t <= n /\ algorithm_1 (entry mds) t) /\
  (quiet_pair t (ps_partial_round dbg P) lo n <-> n < t \/ ~ algorithm_1 (entry mds) t).
Proof. intros F Fo HF. exact (ProofQuiet2.ps_quiet HF). Qed.
Print Assumptions C78_poseidon.

(** Neptune: the entries drawn for the diagonal decide in the same way. *)
Theorem C78_neptune :
  forall F (Fo : FOps F), is_field Fo -> forall dbg fuel rng t d rf rp P lo n,
  np_new dbg fuel rng t d rf rp = Ok P -> (N.of_nat rf + N.of_nat rp < usize_mod)%N -> 1 <= t -> lo + n <= rf + rp ->
  (active_rounds t (np_internal_round P) lo n 1 <-> t <= n /\ distinct_from_1 t (fun i => nth i (np_mu P) f0)) /\
  (quiet_pair t (np_internal_round P) lo n <-> n < t \/ repeated_from_1 t (fun i => nth i (np_mu P) f0)).
Proof. intros F Fo HF. exact (ProofQuiet2.np_quiet HF). Qed.
Print Assumptions C78_neptune.

(** Over a prime field, if the partial rounds are bijective, the first words differ in at least one of every t rounds. *)
Theorem C78_poseidon2_count :
  forall F (Fo : FOps F) p, is_prime_field Fo p -> forall dbg t d rf rp (diag : list F) mi rc P lo n,
  p2_new dbg t d rf rp diag mi rc = Ok P -> (N.of_nat rf + N.of_nat rp < usize_mod)%N ->
  p2_width t -> sbox_degree d -> (4 <= t -> t <= length diag) -> (forall r, lo <= r < lo + n -> 1 <= length (nth r rc [])) ->
  Z.gcd (Z.of_nat d) (p - 1) = 1%Z -> invertible t (int_matrix t diag) -> (4 <= t -> distinct_from_1 t (fun i => nth i diag f0)) ->
  active_rounds t (p2_partial_round P) lo n (n / t).
Proof. intros F Fo p HP. exact (ProofQuiet2.p2_count HP). Qed.
Print Assumptions C78_poseidon2_count.

Theorem C78_poseidon_count :
  forall F (Fo : FOps F) p, is_prime_field Fo p -> forall dbg t d rf rp (mds rc : list (list F)) P lo n,
  ps_new dbg t d rf rp mds rc = Ok P -> (N.of_nat rf + N.of_nat rp < usize_mod)%N ->
  dims t t mds -> (forall r, lo <= r < lo + n -> t <= length (nth r rc [])) ->
  Z.gcd (Z.of_nat d) (p - 1) = 1%Z -> invertible t (entry mds) -> algorithm_1 (entry mds) t ->
  active_rounds t (ps_partial_round dbg P) lo n (n / t).
Proof. intros F Fo p HP. exact (ProofQuiet2.ps_count HP). Qed.
Print Assumptions C78_poseidon_count.

Theorem C78_neptune_count :
  forall F (Fo : FOps F) p, is_prime_field Fo p -> forall dbg fuel rng t d rf rp P lo n,
  np_new dbg fuel rng t d rf rp = Ok P -> (N.of_nat rf + N.of_nat rp < usize_mod)%N -> 1 <= t -> lo + n <= rf + rp ->
  Z.gcd (Z.of_nat d) (p - 1) = 1%Z -> invertible t (np_int_matrix (fun i => fadd (nth i (np_mu P) f0) f1)) ->
  distinct_from_1 t (fun i => nth i (np_mu P) f0) -> active_rounds t (np_internal_round P) lo n (n / t).
Proof. intros F Fo p HP. exact (ProofQuiet2.np_count HP). Qed.
Print Assumptions C78_neptune_count.

(** The shipped instances satisfy these conditions. *)
Theorem C78_poseidon2_shipped :
  forall I, In I p2_instances -> forall F (Fo : FOps F), is_prime_field Fo (qi_p I) -> forall dbg,
  exists Q, p2_instance_params dbg I = Ok Q /\
  forall lo n, qi_rf I / 2 <= lo -> lo + n <= qi_rf I / 2 + qi_rp I -> active_rounds (qi_t I) (p2_partial_round Q) lo n (n / qi_t I).
Proof. exact ProofQuiet3.p2_shipped_count. Qed.
Print Assumptions C78_poseidon2_shipped.

Theorem C78_poseidon_shipped :
  forall I, In I ps_instances -> forall F (Fo : FOps F), is_prime_field Fo (si_p I) -> forall dbg,
  exists Q, ps_instance_params dbg I = Ok Q /\
  forall lo n, lo + n <= si_rf I + si_rp I -> active_rounds (si_t I) (ps_partial_round dbg Q) lo n (n / si_t I).
Proof. exact ProofQuiet3.ps_shipped_count. Qed.
Print Assumptions C78_poseidon_shipped.

(** The constructors do not check this. Claim: in the partial rounds of accepted parameters every difference meets an S-box.
    It fails for any number of partial rounds. *)
Theorem C78_poseidon2_accepted_refuted :
  forall F (Fo : FOps F), is_field Fo -> forall dbg (a b m : F) rp rc,
  (N.of_nat 8 + N.of_nat rp < usize_mod)%N -> (forall r, 4 <= r < 4 + rp -> 1 <= length (nth r rc [])) ->
  exists P, p2_new dbg 4 5 8 rp [a; m; m; b] [] rc = Ok P /\ quiet_pair 4 (p2_partial_round P) 4 rp.
Proof. intros F Fo HF. exact (ProofQuiet2.p2_repeated_accepted HF). Qed.
Print Assumptions C78_poseidon2_accepted_refuted.

Theorem C78_neptune_accepted_refuted :
  forall F (Fo : FOps F), is_field Fo -> forall dbg fuel (c : F) t rf rp, 4 <= t -> t mod 2 = 0 -> rf mod 2 = 0 -> 1 <= fuel -> c <> f0 ->
  (N.of_nat rf + N.of_nat rp < usize_mod)%N ->
  exists P, np_new dbg fuel (fun _ => c) t 5 rf rp = Ok P /\ quiet_pair t (np_internal_round P) (rf / 2) rp.
Proof. intros F Fo HF. exact (ProofQuiet2.np_constant_accepted HF). Qed.
Print Assumptions C78_neptune_accepted_refuted.

(** Modulo 13: a diagonal with different entries and an invertible matrix, 9 partial rounds, 9 / 4 = 2 active ones; with the second
    and third entry equal the difference (0, 1, -1, 0) is never seen. *)
Definition ex_rc (n : nat) : list (list F13) := map (fun r => l13 [Z.of_nat r + 1; Z.of_nat r * 3 + 2; 5; 7]%Z) (seq 0 n).
Definition ex_seen (P : res (Poseidon2Params F13)) (n : nat) (x y : list F13) : res (list bool) :=
  P <- P ;; mapM (fun k => u <- for_range 1 (1 + k) (p2_partial_round P) x ;; v <- for_range 1 (1 + k) (p2_partial_round P) y ;;
    Ok (negb (feqb (nth 0 u f0) (nth 0 v f0)))) (seq 0 n).
Example C78_ex_poseidon2 :
  (exists P, p2_new true 4 5 2 9 (l13 [1; 2; 3; 4]%Z) [] (ex_rc 11) = Ok P) /\ invertible 4 (int_matrix 4 (l13 [1; 2; 3; 4]%Z)) /\
  distinct_from_1 4 (fun i => nth i (l13 [1; 2; 3; 4]%Z) f0) /\ repeated_from_1 4 (fun i => nth i (l13 [1; 2; 2; 4]%Z) f0) /\
  (forall r, 1 <= r < 1 + 9 -> 1 <= length (nth r (ex_rc 11) [])) /\ Z.gcd (Z.of_nat 5) (13 - 1) = 1%Z /\ is_prime_field F13_ops 13 /\
  ex_seen (p2_new true 4 5 2 9 (l13 [1; 2; 3; 4]%Z) [] (ex_rc 11)) 9 (l13 [1; 2; 3; 4]%Z) (l13 [1; 3; 2; 4]%Z) =
    Ok [false; false; true; true; true; true; true; true; true] /\
  ex_seen (p2_new true 4 5 2 9 (l13 [1; 2; 2; 4]%Z) [] (ex_rc 11)) 9 (l13 [1; 2; 3; 4]%Z) (l13 [1; 3; 2; 4]%Z) = Ok (repeat false 9).
Proof.
  assert (D : distinct_from_1 4 (fun i => nth i (l13 [1; 2; 3; 4]%Z) f0)).
  { intros i j Hi Hj N E. apply (f_equal (@f_to_Z _ F13_ops)) in E.
    destruct i as [|[|[|[|i]]]], j as [|[|[|[|j]]]]; try lia; vm_compute in E; discriminate E. }
  split; [eexists; vm_compute; reflexivity|]. split.
  { apply (LinAlg.nonsingular_invertible F13_is_field). apply (ProofPoseidon2Bij.int_nonsingular_iff F13_is_field); [lia| |].
    - intros i Hi E. apply (f_equal (@f_to_Z _ F13_ops)) in E. destruct i as [|[|[|[|i]]]]; try lia; vm_compute in E; discriminate E.
    - intros E. apply (f_equal (@f_to_Z _ F13_ops)) in E. vm_compute in E. discriminate E. }
  split; [exact D|]. split; [exists 1, 2; repeat split; lia|]. split.
  { intros r Hr. do 11 (destruct r as [|r]; [cbn; lia|]). lia. }
  split; [reflexivity|]. split; [exact F13_field|]. split; vm_compute; reflexivity.
Qed.

(** Poseidon modulo 13: a matrix that passes algorithm_1 and one that the constructor accepts although it does not. *)
Example C78_ex_poseidon :
  let rc := map (fun r => l13 [Z.of_nat r; 3]%Z) (seq 0 9) in
  (exists P, ps_new true 2 5 2 7 [l13 [2; 1]; l13 [1; 2]]%Z rc = Ok P) /\ dims 2 2 [l13 [2; 1]; l13 [1; 2]]%Z /\
  algorithm_1 (entry [l13 [2; 1]; l13 [1; 2]]%Z) 2 /\ invertible 2 (entry [l13 [2; 1]; l13 [1; 2]]%Z) /\
  (exists P, ps_new true 2 5 2 7 [l13 [2; 0]; l13 [1; 2]]%Z rc = Ok P /\ quiet_pair 2 (ps_partial_round true P) 1 7) /\
  (forall r, 1 <= r < 1 + 7 -> 2 <= length (nth r rc [])).
Proof.
  intros rc.
  assert (R : forall r, 1 <= r < 1 + 7 -> 2 <= length (nth r rc [])) by (intros r Hr; do 8 (destruct r as [|r]; [cbn; lia|]); lia).
  assert (D : forall a b c e, dims 2 2 [l13 [a; b]; l13 [c; e]]%Z).
  { intros. split; [reflexivity|]. intros [|[|i]] Hi; [reflexivity|reflexivity|lia]. }
  split; [eexists; vm_compute; reflexivity|]. split; [apply D|]. split.
  { apply (ProofSubspaceMeaning.width_2 F13_is_field). intros E. apply (f_equal (@f_to_Z _ F13_ops)) in E. vm_compute in E. discriminate E. }
  split.
  { apply (LinAlg.nonsingular_invertible F13_is_field). apply (Elim.elim_ok F13_is_field 2 _ (D 2 1 1 2)%Z); [vm_compute; reflexivity|lia]. }
  split; [|exact R].
  destruct (ps_new true 2 5 2 7 [l13 [2; 0]; l13 [1; 2]]%Z rc) as [P| |] eqn:HN; [|vm_compute in HN; discriminate HN|vm_compute in HN; discriminate HN].
  exists P. split; [reflexivity|].
  apply (proj2 (C78_poseidon _ _ F13_is_field true 2 5 2 7 _ rc P 1 7 HN ltac:(reflexivity) (D 2 0 1 2)%Z R)). right.
  intros A. apply (ProofSubspaceMeaning.width_2 F13_is_field) in A. apply A. vm_compute. reflexivity.
Qed.

(** Neptune modulo 13: draws giving different diagonal entries. *)
Definition ex_draws (k : nat) : F13 := e13 (Z.of_nat k).
Example C78_ex_neptune :
  exists P, np_new true 1 ex_draws 4 5 2 5 = Ok P /\ np_mu P = l13 [1; 2; 3; 4]%Z /\ distinct_from_1 4 (fun i => nth i (np_mu P) f0) /\
  invertible 4 (np_int_matrix (fun i => fadd (nth i (np_mu P) f0) f1)) /\
  exists P', np_new true 1 (fun _ => f1 : F13) 4 5 2 5 = Ok P' /\ repeated_from_1 4 (fun i => nth i (np_mu P') f0).
Proof.
  destruct (np_new true 1 ex_draws 4 5 2 5) as [P| |] eqn:HN; [|vm_compute in HN; discriminate HN|vm_compute in HN; discriminate HN].
  assert (EM : np_mu P = l13 [1; 2; 3; 4]%Z).
  { assert (E : (P <- np_new true 1 ex_draws 4 5 2 5 ;; Ok (np_mu P)) = Ok (l13 [1; 2; 3; 4]%Z)) by (vm_compute; reflexivity).
    rewrite HN in E. cbn [bind] in E. injection E as E. exact E. }
  exists P. split; [reflexivity|]. split; [exact EM|]. rewrite EM. destruct C78_ex_poseidon2 as [_ [HI [HD _]]]. split; [exact HD|]. split; [exact HI|].
  eexists. split; [vm_compute; reflexivity|]. exists 1, 2. repeat split; lia.
Qed.

Example C78_ex_shipped :
  qi_rf POSEIDON2_BN256_PARAMS / 2 + 56 <= qi_rf POSEIDON2_BN256_PARAMS / 2 + qi_rp POSEIDON2_BN256_PARAMS /\
  56 / qi_t POSEIDON2_BN256_PARAMS = 18 /\ is_prime_field (fp_ops P_bn256 P_bn256_ok) (qi_p POSEIDON2_BN256_PARAMS).
Proof.
  split; [vm_compute; lia|]. split; [vm_compute; reflexivity|]. exact (fp_is_prime_field P_bn256 P_bn256_ok prime_bn256 eq_refl).
Qed.
