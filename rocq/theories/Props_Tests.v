(** * The unit tests of the repository: C69 *)
From Verif Require Import Base Field Spec SpecNeptune Fp ModelFields ModelInstances ModelNeptune ModelTests SpecTests Primes.
From Verif Require ProofTests.
Local Open Scope nat_scope.

(** ** C69: the tests of GMiMC, Poseidon and Poseidon2 and the known-answer tests pass for every stream of draws *)
Theorem C69_tests_pass :
  forall f tst, In f test_files -> In tst (snd f) -> independent tst = true ->
  forall F (Fo : FOps F), is_prime_field Fo (fst f) -> forall dbg fuel rng rnd,
  run_test dbg fuel rng rnd tst <> Panic /\ (lively fuel rnd -> nonzero_draws fuel rng -> exists n, run_test dbg fuel rng rnd tst = Ok n).
Proof. exact ProofTests.all_independent. Qed.
Print Assumptions C69_tests_pass.

(** consistent_perm of Neptune never fails exactly if all matrices drawn for its instances are invertible *)
Theorem C69_neptune_consistent_perm_iff :
  forall f l, In f test_files -> In (ConsistentNp l) (snd f) ->
  forall F (Fo : FOps F), is_prime_field Fo (fst f) -> forall dbg fuel rng Ps, 1 <= fuel ->
  mapM (np_build dbg fuel rng) (combine (seq 0 (length l)) l) = Ok Ps ->
  ((forall rnd, run_test dbg fuel rng rnd (ConsistentNp l) <> Panic) <-> Forall np_good Ps) /\
  (Forall np_good Ps -> forall rnd, lively fuel rnd -> exists n, run_test dbg fuel rng rnd (ConsistentNp l) = Ok n).
Proof. exact ProofTests.all_np_consistent. Qed.
Print Assumptions C69_neptune_consistent_perm_iff.

(** so it can fail: all draws equal to one *)
Theorem C69_neptune_consistent_perm_refuted :
  forall f l, In f test_files -> In (ConsistentNp l) (snd f) ->
  forall F (Fo : FOps F), is_prime_field Fo (fst f) -> forall dbg fuel, 1 <= fuel ->
  ~ forall rnd, run_test dbg fuel (fun _ _ => f1) rnd (ConsistentNp l) <> Panic.
Proof. exact ProofTests.np_consistent_refuted. Qed.
Print Assumptions C69_neptune_consistent_perm_refuted.

(** matmul_equalities passes exactly if no entry drawn for the external matrix is zero *)
Theorem C69_matmul_equalities_outcome :
  forall F (Fo : FOps F) p, is_prime_field Fo p ->
  forall dbg fuel rng rnd t (P : NeptuneParams F), np_new dbg fuel rng t 3 2 1 = Ok P -> 1 <= t ->
  ((forall i j, i < t -> j < t -> (i + j) mod 2 = 0 -> np_ext_entry t 3 rng i j <> f0) -> exists pos, matmul_equalities dbg fuel rng rnd t = Ok pos) /\
  ((exists i j, i < t /\ j < t /\ (i + j) mod 2 = 0 /\ np_ext_entry t 3 rng i j = f0) -> matmul_equalities dbg fuel rng rnd t = Panic).
Proof. exact @ProofTests.matmul_outcome. Qed.
Print Assumptions C69_matmul_equalities_outcome.

(** if no draw is zero, it passes for every width of the repository *)
Theorem C69_matmul_equalities_passes :
  forall f t, In f test_files -> In (MatmulEqualities t) (snd f) ->
  forall F (Fo : FOps F), is_prime_field Fo (fst f) -> forall dbg fuel rng rnd, 1 <= fuel -> (forall i q, rng i q <> (f0 : F)) ->
  exists n, run_test dbg fuel rng rnd (MatmulEqualities t) = Ok n.
Proof. exact ProofTests.all_matmul. Qed.
Print Assumptions C69_matmul_equalities_passes.

(** for every even width other than 4 and 8 there are draws, not all zero, that make it fail *)
Theorem C69_matmul_equalities_refuted :
  forall F (Fo : FOps F) p, is_prime_field Fo p -> forall t, t mod 2 = 0 -> t <> 0 -> t <> 4 -> t <> 8 ->
  exists rng : nat -> nat -> F, nonzero_draws 2 rng /\ forall dbg fuel rnd, 2 <= fuel -> run_test dbg fuel rng rnd (MatmulEqualities t) = Panic.
Proof. exact ProofTests.matmul_refuted. Qed.
Print Assumptions C69_matmul_equalities_refuted.

(** input_24_elements, width 24 with constants for width 3, always panics; the test is not marked should_panic *)
Theorem C69_input_24_elements_refuted :
  forall f diag mat rc bytes, In f test_files -> In (Input24 diag mat rc bytes) (snd f) ->
  forall F (Fo : FOps F), is_prime_field Fo (fst f) -> forall dbg fuel rng rnd, run_test dbg fuel rng rnd (Input24 diag mat rc bytes) = Panic.
Proof. exact ProofTests.all_input_24. Qed.
Print Assumptions C69_input_24_elements_refuted.

(** 51 tests in 20 modules and 14 known answers *)
Example C69_ex_tests : length test_files = 34 /\ length (concat (map snd test_files)) = 65 /\
  length (filter independent (concat (map snd test_files))) = 48.
Proof. repeat split; vm_compute; reflexivity. Qed.

(** the streams required exist *)
Example C69_ex_lively : lively 1 (fun n => f_of_Z (FOps := fp_ops P_babybear P_babybear_ok) (Z.of_nat n)) /\
  nonzero_draws (Fo := fp_ops P_babybear P_babybear_ok) 1
    (fun _ _ => @f1 _ (fp_ops P_babybear P_babybear_ok)).
Proof.
  pose proof (fp_is_prime_field P_babybear P_babybear_ok prime_babybear eq_refl) as HP. split.
  - intros t q [H1 H2]. exists 0. split; [lia|]. destruct t as [|t]; [lia|]. cbn [seq map]. intros C. injection C as C _. apply (f_of_Z_eq_iff HP) in C.
    change (pz P_babybear) with p_babybear in C.
    assert (D : (Z.of_nat (S t) mod p_babybear = 0)%Z).
    { replace (Z.of_nat (S t)) with (Z.of_nat (q + (1 + 0) * S t) - Z.of_nat q)%Z by lia. rewrite Zminus_mod. cbn [Nat.add Nat.mul]. rewrite C, Z.sub_diag. reflexivity. }
    unfold p_babybear in D. rewrite Z.mod_small in D by lia. lia.
  - intros i q. exists 0. split; [lia|]. exact (ff_one_neq_zero _ (prime_field_is_field HP)).
Qed.

(** a Neptune instance of the tests with invertible matrices: every draw is two *)
Example C69_ex_good : exists P, np_build (Fo := fp_ops P_bn256 P_bn256_ok) true 1 (fun _ _ => f_of_Z (FOps := fp_ops P_bn256 P_bn256_ok) 2) (0, np_inst p_bn256 4 5 6 68) = Ok P /\ np_good (Fo := fp_ops P_bn256 P_bn256_ok) P.
Proof.
  apply (ProofTests.np_good_two (fp_is_prime_field P_bn256 P_bn256_ok prime_bn256 eq_refl)); solve [vm_compute; (discriminate || reflexivity) | lia | vm_compute; tauto].
Qed.
Example C69_ex_listed : exists diag mat rc bytes, In (Input24 diag mat rc bytes) (concat (map snd test_files)) /\ length diag = 3.
Proof. eexists _, _, _, _. split; [apply in_concat; eexists; split; [apply in_map; apply in_or_app; left; do 17 right; left; reflexivity|right; left; reflexivity]|reflexivity]. Qed.
