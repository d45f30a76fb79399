(** * Round numbers whose sum does not fit in usize, for the other permutations: C70 *)
From Verif Require Import Base Field Spec SpecNeptune ModelUtils ModelPoseidon2 ModelPoseidon ModelNeptune F13.
From Verif Require ProofOverflow.
Local Open Scope nat_scope.

(** ** C70.  Neptune in debug builds: the constructor panics. *)
Theorem C70_neptune_debug :
  forall F (Fo : FOps F) fuel (rng : nat -> F) t d rf rp,
    (usize_mod <= N.of_nat rf + N.of_nat rp)%N -> np_new true fuel rng t d rf rp = Panic.
Proof. exact @ProofOverflow.np_new_overflow_debug. Qed.
Print Assumptions C70_neptune_debug.

(** In release builds it accepts every such pair of round numbers ... *)
Theorem C70_neptune_release_accepts :
  forall F (Fo : FOps F) p, is_prime_field Fo p ->
  forall fuel (rng : nat -> F) t d rf rp,
    (N.of_nat rf < usize_mod)%N -> (N.of_nat rp < usize_mod)%N -> (usize_mod <= N.of_nat rf + N.of_nat rp)%N ->
    In d [3; 5; 7] /\ rf mod 2 = 0 /\ t mod 2 = 0 -> (forall q, exists k, k < fuel /\ rng (q + k) <> (f0 : F)) ->
    exists P, np_new false fuel rng t d rf rp = Ok P.
Proof. exact @ProofOverflow.np_overflow_accepted. Qed.
Print Assumptions C70_neptune_release_accepts.

(** ... and the permutation then either performs no internal round and uses some constants twice, or panics. *)
Theorem C70_neptune_release :
  forall F (Fo : FOps F) p, is_prime_field Fo p ->
  forall fuel (rng : nat -> F) t d rf rp,
    (N.of_nat rf < usize_mod)%N -> (N.of_nat rp < usize_mod)%N -> (usize_mod <= N.of_nat rf + N.of_nat rp)%N ->
  forall P, np_new false fuel rng t d rf rp = Ok P -> forall x,
    let k := N.to_nat (N.of_nat (rf / 2) + N.of_nat rp - usize_mod) in
    let external s r := np_ref_ext t (np_abc P) (entry (np_m_e P)) (nth r (np_rc P) []) s in
    ((usize_mod <= N.of_nat (rf / 2) + N.of_nat rp)%N -> length x = t ->
       k < rf / 2 /\ length (np_rc P) = k + rf / 2 /\
       np_permutation false P x =
         Ok (fold_left external (seq k (rf / 2)) (fold_left external (seq 0 (rf / 2)) (mat_apply t t (entry (np_m_e P)) x)))) /\
    ((N.of_nat (rf / 2) + N.of_nat rp < usize_mod)%N -> np_permutation false P x = Panic) /\
    (length x <> t -> np_permutation false P x = Panic).
Proof. exact @ProofOverflow.np_overflow_release. Qed.
Print Assumptions C70_neptune_release.

(** Poseidon: the constructor panics in both builds (a slice has at most 2^63 rows). *)
Theorem C70_poseidon :
  forall F (Fo : FOps F) dbg t d rf rp (mds rc : list (list F)),
    (N.of_nat rf < usize_mod)%N -> (N.of_nat rp < usize_mod)%N -> (usize_mod <= N.of_nat rf + N.of_nat rp)%N ->
    (N.of_nat (length rc) <= usize_mod / 2)%N -> ps_new dbg t d rf rp mds rc = Panic.
Proof. exact @ProofOverflow.ps_overflow. Qed.
Print Assumptions C70_poseidon.

(** Poseidon2 in release builds, the case that C55 leaves open: no input is permuted. *)
Theorem C70_poseidon2_release :
  forall F (Fo : FOps F) t d rf rp (diag : list F) (mi rc : list (list F)) P x,
    (N.of_nat rf < usize_mod)%N -> (usize_mod <= N.of_nat rf + N.of_nat rp)%N ->
    (N.of_nat (rf / 2) + N.of_nat rp < usize_mod)%N -> (N.of_nat (length rc) <= usize_mod / 2)%N ->
    p2_new false t d rf rp diag mi rc = Ok P -> p2_permutation false P x = Panic.
Proof. exact @ProofOverflow.p2_overflow_panics. Qed.
Print Assumptions C70_poseidon2_release.

(** rounds_f = 8, rounds_p = 2^64 - 1: seven rows of constants, eight external rounds, the last four from row 3 *)
Example C70_ex : forall rp x, N.of_nat rp = (usize_mod - 1)%N -> length x = 4 ->
  exists P, np_new false 1 (fun n => e13 (Z.of_nat n mod 2 + 1)) 4 5 8 rp = Ok P /\ length (np_rc P) = 7 /\
  exists y, np_permutation (Fo := F13_ops) false P x = Ok y.
Proof.
  intros rp x E Hx.
  assert (H1 : (N.of_nat 8 < usize_mod)%N) by reflexivity.
  assert (H2 : (N.of_nat rp < usize_mod)%N) by (rewrite E; reflexivity).
  assert (H3 : (usize_mod <= N.of_nat 8 + N.of_nat rp)%N) by (rewrite E; vm_compute; discriminate).
  destruct (C70_neptune_release_accepts F13 F13_ops 13 F13_field 1 (fun n => e13 (Z.of_nat n mod 2 + 1)) 4 5 8 rp H1 H2 H3) as [P EP].
  - repeat split. right. left. reflexivity.
  - intros q. exists 0. split; [lia|]. intros C. apply (f_equal (@f_to_Z _ F13_ops)) in C.
    destruct (Z.mod_pos_bound (Z.of_nat (q + 0)) 2 ltac:(lia)).
    assert (K : (Z.of_nat (q + 0) mod 2 = 0 \/ Z.of_nat (q + 0) mod 2 = 1)%Z) by lia. destruct K as [K|K]; rewrite K in C; vm_compute in C; discriminate.
  - destruct (C70_neptune_release F13 F13_ops 13 F13_field 1 _ 4 5 8 rp H1 H2 H3 P EP x) as [A _].
    destruct A as [_ [L Y]]; [rewrite E; vm_compute; discriminate|exact Hx|].
    exists P. split; [exact EP|]. split; [rewrite L, E; reflexivity|]. eexists. exact Y.
Qed.
