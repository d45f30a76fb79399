(** * Exactly when the Poseidon constructor succeeds, and debug against release builds: C97, C98 *)
From Verif Require Import Base Field Spec ModelUtils ModelPoseidon2 ModelPoseidon ModelGmimc ModelNeptune ModelMerkle
  SpecPoseidon SpecPoseidon2 SpecRagged SpecAccept F13 Props_Matrix Props_Poseidon Props_Ragged.
From Verif Require ProofAccept ProofRefine.

(** ** C97: no condition on the shape of the matrix or of the constants *)
Theorem C97_new_success_exactly :
  forall F (Fo : FOps F), is_field Fo ->
  forall dbg t d rf rp (mds rc : list (list F)),
    (N.of_nat rf + N.of_nat rp < usize_mod)%N ->
    ((exists P, ps_new dbg t d rf rp mds rc = Ok P) <->
      (d = 3 \/ d = 5 \/ d = 7) /\ rf mod 2 = 0 /\ 2 <= t /\ 1 <= rp /\
      wide t mds /\ (dbg = true -> surplus_zero t mds) /\ constants_shape dbg t (rf / 2) rp rc /\
      leading_blocks t (entry (narrow t mds)) /\
      (forall k, 1 <= k <= rp -> leading_blocks (t - 1) (mat_pow (t - 1) (drop0 (entry (narrow t mds))) k))).
Proof.
  intros F Fo HF dbg t d rf rp mds rc Hov. rewrite (ProofAccept.success_any HF dbg t d rf rp mds rc Hov).
  unfold sbox_degree. cbn [In]. intuition.
Qed.
Print Assumptions C97_new_success_exactly.

(** in every other case it panics *)
Theorem C97_otherwise_panics :
  forall F (Fo : FOps F) dbg t d rf rp (mds rc : list (list F)),
    (exists P, ps_new dbg t d rf rp mds rc = Ok P) \/ ps_new dbg t d rf rp mds rc = Panic.
Proof. exact @ProofAccept.new_ends. Qed.
Print Assumptions C97_otherwise_panics.

(** debug builds check the sum of the round numbers themselves *)
Theorem C97_debug_sum :
  forall F (Fo : FOps F) t d rf rp (mds rc : list (list F)) P,
    ps_new true t d rf rp mds rc = Ok P -> (N.of_nat rf + N.of_nat rp < usize_mod)%N.
Proof. exact @ProofAccept.debug_no_overflow. Qed.
Print Assumptions C97_debug_sum.

(** ** Examples: rows of 4, 3 and 2 constants for the three partial rounds, none of length 3 for the full ones *)
Definition odd_rc : list (list F13) := m13 [[1];[4;5;6;7];[7;8;9];[10;11];[]]%Z.
Definition even_rc : list (list F13) := m13 [[1];[4;5;6;7];[7;8;9];[10;11;2];[]]%Z.

Example C97_ex_shape : constants_shape false 3 1 3 odd_rc /\ ~ constants_shape true 3 1 3 odd_rc /\
  constants_shape true 3 1 3 even_rc /\ constants_shape true 3 1 1 (m13 [[];[]]%Z).
Proof.
  split; [|split; [|split]].
  - split; [cbn; lia|]. intros _. cbn. split; [lia|]. split; [|lia]. intros k H1 H2. replace k with 1 by lia. reflexivity.
  - intros [_ H]. destruct (H ltac:(lia)) as (_ & _ & E). discriminate E.
  - split; [cbn; lia|]. intros _. cbn. split; [lia|]. split; [|reflexivity]. intros k H1 H2. replace k with 1 by lia. reflexivity.
  - split; [cbn; lia|]. intros H. lia.
Qed.

Example C97_ex_new :
  (exists P, ps_new (Fo := F13_ops) false 3 5 2 3 ragged odd_rc = Ok P) /\
  ps_new (Fo := F13_ops) true 3 5 2 3 ragged0 odd_rc = Panic /\
  (exists P, ps_new (Fo := F13_ops) true 3 5 2 3 ragged0 even_rc = Ok P).
Proof. split; [eexists; vm_compute; reflexivity|]. split; [vm_compute; reflexivity|]. eexists. vm_compute. reflexivity. Qed.

(** ** C98: what a debug build returns, a release build returns too *)
Theorem C98_constructors :
  forall F (Fo : FOps F), is_field Fo ->
  (forall (m B : list (list F)), mat_inverse true m = Ok B -> mat_inverse false m = Ok B) /\
  (forall t d rf rp (mds rc : list (list F)) P, ps_new true t d rf rp mds rc = Ok P -> ps_new false t d rf rp mds rc = Ok P) /\
  (forall t d rf rp diag (mi rc : list (list F)) P, p2_new true t d rf rp diag mi rc = Ok P -> p2_new false t d rf rp diag mi rc = Ok P) /\
  (forall (rc mi : list (list F)) rfb rp o, p2_equivalent_round_constants true rc mi rfb rp = Ok o ->
     p2_equivalent_round_constants false rc mi rfb rp = Ok o) /\
  (forall fuel (rng : nat -> F) t d rf rp P, np_new true fuel rng t d rf rp = Ok P -> np_new false fuel rng t d rf rp = Ok P).
Proof.
  intros F Fo HF. repeat split.
  - exact (ProofRefine.inverse_le HF).
  - exact (ProofRefine.ps_new_le HF).
  - exact ProofRefine.p2_new_le.
  - exact (ProofRefine.p2_erc_le HF).
  - exact ProofRefine.np_new_le.
Qed.
Print Assumptions C98_constructors.

Theorem C98_permutations :
  forall F (Fo : FOps F),
  (forall (P : PoseidonParams F) x y, ps_permutation true P x = Ok y -> ps_permutation false P x = Ok y) /\
  (forall (P : PoseidonParams F) x y, ps_permutation_not_opt true P x = Ok y -> ps_permutation_not_opt false P x = Ok y) /\
  (forall (P : Poseidon2Params F) x y, p2_permutation true P x = Ok y -> p2_permutation false P x = Ok y) /\
  (forall (P : GmimcParams F) x y, gm_permutation true P x = Ok y -> gm_permutation false P x = Ok y) /\
  (forall (P : GmimcParams F) x y, gm_permutation_not_opt true P x = Ok y -> gm_permutation_not_opt false P x = Ok y) /\
  (forall (P : NeptuneParams F) x y, np_permutation true P x = Ok y -> np_permutation false P x = Ok y).
Proof.
  intros F Fo. repeat split.
  - exact ProofRefine.ps_permutation_le.
  - exact ProofRefine.ps_permutation_not_opt_le.
  - exact ProofRefine.p2_permutation_le.
  - exact ProofRefine.gm_permutation_le.
  - exact ProofRefine.gm_not_opt_le.
  - exact ProofRefine.np_permutation_le.
Qed.
Print Assumptions C98_permutations.

Theorem C98_compress :
  forall F (Fo : FOps F),
  (forall (P : PoseidonParams F) x y, ps_compress true P x = Ok y -> ps_compress false P x = Ok y) /\
  (forall (P : Poseidon2Params F) x y, p2_compress true P x = Ok y -> p2_compress false P x = Ok y) /\
  (forall (P : GmimcParams F) x y, gm_compress true P x = Ok y -> gm_compress false P x = Ok y) /\
  (forall (P : NeptuneParams F) x y, np_compress true P x = Ok y -> np_compress false P x = Ok y).
Proof.
  intros F Fo. repeat split.
  - exact ProofRefine.ps_compress_le.
  - exact ProofRefine.p2_compress_le.
  - exact ProofRefine.gm_compress_le.
  - exact ProofRefine.np_compress_le.
Qed.
Print Assumptions C98_compress.

(** the trees; [c1] and [c2] are the compression functions of the two builds *)
Theorem C98_merkle :
  (forall A fuel (c1 c2 : list A -> res A) set r, (forall l y, c1 l = Ok y -> c2 l = Ok y) ->
     fp_accumulate true fuel c1 set = Ok r -> fp_accumulate false fuel c2 set = Ok r) /\
  (forall A fuel (c : nat -> A -> A -> res A) set r,
     orchard_accumulate true fuel c set = Ok r -> orchard_accumulate false fuel c set = Ok r) /\
  (forall A fuel (c : nat -> A -> A -> res A) set r,
     sapling_accumulate true fuel c set = Ok r -> sapling_accumulate false fuel c set = Ok r) /\
  (forall B H (upd : H -> list B -> H) fin fuel set h d h',
     f2_accumulate upd fin true fuel set h = (Ok d, h') -> f2_accumulate upd fin false fuel set h = (Ok d, h')).
Proof.
  repeat split.
  - intros A fuel c1 c2 set r H. exact (ProofRefine.fp_accumulate_le fuel c1 c2 set H r).
  - intros A. exact ProofRefine.orchard_accumulate_le.
  - intros A. exact ProofRefine.sapling_accumulate_le.
  - intros B H. exact ProofRefine.f2_accumulate_le.
Qed.
Print Assumptions C98_merkle.

(** the converse is false: release builds accept what debug builds reject *)
Theorem C98_converse_refuted :
  exists t d rf rp (mds rc : list (list F13)) P, is_prime_field F13_ops 13 /\
    ps_new (Fo := F13_ops) false t d rf rp mds rc = Ok P /\ ps_new (Fo := F13_ops) true t d rf rp mds rc = Panic.
Proof.
  exists 3, 5, 2, 3, ex_mds, odd_rc. eexists. split; [exact F13_field|]. split; [vm_compute; reflexivity|]. vm_compute. reflexivity.
Qed.
Print Assumptions C98_converse_refuted.

(** a case with debug checks that pass: parameters, permutation, tree *)
Example C98_ex : exists P y, ps_new (Fo := F13_ops) true 3 5 2 3 ragged0 ex_rc = Ok P /\
  ps_compress (Fo := F13_ops) true P (l13 [5;6]%Z) = Ok y /\
  fp_accumulate true 8 (ps_compress (Fo := F13_ops) true P) (l13 [5;6]%Z) = Ok y.
Proof. eexists. eexists. split; [vm_compute; reflexivity|]. split; [vm_compute; reflexivity|]. vm_compute. reflexivity. Qed.
