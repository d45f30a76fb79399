(** * Exactly when the Poseidon permutations and compress return: C99 (debug), C100 (release) *)
From Verif Require Import Base Field Spec ModelUtils ModelPoseidon2 ModelPoseidon
  SpecPoseidon SpecRagged F13 Props_Matrix Props_Poseidon Props_Ragged Props_Accept.
From Verif Require ProofReturns ProofReturnsRel.

(** ** C99: no condition on the shape of the matrix, the constants or the input *)
Theorem C99_permutation_returns_exactly :
  forall F (Fo : FOps F), is_field Fo ->
  forall t d rf rp (mds rc : list (list F)) P x,
    ps_new true t d rf rp mds rc = Ok P ->
    ((exists y, ps_permutation true P x = Ok y) <-> length x = t /\ ps_enough_constants t (rf + rp) rc) /\
    ((exists y, ps_permutation_not_opt true P x = Ok y) <-> length x = t /\ ps_enough_constants t (rf + rp) rc).
Proof. intros F Fo HF t d rf rp mds rc P x. exact (ProofReturns.returns_iff HF t d rf rp mds rc P x). Qed.
Print Assumptions C99_permutation_returns_exactly.

(** the value that is returned, and a panic in every other case *)
Theorem C99_value_or_panic :
  forall F (Fo : FOps F), is_field Fo ->
  forall t d rf rp (mds rc : list (list F)) P x,
    ps_new true t d rf rp mds rc = Ok P ->
    (length x = t /\ ps_enough_constants t (rf + rp) rc ->
       ps_permutation true P x = Ok (ps_ref t d rf rp (entry (narrow t mds)) rc x) /\
       ps_permutation_not_opt true P x = Ok (ps_ref t d rf rp (entry (narrow t mds)) rc x)) /\
    (~ (length x = t /\ ps_enough_constants t (rf + rp) rc) ->
       ps_permutation true P x = Panic /\ ps_permutation_not_opt true P x = Panic).
Proof. intros F Fo HF t d rf rp mds rc P x. exact (ProofReturns.returns_debug HF t d rf rp mds rc P x). Qed.
Print Assumptions C99_value_or_panic.

(** compress: the width must be 3, and at least two elements must be given; further ones are ignored *)
Theorem C99_compress :
  forall F (Fo : FOps F), is_field Fo ->
  forall t d rf rp (mds rc : list (list F)) P x,
    ps_new true t d rf rp mds rc = Ok P ->
    (t = 3 /\ 2 <= length x /\ ps_enough_constants t (rf + rp) rc ->
       ps_compress true P x = Ok (nth 0 (ps_ref t d rf rp (entry (narrow t mds)) rc [nth 0 x f0; nth 1 x f0; f0]) f0)) /\
    (~ (t = 3 /\ 2 <= length x /\ ps_enough_constants t (rf + rp) rc) -> ps_compress true P x = Panic).
Proof. intros F Fo HF t d rf rp mds rc P x. exact (ProofReturns.compress_debug HF t d rf rp mds rc P x). Qed.
Print Assumptions C99_compress.

(** ** Examples *)
(** accepted by the constructor, and every permutation panics: the first full round has one constant *)
Example C99_ex_panics : exists P, ps_new (Fo := F13_ops) true 3 5 2 3 ragged0 even_rc = Ok P /\
  ~ ps_enough_constants 3 5 even_rc /\
  ps_permutation true P (l13 [1;2;3]%Z) = Panic /\ ps_permutation_not_opt true P (l13 [1;2;3]%Z) = Panic /\
  ps_compress true P (l13 [1;2]%Z) = Panic.
Proof.
  eexists. split; [vm_compute; reflexivity|]. split; [intros H; specialize (H 0 ltac:(lia)); cbn in H; lia|].
  split; [vm_compute; reflexivity|]. split; vm_compute; reflexivity.
Qed.

Example C99_ex_returns : exists P, ps_new (Fo := F13_ops) true 3 5 2 3 ragged0 ex_rc = Ok P /\
  ps_enough_constants 3 5 ex_rc /\ out13 (ps_permutation true P (l13 [1;2;3]%Z)) = Ok [7;2;5]%Z /\
  ps_permutation true P (l13 [1;2]%Z) = Panic /\
  bind (ps_compress true P (l13 [1;2;9]%Z)) (fun a => Ok (f_to_Z a)) = bind (ps_compress true P (l13 [1;2]%Z)) (fun a => Ok (f_to_Z a)) /\
  ps_compress true P (l13 [1]%Z) = Panic.
Proof.
  eexists. split; [vm_compute; reflexivity|]. split; [exact ex_rows'|].
  split; [vm_compute; reflexivity|]. split; [vm_compute; reflexivity|]. split; vm_compute; reflexivity.
Qed.

(** ** C100: release builds *)
Theorem C100_release_returns_exactly :
  forall F (Fo : FOps F), is_field Fo ->
  forall t d rf rp (mds rc : list (list F)) P x,
    ps_new false t d rf rp mds rc = Ok P ->
    (N.of_nat rf + N.of_nat rp < usize_mod)%N ->
    ((exists y, ps_permutation false P x = Ok y) <-> length x = t /\ (rf = 0 \/ rf + rp <= length rc)) /\
    ((exists y, ps_permutation_not_opt false P x = Ok y) <->
       length x = t /\ (rf = 0 \/ rf + rp <= length rc) /\ forall k, k < rp -> nth (rf / 2 + k) rc [] <> []).
Proof. intros F Fo HF t d rf rp mds rc P x. exact (ProofReturnsRel.release_iff HF t d rf rp mds rc P x). Qed.
Print Assumptions C100_release_returns_exactly.

(** there is no third outcome, for any parameters and in both builds *)
Theorem C100_otherwise_panics :
  forall F (Fo : FOps F) dbg (P : PoseidonParams F) x,
    ((exists y, ps_permutation dbg P x = Ok y) \/ ps_permutation dbg P x = Panic) /\
    ((exists y, ps_permutation_not_opt dbg P x = Ok y) \/ ps_permutation_not_opt dbg P x = Panic).
Proof. exact @ProofReturnsRel.release_panics. Qed.
Print Assumptions C100_otherwise_panics.

(** rows that are too short go unnoticed in a release build (the same parameters panic in a debug build,
    [C99_ex_panics]), and an empty row of the last partial round makes only the plain permutation panic *)
Definition gap_rc : list (list F13) := m13 [[1;2;3];[4;5;6];[7;8;9];[];[3;1;2]]%Z.
Example C100_ex : exists P Q,
  ps_new (Fo := F13_ops) false 3 5 2 3 ragged0 even_rc = Ok P /\ ps_new (Fo := F13_ops) false 3 5 2 3 ex_mds gap_rc = Ok Q /\
  (exists y, ps_permutation false P (l13 [1;2;3]%Z) = Ok y /\ length y = 3) /\
  (exists y, ps_permutation false Q (l13 [1;2;3]%Z) = Ok y /\ length y = 3) /\
  ps_permutation_not_opt false Q (l13 [1;2;3]%Z) = Panic /\
  ps_permutation false P (l13 [1;2]%Z) = Panic.
Proof.
  do 2 eexists. split; [vm_compute; reflexivity|]. split; [vm_compute; reflexivity|].
  split; [eexists; split; [vm_compute; reflexivity|reflexivity]|].
  split; [eexists; split; [vm_compute; reflexivity|reflexivity]|]. split; vm_compute; reflexivity.
Qed.

(** a missing row of a full round: accepted, never runs *)
Example C100_ex_missing : exists P, ps_new (Fo := F13_ops) false 3 5 2 3 ex_mds (firstn 4 ex_rc) = Ok P /\
  ps_permutation false P (l13 [1;2;3]%Z) = Panic /\ length (firstn 4 ex_rc) < 2 + 3.
Proof. eexists. split; [vm_compute; reflexivity|]. split; [vm_compute; reflexivity|]. cbn. lia. Qed.
