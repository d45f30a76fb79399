(** * What release builds of Poseidon compute with rows of constants that are too short: C102 *)
From Verif Require Import Base Field Spec ModelUtils ModelPoseidon2 ModelPoseidon
  SpecPoseidon SpecRagged SpecShort F13 Props_Matrix Props_Poseidon Props_Ragged Props_Accept Props_Returns.
From Verif Require ProofShort.

(** ** C102: whenever the plain permutation returns (the conditions are those of C100), words without a constant count as zero *)
Theorem C102_release_value :
  forall F (Fo : FOps F), is_field Fo ->
  forall t d rf rp (mds rc : list (list F)) P x,
    ps_new false t d rf rp mds rc = Ok P ->
    (N.of_nat rf + N.of_nat rp < usize_mod)%N ->
    length x = t -> (rf = 0 \/ rf + rp <= length rc) -> (forall k, k < rp -> nth (rf / 2 + k) rc [] <> []) ->
    ps_permutation_not_opt false P x = Ok (short_ref t d rf rp (entry (narrow t mds)) rc x).
Proof. intros F Fo HF t d rf rp mds rc P x. exact (ProofShort.not_opt_short_any HF t d rf rp mds rc P x). Qed.
Print Assumptions C102_release_value.

(** ** words of the input that have no constant in the first round are lost *)
Theorem C102_lost_words :
  forall F (Fo : FOps F) dbg t d rf rp (mds rc : list (list F)) P x x',
    ps_new dbg t d rf rp mds rc = Ok P ->
    (N.of_nat rf + N.of_nat rp < usize_mod)%N -> 2 <= rf ->
    length x = length x' ->
    firstn (length (nth 0 rc [])) x = firstn (length (nth 0 rc [])) x' ->
    ps_permutation dbg P x = ps_permutation dbg P x' /\
    ps_permutation_not_opt dbg P x = ps_permutation_not_opt dbg P x'.
Proof. exact @ProofShort.new_collision. Qed.
Print Assumptions C102_lost_words.

(** ** so not every parameter set that a release build accepts and runs is a permutation *)
Theorem C102_every_running_release_injective_refuted :
  exists (mds rc : list (list F13)) P x x' y,
    is_prime_field F13_ops 13 /\ dims 3 3 mds /\ Z.gcd 5 (13 - 1) = 1%Z /\
    ps_new false 3 5 2 3 mds rc = Ok P /\ length x = 3 /\ length x' = 3 /\ x <> x' /\
    ps_permutation false P x = Ok y /\ ps_permutation false P x' = Ok y.
Proof.
  exists ex_mds, even_rc. eexists. exists (l13 [1;2;3]%Z), (l13 [1;5;9]%Z). eexists.
  split; [exact F13_field|]. split; [exact ex_dims|]. split; [reflexivity|]. split; [vm_compute; reflexivity|].
  split; [reflexivity|]. split; [reflexivity|].
  split; [intros H; apply (f_equal (map f_to_Z)) in H; vm_compute in H; discriminate|].
  split; vm_compute; reflexivity.
Qed.
Print Assumptions C102_every_running_release_injective_refuted.

(** ** Examples: the first row has one constant, the last partial and full rounds two *)
Definition few_rc : list (list F13) := m13 [[1];[4;5;6];[7;8;9];[10;11];[3;1]]%Z.
Example C102_ex : exists P, ps_new (Fo := F13_ops) false 3 5 2 3 ragged few_rc = Ok P /\
  2 + 3 <= length few_rc /\ (forall k, k < 3 -> nth (2 / 2 + k) few_rc [] <> []) /\
  out13 (ps_permutation_not_opt false P (l13 [1;2;3]%Z)) =
    Ok (map f_to_Z (short_ref 3 5 2 3 (entry (narrow 3 ragged)) few_rc (l13 [1;2;3]%Z))) /\
  out13 (ps_permutation_not_opt false P (l13 [1;2;3]%Z)) = out13 (ps_permutation_not_opt false P (l13 [1;7;0]%Z)) /\
  firstn (length (nth 0 few_rc [])) (l13 [1;2;3]%Z) = firstn (length (nth 0 few_rc [])) (l13 [1;7;0]%Z).
Proof.
  eexists. split; [vm_compute; reflexivity|]. split; [cbn; lia|].
  split; [intros k Hk; do 3 (destruct k as [|k]; [discriminate|]); lia|].
  split; [vm_compute; reflexivity|]. split; [vm_compute; reflexivity|]. reflexivity.
Qed.
