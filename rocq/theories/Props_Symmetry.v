(** * Rearranging the words of the state: C88 *)
From Verif Require Import Base Field Spec SpecPoseidon2 SpecSymmetry ModelUtils ModelPoseidon2 ModelPoseidon ModelNeptune ModelInstances F13 Props_Matrix Props_Poseidon2 Props_Neptune.
From Verif Require ProofSymmetry.
Local Open Scope nat_scope.

(** the rearrangements that Poseidon2's external layer respects *)
Theorem C88_external_layer :
  forall F (Fo : FOps F) p, is_prime_field Fo p ->
  forall (P : Poseidon2Params F) s, (11 < p)%Z -> p2_width (p2_t P) -> rearrangement (p2_t P) s ->
    (symmetric_under (p2_t P) s (p2_matmul_external P) <-> (4 <= p2_t P -> moves_blocks (p2_t P) s)).
Proof. exact @ProofSymmetry.ext_symmetric. Qed.
Print Assumptions C88_external_layer.

(** the rearrangements that its internal layer respects *)
Theorem C88_internal_layer :
  forall F (Fo : FOps F) p, is_prime_field Fo p ->
  forall (P : Poseidon2Params F) s (diag : list F), p2_width (p2_t P) -> (4 <= p2_t P -> p2_t P <= length diag) -> rearrangement (p2_t P) s ->
    (symmetric_under (p2_t P) s (fun x => p2_matmul_internal P x diag) <->
     (if p2_t P <? 4 then s (p2_t P - 1) = p2_t P - 1 else forall i, i < p2_t P -> nth (s i) diag f0 = nth i diag f0)).
Proof. exact @ProofSymmetry.int_symmetric. Qed.
Print Assumptions C88_internal_layer.

(** shipped parameters: the internal layer respects nothing, except the exchange of the first two words for t = 3 *)
Theorem C88_shipped_internal_layer :
  forall I, In I p2_instances -> forall F (Fo : FOps F), is_prime_field Fo (qi_p I) ->
  forall (P : Poseidon2Params F) s, p2_t P = qi_t I -> rearrangement (qi_t I) s ->
  (symmetric_under (qi_t I) s (fun x => p2_matmul_internal P x (map f_of_Z (qi_diag I))) <->
   (if qi_t I =? 3 then s 2 = 2 else forall i, i < qi_t I -> s i = i)).
Proof. exact ProofSymmetry.p2_shipped_symmetric. Qed.
Print Assumptions C88_shipped_internal_layer.

(** parameters with symmetric constants give a permutation with the same symmetry: full rounds need nothing more *)
Theorem C88_permutation :
  forall F (Fo : FOps F) p, is_prime_field Fo p ->
  forall dbg t d rf rp (diag : list F) (mi rc : list (list F)) P s,
    p2_new dbg t d rf rp diag mi rc = Ok P -> (N.of_nat rf + N.of_nat rp < usize_mod)%N ->
    p2_width t -> sbox_degree d -> p2_data_ok t rf rp diag rc -> rearrangement t s ->
    (4 <= t -> moves_blocks t s) ->
    (forall r i, r < rf / 2 \/ rf / 2 + rp <= r < rf / 2 + rp + rf / 2 -> i < t -> nth (s i) (nth r rc []) f0 = nth i (nth r rc []) f0) ->
    (rp = 0 \/ (s 0 = 0 /\ if t <? 4 then s (t - 1) = t - 1 else forall i, i < t -> nth (s i) diag f0 = nth i diag f0)) ->
    symmetric_under t s (p2_permutation dbg P).
Proof. exact @ProofSymmetry.permutation_symmetric. Qed.
Print Assumptions C88_permutation.

(** and then it keeps the states with equal words in the places that s exchanges *)
Theorem C88_equal_words :
  forall F (Fo : FOps F) t s (f : list F -> res (list F)) x y,
    symmetric_under t s f -> length x = t -> rearrange t s x = x -> f x = Ok y -> rearrange t s y = y.
Proof. exact @ProofSymmetry.equal_words. Qed.
Print Assumptions C88_equal_words.

(** Poseidon: the shipped matrices respect nothing *)
Theorem C88_shipped_poseidon :
  forall I, In I ps_instances -> forall F (Fo : FOps F), is_prime_field Fo (si_p I) ->
  forall dbg s, rearrangement (si_t I) s ->
  symmetric_under (si_t I) s (fun x => ps_matmul dbg x (map (map (f_of_Z (F := F))) (si_mds I))) -> forall i, i < si_t I -> s i = i.
Proof. exact ProofSymmetry.ps_shipped_symmetric. Qed.
Print Assumptions C88_shipped_poseidon.

(** Neptune's internal layer *)
Theorem C88_neptune_internal_layer :
  forall F (Fo : FOps F) p, is_prime_field Fo p ->
  forall dbg fuel rng t d rf rp (P : NeptuneParams F) s,
    np_new dbg fuel rng t d rf rp = Ok P -> (N.of_nat rf + N.of_nat rp < usize_mod)%N -> 1 <= t -> rearrangement t s ->
    (symmetric_under t s (np_internal_matmul P) <-> forall i, i < t -> nth (s i) (np_mu P) f0 = nth i (np_mu P) f0).
Proof. exact @ProofSymmetry.np_int_symmetric. Qed.
Print Assumptions C88_neptune_internal_layer.

(** ** Examples *)
(** t = 8: the two blocks change places, and also the halves of both blocks *)
Definition ex_s (i : nat) : nat := (i + 4) mod 8.
Definition ex_h (i : nat) : nat := 4 * (1 - i / 4) + (i + 2) mod 4.
Example C88_ex_s : rearrangement 8 ex_s /\ moves_blocks 8 ex_s.
Proof.
  split; [split|].
  - intros i Hi. apply Nat.mod_upper_bound. lia.
  - intros i j Hi Hj. unfold ex_s. do 8 (destruct i as [|i]; [do 8 (destruct j as [|j]; [vm_compute; congruence|]); lia|]). lia.
  - exists (fun k => 1 - k), 0. split; [left; reflexivity|]. intros i Hi. do 8 (destruct i as [|i]; [reflexivity|]). lia.
Qed.
Example C88_ex_h : rearrangement 8 ex_h /\ moves_blocks 8 ex_h.
Proof.
  split; [split|].
  - intros i Hi. do 8 (destruct i as [|i]; [vm_compute; lia|]). lia.
  - intros i j Hi Hj. unfold ex_h. do 8 (destruct i as [|i]; [do 8 (destruct j as [|j]; [vm_compute; congruence|]); lia|]). lia.
  - exists (fun k => 1 - k), 2. split; [right; reflexivity|]. reflexivity.
Qed.
(** full rounds only, constants with equal blocks *)
Definition ex_sym := @p2_new F13 true 8 5 2 0 [] [] (map l13 [[1;2;3;4;1;2;3;4];[5;6;7;8;5;6;7;8]]%Z).
Example C88_ex_run : run13 ex_sym [1;2;3;4;5;6;7;8]%Z = Ok [10;5;9;1;12;6;2;1]%Z /\ run13 ex_sym [5;6;7;8;1;2;3;4]%Z = Ok [12;6;2;1;10;5;9;1]%Z /\
  run13 ex_sym [1;2;3;4;1;2;3;4]%Z = Ok [3;1;4;8;3;1;4;8]%Z.
Proof. vm_compute. repeat split. Qed.
(** the shuffle that exchanges words 0 and 1 is not respected *)
Definition ex_t (i : nat) : nat := match i with 0 => 1 | 1 => 0 | _ => i end.
Example C88_ex_t : rearrangement 8 ex_t /\ ~ moves_blocks 8 ex_t.
Proof.
  split; [split|].
  - intros [|[|i]]; cbn; lia.
  - intros [|[|i]] [|[|j]]; cbn; lia.
  - intros (b & e & He & E). assert (A := E 0 ltac:(lia)). assert (B := E 1 ltac:(lia)). cbn in A, B. destruct He as [-> | ->]; cbn in A, B; lia.
Qed.
(** the hypotheses of C88_permutation are met by ex_sym *)
Example C88_ex_perm : exists P, ex_sym = Ok P /\ symmetric_under (Fo := F13_ops) 8 ex_s (p2_permutation (Fo := F13_ops) true P).
Proof.
  eexists. split; [reflexivity|].
  eapply (C88_permutation F13 F13_ops 13 F13_field true 8 5 2 0 [] [] (map l13 [[1;2;3;4;1;2;3;4];[5;6;7;8;5;6;7;8]]%Z)); try reflexivity; try apply C88_ex_s.
  - cbn. tauto.
  - cbn. tauto.
  - split; [|split]; [|intros r Hr; cbn in Hr; lia|intros; lia]. intros r Hr. assert (X : r = 0 \/ r = 1) by (cbn in Hr; lia). destruct X as [-> | ->]; apply le_n.
  - intros _. apply C88_ex_s.
  - intros r i Hr Hi. assert (X : r = 0 \/ r = 1) by (cbn in Hr; lia). destruct X as [-> | ->]; do 8 (destruct i as [|i]; [reflexivity|]); lia.
  - left. reflexivity.
Qed.
