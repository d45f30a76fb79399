(** * Getters (C54) and the profile statement for Poseidon2 (C20) *)
From Verif Require Import Base Field ModelUtils ModelPoseidon2 ModelPoseidon ModelGmimc ModelNeptune F13.
From Verif Require ProofPoseidon2Extra ProofMerkleHash ProofProfiles2.

(** ** C54 *)
Theorem C54_poseidon2_get_t :
  forall F dbg t d rf rp (diag : list F) (mi rc : list (list F)) P,
    p2_new dbg t d rf rp diag mi rc = Ok P -> p2_get_t P = t.
Proof. exact @ProofPoseidon2Extra.p2_get_t_new. Qed.
Print Assumptions C54_poseidon2_get_t.

Theorem C54_poseidon_get_t :
  forall F (Fo : FOps F) dbg t d rf rp (mds rc : list (list F)) P,
    ps_new dbg t d rf rp mds rc = Ok P -> ps_get_t P = t.
Proof. exact @ProofMerkleHash.ps_new_t. Qed.
Print Assumptions C54_poseidon_get_t.

Theorem C54_gmimc_getters :
  forall F (rng : nat -> F) t d rounds P, gm_new rng t d rounds = Ok P ->
    gm_get_t P = t /\ gm_params_get_t P = t /\ gm_params_get_rounds P = rounds.
Proof. exact @ProofProfiles2.gm_getters. Qed.
Print Assumptions C54_gmimc_getters.

Theorem C54_neptune_get_t :
  forall F (Fo : FOps F) dbg fuel (rng : nat -> F) t d rf rp P, np_new dbg fuel rng t d rf rp = Ok P -> np_get_t P = t.
Proof. exact @ProofProfiles2.np_get_t_new. Qed.
Print Assumptions C54_neptune_get_t.

Example C54_ex : (P <- gm_new (fun i => e13 (Z.of_nat i)) 8 5 12 ;; Ok (gm_get_t P, gm_params_get_rounds P)) = Ok (8, 12) /\
  (P <- @p2_new F13 true 4 7 2 2 [] [] [] ;; Ok (p2_get_t P)) = Ok 4.
Proof. split; vm_compute; reflexivity. Qed.

(** ** C20, Poseidon2 *)
Theorem C20_poseidon2_profiles :
  forall F (Fo : FOps F) t d rf rp (diag : list F) (mi rc : list (list F)),
    (N.of_nat rf + N.of_nat rp < usize_mod)%N ->
    p2_new true t d rf rp diag mi rc = p2_new false t d rf rp diag mi rc /\
    forall P x, p2_new true t d rf rp diag mi rc = Ok P ->
      p2_permutation true P x = p2_permutation false P x /\ p2_compress true P x = p2_compress false P x.
Proof. exact @ProofProfiles2.p2_profiles. Qed.
Print Assumptions C20_poseidon2_profiles.

Example C20_poseidon2_ex :
  (P <- @p2_new F13 true 3 5 2 1 (l13 [1;1;2]%Z) [] (map l13 [[1;2;3];[4;0;0];[5;6;7]]%Z) ;; out13 (@p2_permutation _ F13_ops true P (l13 [1;2;3]%Z))) =
  (P <- @p2_new F13 false 3 5 2 1 (l13 [1;1;2]%Z) [] (map l13 [[1;2;3];[4;0;0];[5;6;7]]%Z) ;; out13 (@p2_permutation _ F13_ops false P (l13 [1;2;3]%Z))).
Proof. vm_compute. reflexivity. Qed.
