(** * The permutations run backwards: C89 *)
From Verif Require Import Base Field Spec SpecPoseidon2 SpecNeptune SpecInverse ModelUtils ModelPoseidon2 ModelPoseidon ModelGmimc ModelNeptune ModelInstances F13 Props_Matrix Props_Poseidon2 Props_Poseidon Props_Gmimc Props_Neptune.
From Verif Require ProofInverse.
Local Open Scope nat_scope.

(** the exponent of the inverse S-box *)
Theorem C89_root_exponent :
  forall p d, sbox_degree d -> (1 < p)%Z -> Z.gcd (Z.of_nat d) (p - 1) = 1%Z ->
    inverse_exponent p d (Z.to_nat (root_exponent p (Z.of_nat d))).
Proof. exact ProofInverse.root_exponent_ok. Qed.
Print Assumptions C89_root_exponent.

Theorem C89_sbox :
  forall F (Fo : FOps F) p, is_prime_field Fo p -> forall d e x, d <> 0 -> inverse_exponent p d e ->
    fpow (fpow x d) e = x /\ fpow (fpow x e) d = x.
Proof. exact @ProofInverse.pow_undo. Qed.
Print Assumptions C89_sbox.

(** the inverse of the internal matrix of Poseidon2, from its diagonal *)
Theorem C89_internal_matrix :
  forall F (Fo : FOps F), is_field Fo -> forall t (diag : list F), 4 <= t -> (forall i, i < t -> nth i diag f0 <> f0) ->
    fadd f1 (sumn t (fun i => finv (nth i diag f0))) <> f0 -> is_inverse t (int_matrix t diag) (int_inverse t diag).
Proof. exact @ProofInverse.int_inverse_ok. Qed.
Print Assumptions C89_internal_matrix.

Theorem C89_poseidon2 :
  forall F (Fo : FOps F) p, is_prime_field Fo p ->
  forall dbg t d e rf rp (diag : list F) (mi rc : list (list F)) P EI II,
    p2_new dbg t d rf rp diag mi rc = Ok P -> (N.of_nat rf + N.of_nat rp < usize_mod)%N ->
    p2_width t -> sbox_degree d -> p2_data_ok t rf rp diag rc -> inverse_exponent p d e ->
    is_inverse t (ext_matrix t) EI -> (rp = 0 \/ is_inverse t (int_matrix t diag) II) ->
    undone_by t (p2_permutation dbg P) (p2_undo t e rf rp EI II rc).
Proof. exact @ProofInverse.p2_inverse. Qed.
Print Assumptions C89_poseidon2.

Theorem C89_poseidon :
  forall F (Fo : FOps F) p, is_prime_field Fo p ->
  forall dbg t d e rf rp (mds rc : list (list F)) P B,
    ps_new dbg t d rf rp mds rc = Ok P -> (N.of_nat rf + N.of_nat rp < usize_mod)%N -> dims t t mds ->
    ps_enough_constants t (rf + rp) rc -> inverse_exponent p d e -> is_inverse t (entry mds) B ->
    undone_by t (ps_permutation dbg P) (ps_undo t e rf rp B rc) /\ undone_by t (ps_permutation_not_opt dbg P) (ps_undo t e rf rp B rc).
Proof. exact @ProofInverse.ps_inverse. Qed.
Print Assumptions C89_poseidon.

(** GMiMC runs backwards without inverting the exponent *)
Theorem C89_gmimc :
  forall F (Fo : FOps F), is_field Fo ->
  forall dbg rng t d rounds (P : GmimcParams F),
    gm_new rng t d rounds = Ok P -> 1 <= t -> 1 <= rounds ->
    undone_by t (gm_permutation dbg P) (gm_undo t d rounds (map rng (seq 0 rounds))) /\
    undone_by t (gm_permutation_not_opt dbg P) (gm_undo t d rounds (map rng (seq 0 rounds))).
Proof. exact @ProofInverse.gm_inverse. Qed.
Print Assumptions C89_gmimc.

Theorem C89_neptune :
  forall F (Fo : FOps F) p, is_prime_field Fo p ->
  forall dbg fuel rng t d e rf rp (P : NeptuneParams F) i5 EI II,
    np_new dbg fuel rng t d rf rp = Ok P -> (N.of_nat rf + N.of_nat rp < usize_mod)%N -> 1 <= t \/ rp = 0 ->
    is_inverse t (entry (np_m_e P)) EI -> (rf = 0 \/ fmul i5 (fnat 5) = (f1 : F)) ->
    (rp = 0 \/ (is_inverse t (np_int_matrix (fun i => fadd (nth i (np_mu P) f0) f1)) II /\ inverse_exponent p d e)) ->
    undone_by t (np_permutation dbg P) (np_undo t e rf rp i5 (snd (np_abc P)) EI II (np_rc P)).
Proof. exact @ProofInverse.np_inverse. Qed.
Print Assumptions C89_neptune.

(** The preimages of a digest h: continue h with arbitrary words, run backwards, and keep what ends in zero. *)
Theorem C89_preimages :
  forall F (Fo : FOps F) dbg g (a b h : F),
  (forall P, undone_by 3 (p2_permutation dbg P) g -> (p2_compress dbg P [a; b] = Ok h <-> exists u v, g [h; u; v] = [a; b; f0])) /\
  (forall P, undone_by 3 (ps_permutation dbg P) g -> (ps_compress dbg P [a; b] = Ok h <-> exists u v, g [h; u; v] = [a; b; f0])) /\
  (forall P, undone_by 3 (gm_permutation dbg P) g -> (gm_compress dbg P [a; b] = Ok h <-> exists u v, g [h; u; v] = [a; b; f0])) /\
  (forall P, undone_by 4 (np_permutation dbg P) g -> (np_compress dbg P [a; b] = Ok h <-> exists u v w, g [h; u; v; w] = [a; b; f0; f0])).
Proof. exact ProofInverse.compress_preimages. Qed.
Print Assumptions C89_preimages.

(** the shipped instances *)
Theorem C89_poseidon2_shipped :
  forall I, In I p2_instances -> forall F (Fo : FOps F), is_prime_field Fo (qi_p I) -> forall dbg,
  exists Q EI II, p2_instance_params dbg I = Ok Q /\
    is_inverse (qi_t I) (ext_matrix (F := F) (qi_t I)) EI /\ is_inverse (qi_t I) (int_matrix (qi_t I) (map f_of_Z (qi_diag I))) II /\
    undone_by (qi_t I) (p2_permutation dbg Q)
      (p2_undo (qi_t I) (Z.to_nat (root_exponent (qi_p I) (Z.of_nat (qi_d I)))) (qi_rf I) (qi_rp I) EI II (map (map f_of_Z) (qi_rc I))).
Proof. exact ProofInverse.p2_shipped_inverse. Qed.
Print Assumptions C89_poseidon2_shipped.

Theorem C89_poseidon_shipped :
  forall I, In I ps_instances -> forall F (Fo : FOps F), is_prime_field Fo (si_p I) -> forall dbg,
  exists Q B, ps_instance_params dbg I = Ok Q /\ is_inverse (si_t I) (entry (map (map (f_of_Z (F := F))) (si_mds I))) B /\
    undone_by (si_t I) (ps_permutation dbg Q)
      (ps_undo (si_t I) (Z.to_nat (root_exponent (si_p I) (Z.of_nat (si_d I)))) (si_rf I) (si_rp I) B (map (map f_of_Z) (si_rc I))).
Proof. exact ProofInverse.ps_shipped_inverse. Qed.
Print Assumptions C89_poseidon_shipped.

(** ** Examples: the field with 13 elements, 5 * 5 = 1 mod 12 *)
Example C89_ex_exponent : root_exponent 13 5 = 5%Z /\ root_exponent 13 7 = 7%Z /\ inverse_exponent 13 5 5.
Proof. split; [reflexivity|]. split; [reflexivity|]. split; [lia|reflexivity]. Qed.
Definition inv_e3 : list (list F13) := m13 [[4;3;3];[3;4;3];[3;3;4]]%Z.
Definition inv_i3 : list (list F13) := m13 [[10;9;11];[9;10;11];[11;11;6]]%Z.
Example C89_ex_matrices : is_inverse 3 (ext_matrix 3) (entry inv_e3) /\ is_inverse 3 (int_matrix 3 (l13 [1;1;2]%Z)) (entry inv_i3).
Proof.
  split; split; intros i j Hi Hj; (destruct i as [|[|[|i]]]; [| | |lia]); (destruct j as [|[|[|j]]]; [| | |lia]); vm_compute; reflexivity.
Qed.
(** backwards from the outputs of C01_ex3, C14_ex and C23_ex *)
Example C89_ex_poseidon2 : out13 (Ok (p2_undo 3 5 2 1 (entry inv_e3) (entry inv_i3) (map l13 [[1;2;3];[4;0;0];[5;6;7]]%Z) (l13 [2;10;0]%Z))) = Ok [1;2;3]%Z /\
  run13 (ex3 true) [1;2;3]%Z = Ok [2;10;0]%Z.
Proof. vm_compute. split; reflexivity. Qed.
Example C89_ex_poseidon2_hyp : exists P, ex3 true = Ok P /\
  undone_by 3 (p2_permutation (Fo := F13_ops) true P) (p2_undo 3 5 2 1 (entry inv_e3) (entry inv_i3) (map l13 [[1;2;3];[4;0;0];[5;6;7]]%Z)).
Proof.
  eexists. split; [reflexivity|].
  eapply (C89_poseidon2 F13 F13_ops 13 F13_field true 3 5 5 2 1 (l13 [1;1;2]%Z) [] (map l13 [[1;2;3];[4;0;0];[5;6;7]]%Z)); try reflexivity.
  - cbn. tauto.
  - cbn. tauto.
  - split; [|split]; [| |intros; lia]; intros r Hr; cbn in Hr.
    + assert (X : r = 0 \/ r = 2) by lia. destruct X as [-> | ->]; cbn; lia.
    + assert (X : r = 1) by lia. rewrite X. cbn; lia.
  - apply C89_ex_exponent.
  - apply C89_ex_matrices.
  - right. apply C89_ex_matrices.
Qed.
Definition inv_mds : list (list F13) := m13 [[10;1;2];[7;10;1];[12;7;6]]%Z.
Example C89_ex_poseidon : out13 (Ok (ps_undo 3 5 2 3 (entry inv_mds) ex_rc (l13 [7;2;5]%Z))) = Ok [1;2;3]%Z.
Proof. vm_compute. reflexivity. Qed.
Example C89_ex_gmimc : out13 (Ok (gm_undo 3 5 4 (map Props_Gmimc.ex_rng (seq 0 4)) (l13 [0;11;9]%Z))) = Ok [1;2;3]%Z.
Proof. vm_compute. reflexivity. Qed.
Definition inv_ne4 : list (list F13) := m13 [[5;0;4;0];[0;4;0;5];[4;0;5;0];[0;5;0;4]]%Z.
Definition inv_ni4 : list (list F13) := m13 [[1;3;1;12];[3;6;12;1];[1;12;7;9];[12;1;9;1]]%Z.
Example C89_ex_neptune : (P <- ex_np 4 ;; out13 (np_permutation true P (l13 [1;2;3;4]%Z))) = Ok [2;7;1;9]%Z /\
  (P <- ex_np 4 ;; out13 (Ok (np_undo 4 5 2 3 (e13 8) (snd (np_abc P)) (entry inv_ne4) (entry inv_ni4) (np_rc P) (l13 [2;7;1;9]%Z)))) = Ok [1;2;3;4]%Z.
Proof. vm_compute. split; reflexivity. Qed.
(** t = 4, diagonal 1, 2, 3, 4 *)
Example C89_ex_internal : outm13 (Ok (map (fun i => map (int_inverse 4 (l13 [1;2;3;4]%Z) i) (seq 0 4)) (seq 0 4))) =
  outm13 (mat_inverse true (m13 [[2;1;1;1];[1;3;1;1];[1;1;4;1];[1;1;1;5]]%Z)).
Proof. vm_compute. reflexivity. Qed.
(** the inverse of x -> x^5 for BN254 *)
Example C89_ex_bn : root_exponent (qi_p POSEIDON2_BN256_PARAMS) 5 = 17510594297471420177797124596205820070838691520332827474958563349260646796493%Z.
Proof. vm_compute. reflexivity. Qed.
