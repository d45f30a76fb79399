(** * How the permutations behave under scaling: C85 *)
From Verif Require Import Base Field Spec ModelPoseidon2 ModelPoseidon ModelGmimc ModelNeptune SpecPoseidon2 SpecScale F13
  Props_Matrix Props_Poseidon Props_Poseidon2 Props_Neptune.
From Verif Require ProofScale.
Local Open Scope nat_scope.

(** Multiplying the input and all round constants by a multiplies the output by a, exactly when a^d = a. *)
Theorem C85_poseidon2 :
  forall F (Fo : FOps F), is_field Fo ->
  forall dbg t d rf rp (diag : list F) mi a,
    p2_width t -> sbox_degree d -> rf mod 2 = 0 -> (N.of_nat rf + N.of_nat rp < usize_mod)%N -> 1 <= rf + rp ->
    (4 <= t -> 0 < rp -> t <= length diag) ->
    ((forall rc P P', p2_data_ok t rf rp diag rc -> p2_new dbg t d rf rp diag mi rc = Ok P -> p2_new dbg t d rf rp diag mi (map (scale a) rc) = Ok P' ->
        scaled_by t a (p2_permutation dbg P) (p2_permutation dbg P'))
     <-> fpow a d = a).
Proof. exact @ProofScale.p2_scaling. Qed.
Print Assumptions C85_poseidon2.

Theorem C85_poseidon :
  forall F (Fo : FOps F), is_field Fo ->
  forall dbg t d rf rp (mds : list (list F)) P0 a,
    dims t t mds -> (N.of_nat rf + N.of_nat rp < usize_mod)%N -> ps_new dbg t d rf rp mds (zero_table t (rf + rp)) = Ok P0 ->
    ((forall rc P P', dims (rf + rp) t rc -> ps_new dbg t d rf rp mds rc = Ok P -> ps_new dbg t d rf rp mds (map (scale a) rc) = Ok P' ->
        scaled_by t a (ps_permutation dbg P) (ps_permutation dbg P') /\ scaled_by t a (ps_permutation_not_opt dbg P) (ps_permutation_not_opt dbg P'))
     <-> fpow a d = a).
Proof. exact @ProofScale.ps_scaling. Qed.
Print Assumptions C85_poseidon.

Theorem C85_gmimc :
  forall F (Fo : FOps F), is_field Fo ->
  forall dbg t d rounds a, 2 <= t -> 1 <= rounds -> sbox_degree d ->
    ((forall rng P P', gm_new rng t d rounds = Ok P -> gm_new (fun i => fmul a (rng i)) t d rounds = Ok P' ->
        scaled_by t a (gm_permutation dbg P) (gm_permutation dbg P') /\ scaled_by t a (gm_permutation_not_opt dbg P) (gm_permutation_not_opt dbg P'))
     <-> fpow a d = a).
Proof. exact @ProofScale.gm_scaling. Qed.
Print Assumptions C85_gmimc.

(** Minus one qualifies for every degree that the code accepts; with d = 3 there is nothing else but 0 and 1. *)
Theorem C85_minus_one :
  forall F (Fo : FOps F), is_field Fo ->
  (forall d, sbox_degree d -> fpow (minus_one (F := F)) d = minus_one) /\
  (forall a : F, fpow a 3 = a <-> a = f0 \/ a = f1 \/ a = minus_one).
Proof. exact (fun F Fo HF => conj (@ProofScale.minus_one_degree F Fo HF) (@ProofScale.factors_three F Fo HF)). Qed.
Print Assumptions C85_minus_one.

(** Round constants that are all zero leave a symmetry: the permutation commutes with such factors, so P(-x) = -P(x) and
    (factor zero) the zero state is fixed. *)
Theorem C85_poseidon2_zero_constants :
  forall F (Fo : FOps F), is_field Fo ->
  forall dbg t d rf rp (diag : list F) mi P a,
    p2_new dbg t d rf rp diag mi (zero_table t (rf + rp)) = Ok P ->
    p2_width t -> sbox_degree d -> rf mod 2 = 0 -> (N.of_nat rf + N.of_nat rp < usize_mod)%N ->
    (4 <= t -> 0 < rp -> t <= length diag) -> fpow a d = a -> scaled_by t a (p2_permutation dbg P) (p2_permutation dbg P).
Proof. exact @ProofScale.p2_zero_constants. Qed.
Print Assumptions C85_poseidon2_zero_constants.

Theorem C85_poseidon_zero_constants :
  forall F (Fo : FOps F), is_field Fo ->
  forall dbg t d rf rp (mds : list (list F)) P a,
    dims t t mds -> (N.of_nat rf + N.of_nat rp < usize_mod)%N -> ps_new dbg t d rf rp mds (zero_table t (rf + rp)) = Ok P ->
    fpow a d = a -> scaled_by t a (ps_permutation dbg P) (ps_permutation dbg P) /\ scaled_by t a (ps_permutation_not_opt dbg P) (ps_permutation_not_opt dbg P).
Proof. exact @ProofScale.ps_zero_constants. Qed.
Print Assumptions C85_poseidon_zero_constants.

(** Neptune has no such rule: its outer S-box has terms of even degree.  With all constants negated, and everything else the
    same, P'(-x) = -P(x) fails although (-1)^5 = -1. *)
Definition neg_rng (k : nat) : F13 := if k <? 20 then @fmul _ F13_ops (@minus_one _ F13_ops) (ex_rng k) else ex_rng k.
Theorem C85_neptune_refuted :
  exists (F : Type) (Fo : FOps F) p (P P' : NeptuneParams F) rng rng', is_prime_field Fo p /\
    np_new true 3 rng 4 5 2 3 = Ok P /\ np_new true 3 rng' 4 5 2 3 = Ok P' /\
    np_m_e P' = np_m_e P /\ np_mu P' = np_mu P /\ np_abc P' = np_abc P /\ np_rc P' = map (scale minus_one) (np_rc P) /\
    ~ scaled_by 4 minus_one (np_permutation true P) (np_permutation true P').
Proof.
  exists F13, F13_ops, 13%Z. do 2 eexists. exists ex_rng, neg_rng. split; [exact F13_field|].
  split; [reflexivity|]. split; [reflexivity|]. repeat (split; [vm_compute; reflexivity|]).
  intros H. destruct (H (l13 [1;2;3;4]%Z) eq_refl) as [y [E1 E2]].
  assert (E : out13 (y <- np_permutation (Fo := F13_ops) true _ (l13 [1;2;3;4]%Z) ;; Ok (scale (Fo := F13_ops) (@minus_one _ F13_ops) y))
    = out13 (np_permutation (Fo := F13_ops) true _ (scale (Fo := F13_ops) (@minus_one _ F13_ops) (l13 [1;2;3;4]%Z)))) by (rewrite E1, E2; reflexivity).
  clear E1 E2 H. vm_compute in E. discriminate.
Qed.
Print Assumptions C85_neptune_refuted.

(** ** Examples over the field with 13 elements *)
(** 5 = sqrt(-1): 5^5 = 5 but 5^3 = 8 and 5^7 = 8 *)
Example C85_ex_factor : fpow (e13 5) 5 = e13 5 /\ fpow (e13 5) 3 <> e13 5 /\ fpow (e13 5) 7 <> e13 5.
Proof.
  split; [vm_compute; reflexivity|]. split; intros H; apply (f_equal (@f_to_Z _ F13_ops)) in H; vm_compute in H; discriminate.
Qed.
Example C85_ex_poseidon : exists P P' P0, ps_new true 3 5 2 3 ex_mds ex_rc = Ok P /\ ps_new true 3 5 2 3 ex_mds (map (scale (Fo := F13_ops) (e13 5)) ex_rc) = Ok P' /\
  ps_new true 3 5 2 3 ex_mds (zero_table (Fo := F13_ops) 3 5) = Ok P0 /\
  out13 (ps_permutation (Fo := F13_ops) true P (l13 [1;2;3]%Z)) = Ok [7;2;5]%Z /\
  out13 (ps_permutation (Fo := F13_ops) true P' (l13 [5;10;15]%Z)) = Ok [9;10;12]%Z.
Proof. do 3 eexists. do 3 (split; [vm_compute; reflexivity|]). split; vm_compute; reflexivity. Qed.
Example C85_ex_poseidon2 :
  run13 (ex4 true) [1;2;3;4]%Z = Ok [5;7;11;1]%Z /\
  run13 (@p2_new F13 true 4 7 2 2 (l13 [1;2;3;6]%Z) [] (map l13 [[-1;-2;-3;-4];[-4];[-7;-1];[-5;-6;-7;-8]]%Z)) [-1;-2;-3;-4]%Z = Ok [8;6;2;12]%Z.
Proof. split; vm_compute; reflexivity. Qed.
Example C85_ex_gmimc : exists P P', gm_new (fun k => e13 (Z.of_nat k + 2)) 3 5 4 = Ok P /\ gm_new (fun k => e13 (5 * (Z.of_nat k + 2))) 3 5 4 = Ok P' /\
  exists y, gm_permutation (Fo := F13_ops) true P (l13 [1;2;3]%Z) = Ok y /\ gm_permutation (Fo := F13_ops) true P' (l13 [5;10;15]%Z) = Ok (scale (Fo := F13_ops) (e13 5) y) /\ y <> l13 [1;2;3]%Z.
Proof.
  do 2 eexists. split; [reflexivity|]. split; [reflexivity|]. eexists. split; [vm_compute; reflexivity|]. split; [vm_compute; reflexivity|].
  intros H. apply (f_equal (map (@f_to_Z _ F13_ops))) in H. vm_compute in H. discriminate.
Qed.
