(** * ProofKnown: the known-answer tests hold in the model *)
From Verif Require Import Base Field Spec LinAlg Limbs Fp SpecPoseidon SpecPoseidon2 ModelPoseidon2 ModelPoseidon
  ModelFields ModelInstances ModelKats SpecFields SpecInstances Transfer TransferRef ProofInstances Primes ProofKats.
From Coq Require Import Znumtheory.
Local Open Scope nat_scope.

Section Kat.
  Variables (P : mparams) (Hok : params_ok P = true).
  Local Instance FO : FOps (Fp P) := fp_ops P Hok.
  Local Notation ofz := (f_of_Z (FOps := FO)).

  Definition eqs (a b : list (Fp P)) : bool :=
    (length a =? length b)%nat && forallb (fun '(x, y) => feqb x y) (combine a b).

  Lemma eqs_ok (HF : is_field FO) a b : eqs a b = true -> a = b.
  Proof.
    unfold eqs. intros H. apply andb_true_iff in H. destruct H as [L H]. apply Nat.eqb_eq in L.
    revert b L H; induction a as [|x a IH]; intros [|y b] L H; cbn in *; try discriminate; [reflexivity|].
    apply andb_true_iff in H. destruct H as [E H]. apply (ff_eqb _ HF) in E. f_equal; [exact E|]. apply IH; [lia|exact H].
  Qed.

  Definition p2_known (I : p2_instance) (out : list Z) : bool :=
    (pz P =? qi_p I)%Z && (2 <? qi_p I)%Z &&
    eqs (p2_ref (qi_t I) (qi_d I) (qi_rf I) (qi_rp I) (map ofz (qi_diag I)) (map (map ofz) (qi_rc I)) (map ofz (iota (qi_t I)))) (map ofz out).
  Definition ps_known (I : ps_instance) (out : list Z) : bool :=
    (pz P =? si_p I)%Z && (2 <? si_p I)%Z &&
    eqs (ps_ref (si_t I) (si_d I) (si_rf I) (si_rp I) (entry (map (map ofz) (si_mds I))) (map (map ofz) (si_rc I)) (map ofz (iota (si_t I)))) (map ofz out).

  Lemma iota_length t : length (iota t) = t.
  Proof. unfold iota. rewrite map_length, seq_length. reflexivity. Qed.

  Theorem p2_known_ok I out : In I p2_instances -> prime (qi_p I) -> p2_known I out = true ->
    forall F (Fo : FOps F), is_prime_field Fo (qi_p I) -> forall dbg,
    exists Q, p2_instance_params dbg I = Ok Q /\
      p2_permutation dbg Q (map f_of_Z (iota (qi_t I))) = Ok (map (f_of_Z (F := F)) out).
  Proof.
    intros HI Hpr H F Fo HP dbg. unfold p2_known in H. rewrite !andb_true_iff in H. destruct H as [[Ep H2] HE].
    apply Z.eqb_eq in Ep. apply Z.ltb_lt in H2.
    assert (HPc : is_prime_field FO (qi_p I)).
    { rewrite <- Ep. apply fp_is_prime_field; rewrite Ep; [exact Hpr|lia]. }
    apply (eqs_ok (prime_field_is_field HPc)) in HE.
    destruct (p2_shipped_ref I HI F Fo HP dbg) as [Q [HQ HR]]. exists Q. split; [exact HQ|].
    rewrite HR by (rewrite map_length; apply iota_length). f_equal.
    rewrite <- (map_phi_of_Z HPc HP out), <- HE, <- (p2_ref_phi HPc HP), (map2_phi_of_Z HPc HP), !(map_phi_of_Z HPc HP).
    reflexivity.
  Qed.

  Theorem ps_known_ok I out : In I ps_instances -> prime (si_p I) -> ps_known I out = true ->
    forall F (Fo : FOps F), is_prime_field Fo (si_p I) -> forall dbg,
    exists Q, ps_instance_params dbg I = Ok Q /\
      ps_permutation dbg Q (map f_of_Z (iota (si_t I))) = Ok (map (f_of_Z (F := F)) out) /\
      ps_permutation_not_opt dbg Q (map f_of_Z (iota (si_t I))) = Ok (map (f_of_Z (F := F)) out).
  Proof.
    intros HI Hpr H F Fo HP dbg. unfold ps_known in H. rewrite !andb_true_iff in H. destruct H as [[Ep H2] HE].
    apply Z.eqb_eq in Ep. apply Z.ltb_lt in H2.
    assert (HPc : is_prime_field FO (si_p I)).
    { rewrite <- Ep. apply fp_is_prime_field; rewrite Ep; [exact Hpr|lia]. }
    apply (eqs_ok (prime_field_is_field HPc)) in HE.
    destruct (ps_shipped_permutation I HI) as [HC HS]. destruct (HS F Fo HP dbg) as [Q [HQ [HR _]]]. exists Q. split; [exact HQ|].
    destruct (HR (map f_of_Z (iota (si_t I)))) as [R1 R2]; [rewrite map_length; apply iota_length|].
    rewrite <- R1, R2. enough (E : ps_ref (si_t I) (si_d I) (si_rf I) (si_rp I) (entry (map (map (f_of_Z (F := F))) (si_mds I)))
       (map (map f_of_Z) (si_rc I)) (map f_of_Z (iota (si_t I))) = map f_of_Z out) by (rewrite E; split; reflexivity).
    rewrite <- (map_phi_of_Z HPc HP out), <- HE.
    rewrite <- (ps_ref_phi HPc HP _ _ _ _ _ (entry (map (map (f_of_Z (F := F))) (si_mds I)))).
    - rewrite (map2_phi_of_Z HPc HP), !(map_phi_of_Z HPc HP). reflexivity.
    - intros i j Hi Hj. apply (entry_transfer HPc HP _ (si_t I) (si_t I)); try assumption.
      + apply (sc_mds_shape I HC).
      + intros k Hk. apply (shape_nth _ _ _ k (sc_mds_shape I HC) Hk).
  Qed.
End Kat.

Definition outs {A} (l : list (A * list Z)) (i : nat) : list Z := nth i (map snd l) [].

Lemma p2_known_0 : p2_known P_goldilocks P_goldilocks_ok POSEIDON2_GOLDILOCKS_12_PARAMS (outs p2_kats 0) = true.
Proof. vm_cast_no_check (eq_refl true). Qed.
Lemma p2_known_1 : p2_known P_babybear P_babybear_ok POSEIDON2_BABYBEAR_24_PARAMS (outs p2_kats 1) = true.
Proof. vm_cast_no_check (eq_refl true). Qed.
Lemma p2_known_2 : p2_known P_bls12 P_bls12_ok POSEIDON2_BLS_2_PARAMS (outs p2_kats 2) = true.
Proof. vm_cast_no_check (eq_refl true). Qed.
Lemma p2_known_3 : p2_known P_bls12 P_bls12_ok POSEIDON2_BLS_3_PARAMS (outs p2_kats 3) = true.
Proof. vm_cast_no_check (eq_refl true). Qed.
Lemma p2_known_4 : p2_known P_bls12 P_bls12_ok POSEIDON2_BLS_4_PARAMS (outs p2_kats 4) = true.
Proof. vm_cast_no_check (eq_refl true). Qed.
Lemma p2_known_5 : p2_known P_bn256 P_bn256_ok POSEIDON2_BN256_PARAMS (outs p2_kats 5) = true.
Proof. vm_cast_no_check (eq_refl true). Qed.
Lemma p2_known_6 : p2_known P_pallas P_pallas_ok POSEIDON2_PALLAS_3_PARAMS (outs p2_kats 6) = true.
Proof. vm_cast_no_check (eq_refl true). Qed.
Lemma p2_known_7 : p2_known P_vesta P_vesta_ok POSEIDON2_VESTA_PARAMS (outs p2_kats 7) = true.
Proof. vm_cast_no_check (eq_refl true). Qed.

Lemma ps_known_0 : ps_known P_bls12 P_bls12_ok POSEIDON_BLS_2_PARAMS (outs ps_kats 0) = true.
Proof. vm_cast_no_check (eq_refl true). Qed.
Lemma ps_known_1 : ps_known P_bls12 P_bls12_ok POSEIDON_BLS_3_PARAMS (outs ps_kats 1) = true.
Proof. vm_cast_no_check (eq_refl true). Qed.
Lemma ps_known_2 : ps_known P_bn256 P_bn256_ok POSEIDON_BN_PARAMS (outs ps_kats 2) = true.
Proof. vm_cast_no_check (eq_refl true). Qed.
Lemma ps_known_3 : ps_known P_goldilocks P_goldilocks_ok POSEIDON_GOLDILOCKS_12_PARAMS (outs ps_kats 3) = true.
Proof. vm_cast_no_check (eq_refl true). Qed.
Lemma ps_known_4 : ps_known P_pallas P_pallas_ok POSEIDON_PALLAS_3_PARAMS (outs ps_kats 4) = true.
Proof. vm_cast_no_check (eq_refl true). Qed.
Lemma ps_known_5 : ps_known P_vesta P_vesta_ok POSEIDON_VESTA_PARAMS (outs ps_kats 5) = true.
Proof. vm_cast_no_check (eq_refl true). Qed.

Theorem p2_known_answers : forall I out, In (I, out) p2_kats ->
  forall F (Fo : FOps F), is_prime_field Fo (qi_p I) -> forall dbg,
  exists Q, p2_instance_params dbg I = Ok Q /\
    p2_permutation dbg Q (map f_of_Z (iota (qi_t I))) = Ok (map (f_of_Z (F := F)) out).
Proof.
  intros I out H. unfold p2_kats in H. cbn [In] in H.
  destruct H as [E|H].
  { injection E as <- <-. refine (p2_known_ok P_goldilocks P_goldilocks_ok POSEIDON2_GOLDILOCKS_12_PARAMS (outs p2_kats 0) _ prime_goldilocks p2_known_0). unfold p2_instances; cbn [In]; right; right; right; right; right; right; right; right; left; reflexivity. }
  destruct H as [E|H].
  { injection E as <- <-. refine (p2_known_ok P_babybear P_babybear_ok POSEIDON2_BABYBEAR_24_PARAMS (outs p2_kats 1) _ prime_babybear p2_known_1). unfold p2_instances; cbn [In]; right; left; reflexivity. }
  destruct H as [E|H].
  { injection E as <- <-. refine (p2_known_ok P_bls12 P_bls12_ok POSEIDON2_BLS_2_PARAMS (outs p2_kats 2) _ prime_bls12 p2_known_2). unfold p2_instances; cbn [In]; right; right; left; reflexivity. }
  destruct H as [E|H].
  { injection E as <- <-. refine (p2_known_ok P_bls12 P_bls12_ok POSEIDON2_BLS_3_PARAMS (outs p2_kats 3) _ prime_bls12 p2_known_3). unfold p2_instances; cbn [In]; right; right; right; left; reflexivity. }
  destruct H as [E|H].
  { injection E as <- <-. refine (p2_known_ok P_bls12 P_bls12_ok POSEIDON2_BLS_4_PARAMS (outs p2_kats 4) _ prime_bls12 p2_known_4). unfold p2_instances; cbn [In]; right; right; right; right; left; reflexivity. }
  destruct H as [E|H].
  { injection E as <- <-. refine (p2_known_ok P_bn256 P_bn256_ok POSEIDON2_BN256_PARAMS (outs p2_kats 5) _ prime_bn256 p2_known_5). unfold p2_instances; cbn [In]; right; right; right; right; right; right; left; reflexivity. }
  destruct H as [E|H].
  { injection E as <- <-. refine (p2_known_ok P_pallas P_pallas_ok POSEIDON2_PALLAS_3_PARAMS (outs p2_kats 6) _ prime_pallas p2_known_6). unfold p2_instances; cbn [In]; right; right; right; right; right; right; right; right; right; right; right; left; reflexivity. }
  destruct H as [E|H].
  { injection E as <- <-. refine (p2_known_ok P_vesta P_vesta_ok POSEIDON2_VESTA_PARAMS (outs p2_kats 7) _ prime_vesta p2_known_7). unfold p2_instances; cbn [In]; right; right; right; right; right; right; right; right; right; right; right; right; right; right; left; reflexivity. }
  destruct H.
Qed.

Theorem ps_known_answers : forall I out, In (I, out) ps_kats ->
  forall F (Fo : FOps F), is_prime_field Fo (si_p I) -> forall dbg,
  exists Q, ps_instance_params dbg I = Ok Q /\
    ps_permutation dbg Q (map f_of_Z (iota (si_t I))) = Ok (map (f_of_Z (F := F)) out) /\
    ps_permutation_not_opt dbg Q (map f_of_Z (iota (si_t I))) = Ok (map (f_of_Z (F := F)) out).
Proof.
  intros I out H. unfold ps_kats in H. cbn [In] in H.
  destruct H as [E|H].
  { injection E as <- <-. refine (ps_known_ok P_bls12 P_bls12_ok POSEIDON_BLS_2_PARAMS (outs ps_kats 0) _ prime_bls12 ps_known_0). unfold ps_instances; cbn [In]; right; right; left; reflexivity. }
  destruct H as [E|H].
  { injection E as <- <-. refine (ps_known_ok P_bls12 P_bls12_ok POSEIDON_BLS_3_PARAMS (outs ps_kats 1) _ prime_bls12 ps_known_1). unfold ps_instances; cbn [In]; right; right; right; left; reflexivity. }
  destruct H as [E|H].
  { injection E as <- <-. refine (ps_known_ok P_bn256 P_bn256_ok POSEIDON_BN_PARAMS (outs ps_kats 2) _ prime_bn256 ps_known_2). unfold ps_instances; cbn [In]; right; right; right; right; right; right; left; reflexivity. }
  destruct H as [E|H].
  { injection E as <- <-. refine (ps_known_ok P_goldilocks P_goldilocks_ok POSEIDON_GOLDILOCKS_12_PARAMS (outs ps_kats 3) _ prime_goldilocks ps_known_3). unfold ps_instances; cbn [In]; right; right; right; right; right; right; right; right; left; reflexivity. }
  destruct H as [E|H].
  { injection E as <- <-. refine (ps_known_ok P_pallas P_pallas_ok POSEIDON_PALLAS_3_PARAMS (outs ps_kats 4) _ prime_pallas ps_known_4). unfold ps_instances; cbn [In]; right; right; right; right; right; right; right; right; right; right; right; left; reflexivity. }
  destruct H as [E|H].
  { injection E as <- <-. refine (ps_known_ok P_vesta P_vesta_ok POSEIDON_VESTA_PARAMS (outs ps_kats 5) _ prime_vesta ps_known_5). unfold ps_instances; cbn [In]; right; right; right; right; right; right; right; right; right; right; right; right; right; right; left; reflexivity. }
  destruct H.
Qed.

