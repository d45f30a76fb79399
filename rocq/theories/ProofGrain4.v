(** * ProofGrain4: all shipped instances against the generator *)
From Verif Require Import Base Field Spec SpecMDS MDS Fp Primes ModelInstances SpecInstances ModelGrain ProofGrain ProofGrain3 CertGrainP2 CertGrainPS.
From Verif Require Import LinAlg ModelPoseidon.
From Verif Require ProofKats ProofInstances ProofPoseidon Elim.
From Coq Require Import Znumtheory.
Local Open Scope nat_scope.

Lemma p2_grain_all I : In I p2_instances -> exists w k r, p2_grain_b w k r I = true.
Proof.
  intros H. unfold p2_instances in H. cbn [In] in H.
  destruct H as [<-|H]; [exact (ex_intro _ (N.to_nat 3529) (ex_intro _ (N.to_nat 454) (ex_intro _ rejected_POSEIDON2_BABYBEAR_16_PARAMS grain_POSEIDON2_BABYBEAR_16_PARAMS)))|].
  destruct H as [<-|H]; [exact (ex_intro _ (N.to_nat 2720) (ex_intro _ (N.to_nat 347) (ex_intro _ rejected_POSEIDON2_BABYBEAR_24_PARAMS grain_POSEIDON2_BABYBEAR_24_PARAMS)))|].
  destruct H as [<-|H]; [exact (ex_intro _ (N.to_nat 4772) (ex_intro _ (N.to_nat 75) (ex_intro _ rejected_POSEIDON2_BLS_2_PARAMS grain_POSEIDON2_BLS_2_PARAMS)))|].
  destruct H as [<-|H]; [exact (ex_intro _ (N.to_nat 6010) (ex_intro _ (N.to_nat 94) (ex_intro _ rejected_POSEIDON2_BLS_3_PARAMS grain_POSEIDON2_BLS_3_PARAMS)))|].
  destruct H as [<-|H]; [exact (ex_intro _ (N.to_nat 6602) (ex_intro _ (N.to_nat 104) (ex_intro _ rejected_POSEIDON2_BLS_4_PARAMS grain_POSEIDON2_BLS_4_PARAMS)))|].
  destruct H as [<-|H]; [exact (ex_intro _ (N.to_nat 13076) (ex_intro _ (N.to_nat 205) (ex_intro _ rejected_POSEIDON2_BLS_8_PARAMS grain_POSEIDON2_BLS_8_PARAMS)))|].
  destruct H as [<-|H]; [exact (ex_intro _ (N.to_nat 6325) (ex_intro _ (N.to_nat 100) (ex_intro _ rejected_POSEIDON2_BN256_PARAMS grain_POSEIDON2_BN256_PARAMS)))|].
  destruct H as [<-|H]; [exact (ex_intro _ (N.to_nat 1882) (ex_intro _ (N.to_nat 118) (ex_intro _ rejected_POSEIDON2_GOLDILOCKS_8_PARAMS grain_POSEIDON2_GOLDILOCKS_8_PARAMS)))|].
  destruct H as [<-|H]; [exact (ex_intro _ (N.to_nat 3611) (ex_intro _ (N.to_nat 226) (ex_intro _ rejected_POSEIDON2_GOLDILOCKS_12_PARAMS grain_POSEIDON2_GOLDILOCKS_12_PARAMS)))|].
  destruct H as [<-|H]; [exact (ex_intro _ (N.to_nat 14478) (ex_intro _ (N.to_nat 902) (ex_intro _ rejected_POSEIDON2_GOLDILOCKS_16_PARAMS grain_POSEIDON2_GOLDILOCKS_16_PARAMS)))|].
  destruct H as [<-|H]; [exact (ex_intro _ (N.to_nat 5132) (ex_intro _ (N.to_nat 322) (ex_intro _ rejected_POSEIDON2_GOLDILOCKS_20_PARAMS grain_POSEIDON2_GOLDILOCKS_20_PARAMS)))|].
  destruct H as [<-|H]; [exact (ex_intro _ (N.to_nat 11311) (ex_intro _ (N.to_nat 177) (ex_intro _ rejected_POSEIDON2_PALLAS_3_PARAMS grain_POSEIDON2_PALLAS_3_PARAMS)))|].
  destruct H as [<-|H]; [exact (ex_intro _ (N.to_nat 10774) (ex_intro _ (N.to_nat 170) (ex_intro _ rejected_POSEIDON2_PALLAS_4_PARAMS grain_POSEIDON2_PALLAS_4_PARAMS)))|].
  destruct H as [<-|H]; [exact (ex_intro _ (N.to_nat 19259) (ex_intro _ (N.to_nat 302) (ex_intro _ rejected_POSEIDON2_PALLAS_8_PARAMS grain_POSEIDON2_PALLAS_8_PARAMS)))|].
  destruct H as [<-|H]; [exact (ex_intro _ (N.to_nat 11311) (ex_intro _ (N.to_nat 177) (ex_intro _ rejected_POSEIDON2_VESTA_PARAMS grain_POSEIDON2_VESTA_PARAMS)))|].
  destruct H.
Qed.
Lemma ps_grain_all I : In I ps_instances -> exists P Hok w k, prime (si_p I) /\ ps_grain_b P Hok w k I = true.
Proof.
  intros H. unfold ps_instances in H. cbn [In] in H.
  destruct H as [<-|H]; [exact (ex_intro _ P_babybear (ex_intro _ P_babybear_ok (ex_intro _ (N.to_nat 3046) (ex_intro _ (N.to_nat 395) (conj prime_babybear grain_POSEIDON_BABYBEAR_16_PARAMS)))))|].
  destruct H as [<-|H]; [exact (ex_intro _ P_babybear (ex_intro _ P_babybear_ok (ex_intro _ (N.to_nat 6194) (ex_intro _ (N.to_nat 796) (conj prime_babybear grain_POSEIDON_BABYBEAR_24_PARAMS)))))|].
  destruct H as [<-|H]; [exact (ex_intro _ P_bls12 (ex_intro _ P_bls12_ok (ex_intro _ (N.to_nat 9400) (ex_intro _ (N.to_nat 148) (conj prime_bls12 grain_POSEIDON_BLS_2_PARAMS)))))|].
  destruct H as [<-|H]; [exact (ex_intro _ P_bls12 (ex_intro _ P_bls12_ok (ex_intro _ (N.to_nat 14095) (ex_intro _ (N.to_nat 222) (conj prime_bls12 grain_POSEIDON_BLS_3_PARAMS)))))|].
  destruct H as [<-|H]; [exact (ex_intro _ P_bls12 (ex_intro _ P_bls12_ok (ex_intro _ (N.to_nat 18350) (ex_intro _ (N.to_nat 287) (conj prime_bls12 grain_POSEIDON_BLS_4_PARAMS)))))|].
  destruct H as [<-|H]; [exact (ex_intro _ P_bls12 (ex_intro _ P_bls12_ok (ex_intro _ (N.to_nat 37045) (ex_intro _ (N.to_nat 583) (conj prime_bls12 grain_POSEIDON_BLS_8_PARAMS)))))|].
  destruct H as [<-|H]; [exact (ex_intro _ P_bn256 (ex_intro _ P_bn256_ok (ex_intro _ (N.to_nat 16860) (ex_intro _ (N.to_nat 265) (conj prime_bn256 grain_POSEIDON_BN_PARAMS)))))|].
  destruct H as [<-|H]; [exact (ex_intro _ P_goldilocks (ex_intro _ P_goldilocks_ok (ex_intro _ (N.to_nat 4078) (ex_intro _ (N.to_nat 256) (conj prime_goldilocks grain_POSEIDON_GOLDILOCKS_8_PARAMS)))))|].
  destruct H as [<-|H]; [exact (ex_intro _ P_goldilocks (ex_intro _ P_goldilocks_ok (ex_intro _ (N.to_nat 6152) (ex_intro _ (N.to_nat 384) (conj prime_goldilocks grain_POSEIDON_GOLDILOCKS_12_PARAMS)))))|].
  destruct H as [<-|H]; [exact (ex_intro _ P_goldilocks (ex_intro _ P_goldilocks_ok (ex_intro _ (N.to_nat 8199) (ex_intro _ (N.to_nat 512) (conj prime_goldilocks grain_POSEIDON_GOLDILOCKS_16_PARAMS)))))|].
  destruct H as [<-|H]; [exact (ex_intro _ P_goldilocks (ex_intro _ P_goldilocks_ok (ex_intro _ (N.to_nat 10243) (ex_intro _ (N.to_nat 640) (conj prime_goldilocks grain_POSEIDON_GOLDILOCKS_20_PARAMS)))))|].
  destruct H as [<-|H]; [exact (ex_intro _ P_pallas (ex_intro _ P_pallas_ok (ex_intro _ (N.to_nat 24734) (ex_intro _ (N.to_nat 389) (conj prime_pallas grain_POSEIDON_PALLAS_3_PARAMS)))))|].
  destruct H as [<-|H]; [exact (ex_intro _ P_pallas (ex_intro _ P_pallas_ok (ex_intro _ (N.to_nat 31170) (ex_intro _ (N.to_nat 488) (conj prime_pallas grain_POSEIDON_PALLAS_4_PARAMS)))))|].
  destruct H as [<-|H]; [exact (ex_intro _ P_pallas (ex_intro _ P_pallas_ok (ex_intro _ (N.to_nat 64899) (ex_intro _ (N.to_nat 1018) (conj prime_pallas grain_POSEIDON_PALLAS_8_PARAMS)))))|].
  destruct H as [<-|H]; [exact (ex_intro _ P_vesta (ex_intro _ P_vesta_ok (ex_intro _ (N.to_nat 24734) (ex_intro _ (N.to_nat 389) (conj prime_vesta grain_POSEIDON_VESTA_PARAMS)))))|].
  destruct H.
Qed.

Lemma bitlen_unique p n : (2 ^ (Z.of_nat n - 1) <= p < 2 ^ Z.of_nat n)%Z -> (2 <= p)%Z -> n = bitlen p.
Proof.
  intros [H1 H2] Hp. unfold bitlen. assert (1 <= n) by (destruct n; [change (2 ^ Z.of_nat 0)%Z with 1%Z in H2; lia|lia]).
  rewrite (Z.log2_unique p (Z.of_nat n - 1)); [lia|lia|]. split; [exact H1|]. replace (Z.succ (Z.of_nat n - 1)) with (Z.of_nat n) by lia. exact H2.
Qed.

Theorem p2_from_grain I : In I p2_instances -> forall n, (2 ^ (Z.of_nat n - 1) <= qi_p I < 2 ^ Z.of_nat n)%Z ->
  exists s,
    (exists n0, forall fuel, n0 <= fuel ->
       generate_constants fuel n (qi_t I) (qi_rf I) (qi_rp I) (qi_p I) (grain_start 1 0 n (qi_t I) (qi_rf I) (qi_rp I)) =
       Ok (concat (qi_rc I), s)) /\
    (4 <= qi_t I -> exists rejected, forall F (Fo : FOps F), is_prime_field Fo (qi_p I) -> exists s1 n0, forall fuel, n0 <= fuel ->
       grain_diagonal (F := F) fuel n (qi_t I) rejected s = Ok (map (fun i => f_of_Z (zentry (qi_mat I) i i)) (seq 0 (qi_t I)), s1)).
Proof.
  intros HI n Hn. destruct (p2_grain_all I HI) as [w [k [r H]]].
  destruct (ProofKats.p2_all I HI) as [P [Hok [Hpr _]]]. pose proof (prime_ge_2 _ Hpr).
  rewrite (bitlen_unique _ _ Hn) by assumption.
  destruct (p2_grain_ok w k r I H) as [s [H1 H2]]. exists s. split; [exact H1|]. intros Ht. exists (length r). intros F Fo HP.
  destruct (H2 Ht) as [s0 [g [s1 [H3 [H4 [Lg H5]]]]]]. exists s1.
  replace (map (fun i => f_of_Z (zentry (qi_mat I) i i)) (seq 0 (qi_t I))) with (map (f_of_Z (F := F)) g).
  - exact (chain_diagonal _ _ _ _ _ _ _ H3 H4).
  - apply (nth_ext _ _ f0 f0); [rewrite !map_length, seq_length; exact Lg|]. rewrite map_length, Lg. intros i Hi.
    rewrite (Elim.nth_map_d _ _ i 0%Z) by lia. rewrite (Elim.nth_map_d _ _ i 0) by (rewrite seq_length; exact Hi). rewrite seq_nth by exact Hi.
    apply (f_of_Z_eq_iff HP). apply H5. exact Hi.
Qed.

Theorem ps_from_grain I : In I ps_instances -> forall n, (2 ^ (Z.of_nat n - 1) <= si_p I < 2 ^ Z.of_nat n)%Z ->
  exists s,
    (exists n0, forall fuel, n0 <= fuel ->
       generate_constants_poseidon fuel n (si_t I) (si_rf I) (si_rp I) (si_p I) (grain_start 1 1 n (si_t I) (si_rf I) (si_rp I)) =
       Ok (concat (si_rc I), s)) /\
    (forall F (Fo : FOps F), is_prime_field Fo (si_p I) -> exists s1 n0, forall fuel, n0 <= fuel ->
       create_mds_p (F := F) fuel fuel n (si_t I) s = Ok (map (map f_of_Z) (si_mds I), s1)).
Proof.
  intros HI n Hn. destruct (ps_grain_all I HI) as [P [Hok [w [k [Hpr H]]]]]. pose proof (prime_ge_2 _ Hpr).
  rewrite (bitlen_unique _ _ Hn) by assumption.
  destruct (ps_grain_ok P Hok w k I Hpr H) as [s [H1 H2]]. exists s. split; [exact H1|]. intros F Fo HP.
  destruct (H2 F Fo HP) as [[s1 H3] _]. exists s1. exact H3.
Qed.

Theorem ps_shipped_mds I : In I ps_instances -> forall F (Fo : FOps F), is_prime_field Fo (si_p I) ->
  minors_nonsingular (si_t I) (entry (map (map (f_of_Z (F := F))) (si_mds I))) /\
  is_mds (si_t I) (entry (map (map (f_of_Z (F := F))) (si_mds I))).
Proof.
  intros HI F Fo HP. destruct (ps_grain_all I HI) as [P [Hok [w [k [Hpr H]]]]].
  destruct (ps_grain_ok P Hok w k I Hpr H) as [s [_ H2]]. destruct (H2 F Fo HP) as [_ H3].
  split; [exact H3|]. apply (minors_mds (prime_field_is_field HP)). exact H3.
Qed.

Section Sub.
  Context {F : Type} {Fo : FOps F} (HF : is_field Fo).
  Add Ring FringSub : (ff_ring _ HF).
  Lemma fsub_diag x : fsub x x = f0.
  Proof. ring. Qed.
  Lemma fmul_sub a x y : fmul a (fsub x y) = fsub (fmul a x) (fmul a y).
  Proof. ring. Qed.
  Lemma sumn_sub n f g : fsub (sumn n f) (sumn n g) = sumn n (fun i => fsub (f i) (g i)).
  Proof. induction n as [|n IH]; cbn [sumn]; [ring|]. rewrite <- IH. ring. Qed.
End Sub.

Theorem ps_shipped_branch I : In I ps_instances -> forall F (Fo : FOps F), is_prime_field Fo (si_p I) ->
  forall dbg x y, length x = si_t I -> length y = si_t I -> x <> y ->
  exists u v, ps_matmul dbg x (map (map (f_of_Z (F := F))) (si_mds I)) = Ok u /\ ps_matmul dbg y (map (map f_of_Z) (si_mds I)) = Ok v /\
    si_t I + 1 <= length (filter (fun i => negb (feqb (nth i x f0) (nth i y f0))) (seq 0 (si_t I))) +
                  length (filter (fun i => negb (feqb (nth i u f0) (nth i v f0))) (seq 0 (si_t I))).
Proof.
  intros HI F Fo HP dbg x y Hx Hy Hxy. pose proof (prime_field_is_field HP) as HF.
  destruct (ps_shipped_mds I HI F Fo HP) as [_ HM]. set (t := si_t I) in *.
  destruct (ProofKats.ps_all I HI) as [P [Hok [_ HC]]]. destruct (ProofInstances.ps_cert_parts P Hok I HC) as [_ [_ [_ [_ [HC' _]]]]].
  pose proof (ProofInstances.map_of_Z_dims (F := F) _ _ _ (sc_mds_shape I HC')) as HD. fold t in HD.
  set (M := map (map (f_of_Z (F := F))) (si_mds I)) in *.
  exists (mat_apply t t (entry M) x), (mat_apply t t (entry M) y).
  split; [apply (ProofPoseidon.ps_matmul_sq HF); assumption|]. split; [apply (ProofPoseidon.ps_matmul_sq HF); assumption|].
  assert (W : forall a b c : list F, length a = t -> (forall i, i < t -> nth i a f0 = fsub (nth i b f0) (nth i c f0)) ->
    length (filter (fun i => negb (feqb (nth i b f0) (nth i c f0))) (seq 0 t)) = weight a).
  { intros a b c La Ha. unfold weight.
    assert (Ea : a = map (fun i => nth i a f0) (seq 0 t)).
    { apply (nth_ext _ _ f0 f0); [rewrite map_length, seq_length; exact La|]. intros i Hi.
      rewrite (Elim.nth_map_d _ _ i 0) by (rewrite seq_length; lia). rewrite seq_nth by lia. reflexivity. }
    rewrite Ea. clear Ea.
    assert (G : forall l, (forall i, In i l -> i < t) -> length (filter (fun i => negb (feqb (nth i b f0) (nth i c f0))) l) =
      length (filter (fun z => negb (feqb z f0)) (map (fun i => nth i a f0) l))).
    { induction l as [|i l IH]; intros Hl; [reflexivity|]. cbn [filter map].
      assert (E : feqb (nth i b f0) (nth i c f0) = feqb (nth i a f0) f0).
      { rewrite Ha by (apply Hl; left; reflexivity). apply Bool.eq_true_iff_eq. rewrite !(ff_eqb _ HF). split; intros E.
        - rewrite E. apply (fsub_diag HF).
        - apply (fsub_eq_0 HF). exact E. }
      rewrite E. specialize (IH (fun j Hj => Hl j (or_intror Hj))). destruct (feqb (nth i a f0) f0); cbn [negb length]; lia. }
    apply G. intros i Hi. apply in_seq in Hi. lia. }
  set (d := map (fun i => fsub (nth i x f0) (nth i y f0)) (seq 0 t)).
  assert (Ld : length d = t) by (unfold d; rewrite map_length, seq_length; reflexivity).
  assert (Nd : forall i, i < t -> nth i d f0 = fsub (nth i x f0) (nth i y f0)).
  { intros i Hi. unfold d. rewrite (Elim.nth_map_d _ _ i 0) by (rewrite seq_length; lia). rewrite seq_nth by lia. reflexivity. }
  rewrite (W d x y Ld Nd). rewrite (W (mat_apply t t (entry M) d)).
  - apply HM; [exact Ld|]. intros E. apply Hxy. apply (nth_ext _ _ f0 f0); [lia|]. intros i Hi. apply (fsub_eq_0 HF).
    rewrite <- Nd by lia. rewrite E. destruct (nth_in_or_default i (repeat (f0 (F := F)) t) f0) as [Hin|Ed]; [apply (repeat_spec _ _ _ Hin)|exact Ed].
  - apply LinAlg.mat_apply_length.
  - intros i Hi. rewrite !LinAlg.mat_apply_nth by exact Hi. rewrite (sumn_sub HF). apply sumn_ext. intros j Hj. rewrite Nd by exact Hj. apply (fmul_sub HF).
Qed.
