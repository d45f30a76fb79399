(** * ProofGenerate: the script's generate_matrix_partial yields the shipped internal matrices *)
From Coq Require Import Znumtheory.
From Verif Require Import Base Field Spec SpecPoseidon SpecPoseidon2 SpecInstances Fp Primes LinAlg FieldPow Elim ModelInstances ModelGrain ProofGrain ProofGrain3
  ModelSubspace ModelGenerate ProofInstances CertGrainP2 ProofReject CertReject.
From Verif Require ProofKats ProofGrain4 ProofMinPoly2 ProofTrail2.
Local Open Scope nat_scope.

Lemma p2_grain_reject I : In I p2_instances -> exists w k r, p2_grain_b w k r I = true /\
  exists P Hok certs, prime (qi_p I) /\ reject_b P Hok (qi_p I) (qi_t I) r certs = true.
Proof.
  intros H. unfold p2_instances in H. cbn [In] in H.
  destruct H as [<-|H]; [exact (ex_intro _ (N.to_nat 3529) (ex_intro _ (N.to_nat 454) (ex_intro _ rejected_POSEIDON2_BABYBEAR_16_PARAMS (conj grain_POSEIDON2_BABYBEAR_16_PARAMS
    (ex_intro _ P_babybear (ex_intro _ P_babybear_ok (ex_intro _ _ (conj prime_babybear reject_POSEIDON2_BABYBEAR_16_PARAMS))))))))|].
  destruct H as [<-|H]; [exact (ex_intro _ (N.to_nat 2720) (ex_intro _ (N.to_nat 347) (ex_intro _ rejected_POSEIDON2_BABYBEAR_24_PARAMS (conj grain_POSEIDON2_BABYBEAR_24_PARAMS
    (ex_intro _ P_babybear (ex_intro _ P_babybear_ok (ex_intro _ _ (conj prime_babybear reject_POSEIDON2_BABYBEAR_24_PARAMS))))))))|].
  destruct H as [<-|H]; [exact (ex_intro _ (N.to_nat 4772) (ex_intro _ (N.to_nat 75) (ex_intro _ rejected_POSEIDON2_BLS_2_PARAMS (conj grain_POSEIDON2_BLS_2_PARAMS
    (ex_intro _ P_bls12 (ex_intro _ P_bls12_ok (ex_intro _ _ (conj prime_bls12 reject_POSEIDON2_BLS_2_PARAMS))))))))|].
  destruct H as [<-|H]; [exact (ex_intro _ (N.to_nat 6010) (ex_intro _ (N.to_nat 94) (ex_intro _ rejected_POSEIDON2_BLS_3_PARAMS (conj grain_POSEIDON2_BLS_3_PARAMS
    (ex_intro _ P_bls12 (ex_intro _ P_bls12_ok (ex_intro _ _ (conj prime_bls12 reject_POSEIDON2_BLS_3_PARAMS))))))))|].
  destruct H as [<-|H]; [exact (ex_intro _ (N.to_nat 6602) (ex_intro _ (N.to_nat 104) (ex_intro _ rejected_POSEIDON2_BLS_4_PARAMS (conj grain_POSEIDON2_BLS_4_PARAMS
    (ex_intro _ P_bls12 (ex_intro _ P_bls12_ok (ex_intro _ _ (conj prime_bls12 reject_POSEIDON2_BLS_4_PARAMS))))))))|].
  destruct H as [<-|H]; [exact (ex_intro _ (N.to_nat 13076) (ex_intro _ (N.to_nat 205) (ex_intro _ rejected_POSEIDON2_BLS_8_PARAMS (conj grain_POSEIDON2_BLS_8_PARAMS
    (ex_intro _ P_bls12 (ex_intro _ P_bls12_ok (ex_intro _ _ (conj prime_bls12 reject_POSEIDON2_BLS_8_PARAMS))))))))|].
  destruct H as [<-|H]; [exact (ex_intro _ (N.to_nat 6325) (ex_intro _ (N.to_nat 100) (ex_intro _ rejected_POSEIDON2_BN256_PARAMS (conj grain_POSEIDON2_BN256_PARAMS
    (ex_intro _ P_bn256 (ex_intro _ P_bn256_ok (ex_intro _ _ (conj prime_bn256 reject_POSEIDON2_BN256_PARAMS))))))))|].
  destruct H as [<-|H]; [exact (ex_intro _ (N.to_nat 1882) (ex_intro _ (N.to_nat 118) (ex_intro _ rejected_POSEIDON2_GOLDILOCKS_8_PARAMS (conj grain_POSEIDON2_GOLDILOCKS_8_PARAMS
    (ex_intro _ P_goldilocks (ex_intro _ P_goldilocks_ok (ex_intro _ _ (conj prime_goldilocks reject_POSEIDON2_GOLDILOCKS_8_PARAMS))))))))|].
  destruct H as [<-|H]; [exact (ex_intro _ (N.to_nat 3611) (ex_intro _ (N.to_nat 226) (ex_intro _ rejected_POSEIDON2_GOLDILOCKS_12_PARAMS (conj grain_POSEIDON2_GOLDILOCKS_12_PARAMS
    (ex_intro _ P_goldilocks (ex_intro _ P_goldilocks_ok (ex_intro _ _ (conj prime_goldilocks reject_POSEIDON2_GOLDILOCKS_12_PARAMS))))))))|].
  destruct H as [<-|H]; [exact (ex_intro _ (N.to_nat 14478) (ex_intro _ (N.to_nat 902) (ex_intro _ rejected_POSEIDON2_GOLDILOCKS_16_PARAMS (conj grain_POSEIDON2_GOLDILOCKS_16_PARAMS
    (ex_intro _ P_goldilocks (ex_intro _ P_goldilocks_ok (ex_intro _ _ (conj prime_goldilocks reject_POSEIDON2_GOLDILOCKS_16_PARAMS))))))))|].
  destruct H as [<-|H]; [exact (ex_intro _ (N.to_nat 5132) (ex_intro _ (N.to_nat 322) (ex_intro _ rejected_POSEIDON2_GOLDILOCKS_20_PARAMS (conj grain_POSEIDON2_GOLDILOCKS_20_PARAMS
    (ex_intro _ P_goldilocks (ex_intro _ P_goldilocks_ok (ex_intro _ _ (conj prime_goldilocks reject_POSEIDON2_GOLDILOCKS_20_PARAMS))))))))|].
  destruct H as [<-|H]; [exact (ex_intro _ (N.to_nat 11311) (ex_intro _ (N.to_nat 177) (ex_intro _ rejected_POSEIDON2_PALLAS_3_PARAMS (conj grain_POSEIDON2_PALLAS_3_PARAMS
    (ex_intro _ P_pallas (ex_intro _ P_pallas_ok (ex_intro _ _ (conj prime_pallas reject_POSEIDON2_PALLAS_3_PARAMS))))))))|].
  destruct H as [<-|H]; [exact (ex_intro _ (N.to_nat 10774) (ex_intro _ (N.to_nat 170) (ex_intro _ rejected_POSEIDON2_PALLAS_4_PARAMS (conj grain_POSEIDON2_PALLAS_4_PARAMS
    (ex_intro _ P_pallas (ex_intro _ P_pallas_ok (ex_intro _ _ (conj prime_pallas reject_POSEIDON2_PALLAS_4_PARAMS))))))))|].
  destruct H as [<-|H]; [exact (ex_intro _ (N.to_nat 19259) (ex_intro _ (N.to_nat 302) (ex_intro _ rejected_POSEIDON2_PALLAS_8_PARAMS (conj grain_POSEIDON2_PALLAS_8_PARAMS
    (ex_intro _ P_pallas (ex_intro _ P_pallas_ok (ex_intro _ _ (conj prime_pallas reject_POSEIDON2_PALLAS_8_PARAMS))))))))|].
  destruct H as [<-|H]; [exact (ex_intro _ (N.to_nat 11311) (ex_intro _ (N.to_nat 177) (ex_intro _ rejected_POSEIDON2_VESTA_PARAMS (conj grain_POSEIDON2_VESTA_PARAMS
    (ex_intro _ P_vesta (ex_intro _ P_vesta_ok (ex_intro _ _ (conj prime_vesta reject_POSEIDON2_VESTA_PARAMS))))))))|].
  destruct H.
Qed.

Lemma generate_matrix_partial_ge4 {F} {Fo : FOps F} fuel n t s (M : list (list F)) s' : 4 <= t ->
  (generate_matrix_partial fuel n t s M s' <->
   draw_partial fuel n t s M s' /\ algorithm_1 (entry M) t /\ algorithm_2 (entry M) t /\ algorithm_3 (entry M) t).
Proof. intros Ht. destruct t as [|[|[|[|t]]]]; try lia. reflexivity. Qed.

Section Draw.
  Context {F : Type} {Fo : FOps F}.

  Lemma draw_accept_iff fuel n t s l s1 : grain_list fuel n t s = Ok (l, s1) -> check_minpoly_condition t (entry (partial_matrix (F := F) t l)) ->
    forall M s', draw_partial fuel n t s M s' <-> M = partial_matrix t l /\ s' = s1.
  Proof.
    intros H HA M s'. split.
    - intros G. inversion G as [s0 l0 s2 E A|s0 l0 s2 M2 s3 E A R]; subst; rewrite H in E; injection E as <- <-; [split; reflexivity|contradiction].
    - intros [-> ->]. exact (draw_accept _ _ _ _ _ _ H HA).
  Qed.
  Lemma draw_reject_iff fuel n t s l s1 : grain_list fuel n t s = Ok (l, s1) -> ~ check_minpoly_condition t (entry (partial_matrix (F := F) t l)) ->
    forall M s', draw_partial fuel n t s M s' <-> draw_partial fuel n t s1 M s'.
  Proof.
    intros H HA M s'. split.
    - intros G. inversion G as [s0 l0 s2 E A|s0 l0 s2 M2 s3 E A R]; subst; rewrite H in E; injection E as <- <-; [contradiction|assumption].
    - intros G. exact (draw_reject _ _ _ _ _ _ _ _ H HA G).
  Qed.
  Lemma chain_draw n t l s1 R : forall s s0, chain n t s R s0 -> ev (fun fuel => grain_list fuel n t s0) (l, s1) ->
    (forall g, In g R -> ~ check_minpoly_condition t (entry (partial_matrix (F := F) t g))) ->
    check_minpoly_condition t (entry (partial_matrix (F := F) t l)) ->
    exists n0, forall fuel, n0 <= fuel -> forall M s', draw_partial fuel n t s M s' <-> M = partial_matrix t l /\ s' = s1.
  Proof.
    induction R as [|g R IH]; intros s s0 HC HG HR HA; cbn [chain] in HC.
    - subst s0. destruct HG as [n0 H0]. exists n0. intros fuel Hf. apply draw_accept_iff; [apply H0; exact Hf|exact HA].
    - destruct HC as [s2 [[n1 H1] H2]]. destruct (IH s2 s0 H2 HG (fun x Hx => HR x (or_intror Hx)) HA) as [n0 H0].
      exists (n0 + n1). intros fuel Hf M s'. rewrite (draw_reject_iff fuel n t s g s2 (H1 fuel ltac:(lia)) (HR g (or_introl eq_refl)) M s').
      apply H0. lia.
  Qed.
End Draw.

Lemma matrix_eq {F} {Fo : FOps F} t (A B : list (list F)) : length A = t -> length B = t ->
  (forall i, i < t -> length (nth i A []) = t) -> (forall i, i < t -> length (nth i B []) = t) ->
  (forall i j, i < t -> j < t -> entry A i j = entry B i j) -> A = B.
Proof.
  intros LA LB RA RB E. apply (nth_ext _ _ [] []); [lia|]. rewrite LA. intros i Hi.
  apply (nth_ext _ _ f0 f0); [rewrite RA, RB by exact Hi; reflexivity|]. rewrite RA by exact Hi. intros j Hj. apply E; assumption.
Qed.

Lemma p2_matrix_shape I : In I p2_instances -> forall F (Fo : FOps F), length (map (map (f_of_Z (F := F))) (qi_mat I)) = qi_t I /\
  forall i, i < qi_t I -> length (nth i (map (map (f_of_Z (F := F))) (qi_mat I)) []) = qi_t I.
Proof.
  intros HI F Fo. destruct (ProofKats.p2_shipped_consistent I HI) as [HC _]. destruct (pc_mat_shape _ HC) as [S1 S2].
  split; [rewrite map_length; exact S1|]. intros i Hi. rewrite (nth_map_d _ _ i []) by lia. rewrite map_length. apply S2, nth_In. lia.
Qed.
Lemma p2_matrix_entry I : In I p2_instances -> forall F (Fo : FOps F), is_prime_field Fo (qi_p I) -> forall i j, i < qi_t I -> j < qi_t I ->
  entry (map (map (f_of_Z (F := F))) (qi_mat I)) i j = if i =? j then f_of_Z (zentry (qi_mat I) i i) else f1.
Proof.
  intros HI F Fo HP i j Hi Hj. destruct (ProofKats.p2_shipped_consistent I HI) as [HC _]. destruct (pc_mat_shape _ HC) as [S1 S2].
  unfold entry. rewrite (nth_map_d _ _ i []) by lia. rewrite (nth_map_d _ _ j 0%Z) by (rewrite (S2 _ (nth_In _ _ ltac:(rewrite S1; exact Hi))); exact Hj).
  fold (zentry (qi_mat I) i j). destruct (Nat.eqb_spec i j) as [->|N]; [reflexivity|].
  rewrite (pc_internal _ HC) by assumption. apply Nat.eqb_neq in N. rewrite N. rewrite <- (f_of_Z_1 HP). apply (f_of_Z_eq_iff HP).
  apply Zmod_mod.
Qed.

Theorem p2_generate_matrix_partial I : In I p2_instances -> forall n, (2 ^ (Z.of_nat n - 1) <= qi_p I < 2 ^ Z.of_nat n)%Z ->
  exists s,
    (exists n0, forall fuel, n0 <= fuel ->
       generate_constants fuel n (qi_t I) (qi_rf I) (qi_rp I) (qi_p I) (grain_start 1 0 n (qi_t I) (qi_rf I) (qi_rp I)) =
       Ok (concat (qi_rc I), s)) /\
    (forall F (Fo : FOps F), is_prime_field Fo (qi_p I) -> exists s1 n0, forall fuel, n0 <= fuel -> forall M' s',
       generate_matrix_partial (F := F) fuel n (qi_t I) s M' s' <-> M' = map (map f_of_Z) (qi_mat I) /\ s' = s1).
Proof.
  intros HI n Hn. destruct (p2_grain_reject I HI) as [w [k [r [H [P [Hok [certs [Hpr HR]]]]]]]]. pose proof (prime_ge_2 _ Hpr).
  rewrite (ProofGrain4.bitlen_unique _ _ Hn) by assumption.
  destruct (p2_grain_ok w k r I H) as [s [H1 H2]]. exists s. split; [exact H1|]. intros F Fo HP.
  pose proof (ProofTrail2.p2_algorithms I HI F Fo HP) as HA. cbn zeta in HA.
  destruct (p2_matrix_shape I HI F Fo) as [SL SR]. pose proof (p2_matrix_entry I HI F Fo HP) as SE.
  pose proof (ProofMinPoly2.p2_width_ge2 I HI) as W. destruct (ProofKats.p2_shipped_consistent I HI) as [HC _].
  destruct (Nat.lt_ge_cases (qi_t I) 4) as [L4|G4].
  - exists s, 0. intros fuel _ M' s'.
    assert (Eg : qi_t I = 2 \/ qi_t I = 3) by lia.
    assert (EM : forall N, length N = qi_t I -> (forall i, i < qi_t I -> length (nth i N []) = qi_t I) ->
      (forall i j, i < qi_t I -> j < qi_t I -> nth j (nth i N []) 0%Z = if i =? j then (1 + nth i (qi_diag I) 0)%Z else 1%Z) ->
      map (map (f_of_Z (F := F))) (qi_mat I) = map (map f_of_Z) N).
    { intros N LN RN EN. apply (matrix_eq (qi_t I)); try assumption; [rewrite map_length; exact LN| |].
      - intros i Hi. rewrite (nth_map_d _ _ i []) by lia. rewrite map_length. apply RN. exact Hi.
      - intros i j Hi Hj. destruct (pc_mat_shape _ HC) as [S1 S2]. unfold entry. rewrite !(nth_map_d _ _ i []) by lia.
        rewrite !(nth_map_d _ _ j 0%Z) by (rewrite ?RN by exact Hi; rewrite ?(S2 _ (nth_In _ _ ltac:(rewrite S1; exact Hi))); exact Hj).
        fold (zentry (qi_mat I) i j). rewrite (pc_internal _ HC), EN by assumption. apply (f_of_Z_eq_iff HP). apply Zmod_mod. }
    destruct Eg as [Eg|Eg].
    + specialize (EM [[2; 1]; [1; 3]]%Z). lapply EM; [clear EM; intros EM; lapply EM; [clear EM; intros EM; lapply EM; [clear EM; intros EM|]|]|].
      * rewrite EM in *. rewrite Eg in *. cbn [generate_matrix_partial]. split; [intros [[-> ->] _]; split; reflexivity|].
        intros [-> ->]. split; [split; reflexivity|]. exact HA.
      * rewrite (pc_diag2 _ HC Eg), Eg. intros [|[|i]] [|[|j]] Hi Hj; try lia; reflexivity.
      * rewrite Eg. intros [|[|i]] Hi; try lia; reflexivity.
      * rewrite Eg. reflexivity.
    + specialize (EM [[2; 1; 1]; [1; 2; 1]; [1; 1; 3]]%Z). lapply EM; [clear EM; intros EM; lapply EM; [clear EM; intros EM; lapply EM; [clear EM; intros EM|]|]|].
      * rewrite EM in *. rewrite Eg in *. cbn [generate_matrix_partial]. split; [intros [[-> ->] _]; split; reflexivity|].
        intros [-> ->]. split; [split; reflexivity|]. exact HA.
      * rewrite (pc_diag3 _ HC Eg), Eg. intros [|[|[|i]]] [|[|[|j]]] Hi Hj; try lia; reflexivity.
      * rewrite Eg. intros [|[|[|i]]] Hi; try lia; reflexivity.
      * rewrite Eg. reflexivity.
  - destruct (H2 G4) as [s0 [g [s1 [C1 [C2 [Lg C3]]]]]]. exists s1.
    assert (EM : partial_matrix (F := F) (qi_t I) g = map (map f_of_Z) (qi_mat I)).
    { destruct (partial_matrix_row (F := F) (qi_t I) g) as [P1 P2]; [lia|exact Lg|].
      apply (matrix_eq (qi_t I)); try assumption. intros i j Hi Hj. rewrite (partial_matrix_entry HP) by assumption. rewrite SE by assumption.
      destruct (i =? j); [|reflexivity]. apply (f_of_Z_eq_iff HP). apply C3. exact Hi. }
    assert (Ac : check_minpoly_condition (qi_t I) (entry (partial_matrix (F := F) (qi_t I) g))).
    { rewrite EM. apply (ProofMinPoly2.p2_minimal_polynomials I HI); [lia|exact HP]. }
    destruct (chain_draw _ _ g s1 r s s0 C1 C2 (fun x Hx => reject_ok P Hok _ _ r certs Hpr HR x Hx F Fo HP) Ac) as [n0 HD].
    exists n0. intros fuel Hf M' s'. rewrite generate_matrix_partial_ge4 by exact G4. rewrite (HD fuel Hf M' s'), EM. split.
    + intros [E _]. exact E.
    + intros [-> ->]. split; [split; reflexivity|exact HA].
Qed.
