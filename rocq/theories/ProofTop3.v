(** * ProofTop3: in the shipped instances over the fields of about 255 bits every output word has the full degree in every input word *)
From Coq Require Import Znumtheory Uint63.
From Verif Require Import Base Field Spec FieldPow SpecPoly SpecTop LinAlg PolyFun TopCoef ProofDegree ProofZeroSum SpecPoseidon2 SpecPoseidon
  Fp Primes ModelPoseidon2 ModelPoseidon ModelFields ModelInstances SpecInstances Transfer TransferRef ProofInstances ProofKats ProofTop ProofTop2.
Local Open Scope nat_scope.

Section Homogeneous.
  Context {F : Type} {Fo : FOps F} (HF : is_field Fo).
  Add Ring FringHm : (ff_ring _ HF).
  Definition scale (s : F) (l : list F) : list F := map (fmul s) l.
  Lemma scale_nth s l i : nth i (scale s l) f0 = fmul s (nth i l f0).
  Proof. unfold scale. replace (f0 : F) with (fmul s f0) at 1 by ring. apply map_nth. Qed.
  Lemma mat_apply_scale n m M s l : mat_apply n m M (scale s l) = scale s (mat_apply n m M l).
  Proof.
    unfold mat_apply, scale at 2. rewrite map_map. apply map_ext. intros i. rewrite <- (sumn_mul_l HF). apply sumn_ext. intros j _. rewrite scale_nth. ring.
  Qed.
  Lemma top_full_scale t d M s l : top_full t d M (scale s l) = scale (fpow s d) (top_full t d M l).
  Proof.
    unfold top_full. rewrite <- mat_apply_scale. f_equal. unfold scale at 2. rewrite map_map. apply map_ext. intros i. rewrite scale_nth. apply (fpow_mul_base HF).
  Qed.
  Lemma top_pairs_scale t M s l : top_pairs t M (scale s l) = scale (fpow s 4) (top_pairs t M l).
  Proof.
    unfold top_pairs. rewrite <- mat_apply_scale. f_equal. unfold scale at 3. rewrite map_map. apply map_ext. intros i. rewrite !scale_nth.
    rewrite <- (fpow_mul_base HF). f_equal. ring.
  Qed.
  Lemma iter_scale (T : list F -> list F) m : (forall s l, T (scale s l) = scale (fpow s m) (T l)) ->
    forall n s l, Nat.iter n T (scale s l) = scale (fpow s (m ^ n)) (Nat.iter n T l).
  Proof.
    intros H n s l. induction n as [|n IH].
    - cbn [Nat.iter nat_rect Nat.pow fpow]. f_equal. ring.
    - change (T (Nat.iter n T (scale s l)) = scale (fpow s (m ^ S n)) (T (Nat.iter n T l))). rewrite IH, H, <- (fpow_mul HF), Nat.pow_succ_r', (Nat.mul_comm m). reflexivity.
  Qed.
  Definition col0 (t : nat) (M : @mat F) : list F := map (fun i => M i 0) (seq 0 t).
  Lemma top_part_col t d M l : top_part t d M l = scale (fpow (nth 0 l f0) d) (col0 t M).
  Proof. unfold top_part, scale, col0. cbv zeta. rewrite map_map. apply map_ext. intros i. ring. Qed.
  Lemma parts_col t d M l k : 1 <= t -> M 0 0 <> f0 -> nth 0 l f0 <> f0 -> 1 <= k ->
    exists s, s <> f0 /\ Nat.iter k (top_part t d M) l = scale s (col0 t M).
  Proof.
    intros Ht HM Hl. induction k as [|[|k] IH]; intros Hk; [lia| |].
    - exists (fpow (nth 0 l f0) d). split; [apply (fpow_neq_0 HF), Hl|]. apply top_part_col.
    - destruct IH as [s [Ns Es]]; [lia|]. exists (fpow (nth 0 (scale s (col0 t M)) f0) d). split.
      + apply (fpow_neq_0 HF). rewrite scale_nth. unfold col0. rewrite nth_map_seq_d. destruct (Nat.ltb_spec 0 t); [|lia].
        intros E. destruct (fmul_integral HF _ _ E); contradiction.
      + change (top_part t d M (Nat.iter (S k) (top_part t d M) l) = scale (fpow (nth 0 (scale s (col0 t M)) f0) d) (col0 t M)). rewrite Es. apply top_part_col.
  Qed.
  Theorem tops_nonzero t d h k m T (M : @mat F) l i : (forall s l, T (scale s l) = scale (fpow s m) (T l)) ->
    1 <= t -> 1 <= k -> M 0 0 <> f0 -> nth 0 (Nat.iter h T l) f0 <> f0 -> nth i (Nat.iter h T (col0 t M)) f0 <> f0 ->
    nth i (top_rounds h k T (top_part t d M) l) f0 <> f0.
  Proof.
    intros HT Ht Hk HM H0 Hi. unfold top_rounds. destruct (parts_col t d M (Nat.iter h T l) k Ht HM H0 Hk) as [s [Ns ->]].
    rewrite (iter_scale T m HT), scale_nth. intros E. destruct (fmul_integral HF _ _ E) as [E'|E']; [|contradiction].
    revert E'. apply (fpow_neq_0 HF), Ns.
  Qed.
End Homogeneous.

Section TopPhi.
  Context {F : Type} {Fo : FOps F} {G : Type} {Go : FOps G} {p : Z} (HPF : is_prime_field Fo p) (HPG : is_prime_field Go p).
  Local Notation phi := (phi (F := F) (G := G)).

  Lemma top_full_phi t d (M : nat -> nat -> F) (N : nat -> nat -> G) l : (forall i j, i < t -> j < t -> N i j = phi (M i j)) ->
    top_full t d N (map phi l) = map phi (top_full t d M l).
  Proof.
    intros E. unfold top_full. rewrite <- (mat_apply_phi HPF HPG t t M N) by exact E. f_equal. rewrite map_map. apply map_ext. intros i.
    rewrite (phi_nth HPF HPG), (phi_fpow HPF HPG). reflexivity.
  Qed.
  Lemma top_part_phi t d (M : nat -> nat -> F) (N : nat -> nat -> G) l : (forall i j, i < t -> j < t -> N i j = phi (M i j)) ->
    top_part t d N (map phi l) = map phi (top_part t d M l).
  Proof.
    intros E. unfold top_part. cbv zeta. rewrite map_map. apply map_ext_in. intros i Hi. apply in_seq in Hi.
    rewrite (phi_nth HPF HPG), (phi_mul HPF HPG), (phi_fpow HPF HPG), E by lia. reflexivity.
  Qed.
  Lemma iter_phi n (f : list F -> list F) (g : list G -> list G) : (forall l, g (map phi l) = map phi (f l)) ->
    forall l, Nat.iter n g (map phi l) = map phi (Nat.iter n f l).
  Proof. intros E l. induction n as [|n IH]; [reflexivity|]. change (g (Nat.iter n g (map phi l)) = map phi (f (Nat.iter n f l))). rewrite IH. apply E. Qed.
  Lemma unit_word_phi t j : unit_word (F := G) t j = map phi (unit_word t j).
  Proof. unfold unit_word. rewrite map_map. apply map_ext. intros i. destruct (i =? j); [rewrite (phi_1 HPF HPG)|rewrite (phi_0 HPF HPG)]; reflexivity. Qed.
  Lemma top_rounds_phi h k f f' g g' : (forall l, f' (map phi l) = map phi (f l)) -> (forall l, g' (map phi l) = map phi (g l)) ->
    forall l, top_rounds h k f' g' (map phi l) = map phi (top_rounds h k f g l).
  Proof. intros E1 E2 l. unfold top_rounds. rewrite (iter_phi h f f' E1), (iter_phi k g g' E2), (iter_phi h f f' E1). reflexivity. Qed.
  Lemma p2_top_phi t d rf rp diag b : p2_top t d rf rp (map phi diag) (map phi b) = map phi (p2_top t d rf rp diag b).
  Proof.
    unfold p2_top. rewrite (mat_apply_phi HPF HPG t t (ext_matrix t) (ext_matrix t)) by (intros; apply (ext_matrix_phi HPF HPG)).
    apply top_rounds_phi; intros l.
    - apply top_full_phi. intros; apply (ext_matrix_phi HPF HPG).
    - apply top_part_phi. intros; apply (int_matrix_phi HPF HPG).
  Qed.
  Lemma ps_top_phi t d rf rp (M : nat -> nat -> F) (N : nat -> nat -> G) b : (forall i j, i < t -> j < t -> N i j = phi (M i j)) ->
    ps_top t d rf rp N (map phi b) = map phi (ps_top t d rf rp M b).
  Proof. intros E. unfold ps_top. apply top_rounds_phi; intros l; [apply top_full_phi|apply top_part_phi]; exact E. Qed.
End TopPhi.

Section Check.
  Variable P : mparams.
  Hypothesis Hok : params_ok P = true.
  Let FO := fp_ops P Hok.
  Local Notation nz y := (negb (feqb (FOps := FO) y (f0 (FOps := FO)))).
  (** the first word after the first half, the corner of the matrix of the partial rounds, and the second half from its first column *)
  Definition all_words (t h k : nat) (T : list (Fp P) -> list (Fp P)) (start : nat -> list (Fp P)) (M : nat -> nat -> Fp P) : bool :=
    (1 <=? t) && (1 <=? k) && nz (M 0 0) && forallb (fun j => nz (nth 0 (Nat.iter h T (start j)) (f0 (FOps := FO)))) (seq 0 t) &&
    (let l := Nat.iter h T (col0 t M) in (length l =? t) && forallb (fun y => nz y) l).
  Definition p2_words (I : p2_instance) : bool := (pz P =? qi_p I)%Z && (2 <? qi_p I)%Z &&
    all_words (qi_t I) (qi_rf I / 2) (qi_rp I) (top_full (Fo := FO) (qi_t I) (qi_d I) (ext_matrix (Fo := FO) (qi_t I)))
      (fun j => mat_apply (Fo := FO) (qi_t I) (qi_t I) (ext_matrix (Fo := FO) (qi_t I)) (unit_word (Fo := FO) (qi_t I) j))
      (int_matrix (Fo := FO) (qi_t I) (map (f_of_Z (FOps := FO)) (qi_diag I))).
  Definition ps_words (I : ps_instance) : bool := (pz P =? si_p I)%Z && (2 <? si_p I)%Z &&
    (let m := map (map (f_of_Z (FOps := FO))) (si_mds I) in
     all_words (si_t I) (si_rf I / 2) (si_rp I) (top_full (Fo := FO) (si_t I) (si_d I) (entry (Fo := FO) m)) (unit_word (Fo := FO) (si_t I)) (entry (Fo := FO) m)).

  Lemma nz_ok p (HPc : is_prime_field FO p) y : nz y = true -> y <> f0 (FOps := FO).
  Proof. intros H ->. rewrite (feqb_refl (prime_field_is_field HPc)) in H. discriminate H. Qed.
  Lemma all_words_ok p (HPc : is_prime_field FO p) t d m h k T start M : (forall s l, T (scale (Fo := FO) s l) = scale (Fo := FO) (fpow (Fo := FO) s m) (T l)) ->
    all_words t h k T start M = true ->
    forall j i, j < t -> i < t -> nth i (top_rounds h k T (top_part (Fo := FO) t d M) (start j)) (f0 (FOps := FO)) <> f0 (FOps := FO).
  Proof.
    intros HT H j i Hj Hi. unfold all_words in H. cbv zeta in H. rewrite !andb_true_iff, !forallb_forall in H. destruct H as [[[[H1 H2] H3] H4] [H5 H6]].
    apply Nat.leb_le in H1, H2. apply Nat.eqb_eq in H5.
    apply (tops_nonzero (prime_field_is_field HPc) t d h k m T M (start j) i HT H1 H2).
    - apply (nz_ok p HPc), H3.
    - apply (nz_ok p HPc), (H4 j), in_seq. lia.
    - apply (nz_ok p HPc), H6, nth_In. rewrite H5. exact Hi.
  Qed.

  Theorem p2_words_ok I : In I p2_instances -> (2 ^ 200 < qi_p I)%Z -> prime (qi_p I) -> p2_words I = true ->
    forall F (Fo : FOps F), is_prime_field Fo (qi_p I) -> forall dbg,
    exists Q, p2_instance_params dbg I = Ok Q /\ word_degree (qi_t I) (qi_d I ^ (qi_rf I + qi_rp I)) (p2_permutation dbg Q).
  Proof.
    intros HI Big Hpr H F Fo HP dbg. unfold p2_words in H. rewrite !andb_true_iff in H. destruct H as [[Ep H2] HE].
    apply Z.eqb_eq in Ep. apply Z.ltb_lt in H2.
    assert (HPc : is_prime_field FO (qi_p I)) by (rewrite <- Ep; apply fp_is_prime_field; rewrite Ep; [exact Hpr|lia]).
    assert (N : forall j i, j < qi_t I -> i < qi_t I -> nth i (p2_top (Fo := FO) (qi_t I) (qi_d I) (qi_rf I) (qi_rp I) (map (f_of_Z (FOps := FO)) (qi_diag I))
      (unit_word (Fo := FO) (qi_t I) j)) (f0 (FOps := FO)) <> f0 (FOps := FO)) by exact (all_words_ok _ HPc _ (qi_d I) (qi_d I) _ _ _ _ _ (top_full_scale (prime_field_is_field HPc) _ _ _) HE).
    destruct (p2_shipped_ref I HI F Fo HP dbg) as [Q [HQ HR]]. exists Q. split; [exact HQ|].
    destruct (p2_shipped_consistent I HI) as [_ [HA _]]. destruct HA as [Hd He Hw Hp1 Hg Hov].
    pose proof (proj1 (forallb_forall _ _) p2_low_all I HI) as C. unfold p2_low in C. apply Z.ltb_lt in Big. rewrite Big in C. cbn [negb orb] in C.
    apply andb_true_iff in C. destruct C as [C1 C2]. apply Nat.leb_le in C1. apply Z.ltb_lt in C2. apply pow_lt_Z in C2.
    pose proof (prime_field_is_field HP) as HF.
    apply (exact_words F Fo _ _ _ (p2_top (qi_t I) (qi_d I) (qi_rf I) (qi_rp I) (map f_of_Z (qi_diag I)))).
    - apply (top_line_exact F Fo _ HP); [|apply pow_pos, C1|lia].
      apply (top_of_ref HF _ _ _ _ _ HR). intros s L Hs. apply (p2_tops HF); [apply sbox_two, Hd|exact He|exact Hs].
    - intros j i Hj Hi E. apply (N j i Hj Hi). apply (phi_inj HPc HP). rewrite (phi_0 HPc HP), <- (phi_nth HPc HP), <- (p2_top_phi HPc HP), <- (unit_word_phi HPc HP), (map_phi_of_Z HPc HP). exact E.
  Qed.
  Theorem ps_words_ok I : In I ps_instances -> (2 ^ 200 < si_p I)%Z -> prime (si_p I) -> ps_words I = true ->
    forall F (Fo : FOps F), is_prime_field Fo (si_p I) -> forall dbg,
    exists Q, ps_instance_params dbg I = Ok Q /\ word_degree (si_t I) (si_d I ^ (si_rf I + si_rp I)) (ps_permutation dbg Q).
  Proof.
    intros HI Big Hpr H F Fo HP dbg. unfold ps_words in H. rewrite !andb_true_iff in H. destruct H as [[Ep H2] HE].
    apply Z.eqb_eq in Ep. apply Z.ltb_lt in H2. cbv zeta in HE.
    assert (HPc : is_prime_field FO (si_p I)) by (rewrite <- Ep; apply fp_is_prime_field; rewrite Ep; [exact Hpr|lia]).
    assert (N : forall j i, j < si_t I -> i < si_t I -> nth i (ps_top (Fo := FO) (si_t I) (si_d I) (si_rf I) (si_rp I) (entry (Fo := FO) (map (map (f_of_Z (FOps := FO))) (si_mds I)))
      (unit_word (Fo := FO) (si_t I) j)) (f0 (FOps := FO)) <> f0 (FOps := FO)) by exact (all_words_ok _ HPc _ (si_d I) (si_d I) _ _ _ _ _ (top_full_scale (prime_field_is_field HPc) _ _ _) HE).
    destruct (ps_all I HI) as [P' [Hok' [_ HC']]]. destruct (ps_cert_parts P' Hok' I HC') as [_ [_ [_ [HA [HC _]]]]]. destruct HA as [Hd He Hw Hp1 Hg Hov].
    destruct (ps_shipped_permutation I HI) as [_ HS]. destruct (HS F Fo HP dbg) as [Q [HQ [HR _]]]. exists Q. split; [exact HQ|].
    pose proof (proj1 (forallb_forall _ _) ps_low_all I HI) as C. unfold ps_low in C. apply Z.ltb_lt in Big. rewrite Big in C. cbn [negb orb] in C.
    apply andb_true_iff in C. destruct C as [C1 C2]. apply Nat.leb_le in C1. apply Z.ltb_lt in C2. apply pow_lt_Z in C2.
    pose proof (prime_field_is_field HP) as HF.
    apply (exact_words F Fo _ _ _ (ps_top (si_t I) (si_d I) (si_rf I) (si_rp I) (entry (map (map f_of_Z) (si_mds I))))).
    - apply (top_line_exact F Fo _ HP); [|apply pow_pos, C1|lia].
      apply (top_of_ref HF _ _ _ _ _ (fun x Lx => proj2 (HR x Lx))). intros s L Hs. apply (ps_tops HF); [apply sbox_two, Hd|exact He|exact Hs].
    - intros j i Hj Hi E. apply (N j i Hj Hi). apply (phi_inj HPc HP). rewrite (phi_0 HPc HP), <- (phi_nth HPc HP).
      rewrite <- (ps_top_phi HPc HP _ _ _ _ _ (entry (map (map (f_of_Z (F := F))) (si_mds I)))).
      + rewrite <- (unit_word_phi HPc HP). exact E.
      + intros i' j' Hi' Hj'. apply (entry_transfer HPc HP _ (si_t I) (si_t I)); try assumption.
        * apply (sc_mds_shape I HC).
        * intros k Hk. apply (shape_nth _ _ _ k (sc_mds_shape I HC) Hk).
  Qed.
End Check.

Lemma words_POSEIDON2_BLS_2_PARAMS : p2_words P_bls12 P_bls12_ok POSEIDON2_BLS_2_PARAMS = true.
Proof. vm_cast_no_check (eq_refl true). Qed.
Lemma words_POSEIDON2_BLS_3_PARAMS : p2_words P_bls12 P_bls12_ok POSEIDON2_BLS_3_PARAMS = true.
Proof. vm_cast_no_check (eq_refl true). Qed.
Lemma words_POSEIDON2_BLS_4_PARAMS : p2_words P_bls12 P_bls12_ok POSEIDON2_BLS_4_PARAMS = true.
Proof. vm_cast_no_check (eq_refl true). Qed.
Lemma words_POSEIDON2_BLS_8_PARAMS : p2_words P_bls12 P_bls12_ok POSEIDON2_BLS_8_PARAMS = true.
Proof. vm_cast_no_check (eq_refl true). Qed.
Lemma words_POSEIDON2_BN256_PARAMS : p2_words P_bn256 P_bn256_ok POSEIDON2_BN256_PARAMS = true.
Proof. vm_cast_no_check (eq_refl true). Qed.
Lemma words_POSEIDON2_PALLAS_3_PARAMS : p2_words P_pallas P_pallas_ok POSEIDON2_PALLAS_3_PARAMS = true.
Proof. vm_cast_no_check (eq_refl true). Qed.
Lemma words_POSEIDON2_PALLAS_4_PARAMS : p2_words P_pallas P_pallas_ok POSEIDON2_PALLAS_4_PARAMS = true.
Proof. vm_cast_no_check (eq_refl true). Qed.
Lemma words_POSEIDON2_PALLAS_8_PARAMS : p2_words P_pallas P_pallas_ok POSEIDON2_PALLAS_8_PARAMS = true.
Proof. vm_cast_no_check (eq_refl true). Qed.
Lemma words_POSEIDON2_VESTA_PARAMS : p2_words P_vesta P_vesta_ok POSEIDON2_VESTA_PARAMS = true.
Proof. vm_cast_no_check (eq_refl true). Qed.
Theorem p2_shipped_words : forall I, In I p2_instances -> (2 ^ 200 < qi_p I)%Z ->
  forall F (Fo : FOps F), is_prime_field Fo (qi_p I) -> forall dbg,
  exists Q, p2_instance_params dbg I = Ok Q /\ word_degree (qi_t I) (qi_d I ^ (qi_rf I + qi_rp I)) (p2_permutation dbg Q).
Proof.
  intros I HI Big. pose proof HI as H. unfold p2_instances in H. cbn [In] in H.
  destruct H as [E|H]; [exfalso; subst I; apply Z.ltb_lt in Big; vm_compute in Big; discriminate Big|].
  destruct H as [E|H]; [exfalso; subst I; apply Z.ltb_lt in Big; vm_compute in Big; discriminate Big|].
  destruct H as [E|H]; [subst I; exact (p2_words_ok P_bls12 P_bls12_ok _ HI Big prime_bls12 words_POSEIDON2_BLS_2_PARAMS)|].
  destruct H as [E|H]; [subst I; exact (p2_words_ok P_bls12 P_bls12_ok _ HI Big prime_bls12 words_POSEIDON2_BLS_3_PARAMS)|].
  destruct H as [E|H]; [subst I; exact (p2_words_ok P_bls12 P_bls12_ok _ HI Big prime_bls12 words_POSEIDON2_BLS_4_PARAMS)|].
  destruct H as [E|H]; [subst I; exact (p2_words_ok P_bls12 P_bls12_ok _ HI Big prime_bls12 words_POSEIDON2_BLS_8_PARAMS)|].
  destruct H as [E|H]; [subst I; exact (p2_words_ok P_bn256 P_bn256_ok _ HI Big prime_bn256 words_POSEIDON2_BN256_PARAMS)|].
  destruct H as [E|H]; [exfalso; subst I; apply Z.ltb_lt in Big; vm_compute in Big; discriminate Big|].
  destruct H as [E|H]; [exfalso; subst I; apply Z.ltb_lt in Big; vm_compute in Big; discriminate Big|].
  destruct H as [E|H]; [exfalso; subst I; apply Z.ltb_lt in Big; vm_compute in Big; discriminate Big|].
  destruct H as [E|H]; [exfalso; subst I; apply Z.ltb_lt in Big; vm_compute in Big; discriminate Big|].
  destruct H as [E|H]; [subst I; exact (p2_words_ok P_pallas P_pallas_ok _ HI Big prime_pallas words_POSEIDON2_PALLAS_3_PARAMS)|].
  destruct H as [E|H]; [subst I; exact (p2_words_ok P_pallas P_pallas_ok _ HI Big prime_pallas words_POSEIDON2_PALLAS_4_PARAMS)|].
  destruct H as [E|H]; [subst I; exact (p2_words_ok P_pallas P_pallas_ok _ HI Big prime_pallas words_POSEIDON2_PALLAS_8_PARAMS)|].
  destruct H as [E|H]; [subst I; exact (p2_words_ok P_vesta P_vesta_ok _ HI Big prime_vesta words_POSEIDON2_VESTA_PARAMS)|].
  destruct H.
Qed.

Lemma words_POSEIDON_BLS_2_PARAMS : ps_words P_bls12 P_bls12_ok POSEIDON_BLS_2_PARAMS = true.
Proof. vm_cast_no_check (eq_refl true). Qed.
Lemma words_POSEIDON_BLS_3_PARAMS : ps_words P_bls12 P_bls12_ok POSEIDON_BLS_3_PARAMS = true.
Proof. vm_cast_no_check (eq_refl true). Qed.
Lemma words_POSEIDON_BLS_4_PARAMS : ps_words P_bls12 P_bls12_ok POSEIDON_BLS_4_PARAMS = true.
Proof. vm_cast_no_check (eq_refl true). Qed.
Lemma words_POSEIDON_BLS_8_PARAMS : ps_words P_bls12 P_bls12_ok POSEIDON_BLS_8_PARAMS = true.
Proof. vm_cast_no_check (eq_refl true). Qed.
Lemma words_POSEIDON_BN_PARAMS : ps_words P_bn256 P_bn256_ok POSEIDON_BN_PARAMS = true.
Proof. vm_cast_no_check (eq_refl true). Qed.
Lemma words_POSEIDON_PALLAS_3_PARAMS : ps_words P_pallas P_pallas_ok POSEIDON_PALLAS_3_PARAMS = true.
Proof. vm_cast_no_check (eq_refl true). Qed.
Lemma words_POSEIDON_PALLAS_4_PARAMS : ps_words P_pallas P_pallas_ok POSEIDON_PALLAS_4_PARAMS = true.
Proof. vm_cast_no_check (eq_refl true). Qed.
Lemma words_POSEIDON_PALLAS_8_PARAMS : ps_words P_pallas P_pallas_ok POSEIDON_PALLAS_8_PARAMS = true.
Proof. vm_cast_no_check (eq_refl true). Qed.
Lemma words_POSEIDON_VESTA_PARAMS : ps_words P_vesta P_vesta_ok POSEIDON_VESTA_PARAMS = true.
Proof. vm_cast_no_check (eq_refl true). Qed.
Theorem ps_shipped_words : forall I, In I ps_instances -> (2 ^ 200 < si_p I)%Z ->
  forall F (Fo : FOps F), is_prime_field Fo (si_p I) -> forall dbg,
  exists Q, ps_instance_params dbg I = Ok Q /\ word_degree (si_t I) (si_d I ^ (si_rf I + si_rp I)) (ps_permutation dbg Q).
Proof.
  intros I HI Big. pose proof HI as H. unfold ps_instances in H. cbn [In] in H.
  destruct H as [E|H]; [exfalso; subst I; apply Z.ltb_lt in Big; vm_compute in Big; discriminate Big|].
  destruct H as [E|H]; [exfalso; subst I; apply Z.ltb_lt in Big; vm_compute in Big; discriminate Big|].
  destruct H as [E|H]; [subst I; exact (ps_words_ok P_bls12 P_bls12_ok _ HI Big prime_bls12 words_POSEIDON_BLS_2_PARAMS)|].
  destruct H as [E|H]; [subst I; exact (ps_words_ok P_bls12 P_bls12_ok _ HI Big prime_bls12 words_POSEIDON_BLS_3_PARAMS)|].
  destruct H as [E|H]; [subst I; exact (ps_words_ok P_bls12 P_bls12_ok _ HI Big prime_bls12 words_POSEIDON_BLS_4_PARAMS)|].
  destruct H as [E|H]; [subst I; exact (ps_words_ok P_bls12 P_bls12_ok _ HI Big prime_bls12 words_POSEIDON_BLS_8_PARAMS)|].
  destruct H as [E|H]; [subst I; exact (ps_words_ok P_bn256 P_bn256_ok _ HI Big prime_bn256 words_POSEIDON_BN_PARAMS)|].
  destruct H as [E|H]; [exfalso; subst I; apply Z.ltb_lt in Big; vm_compute in Big; discriminate Big|].
  destruct H as [E|H]; [exfalso; subst I; apply Z.ltb_lt in Big; vm_compute in Big; discriminate Big|].
  destruct H as [E|H]; [exfalso; subst I; apply Z.ltb_lt in Big; vm_compute in Big; discriminate Big|].
  destruct H as [E|H]; [exfalso; subst I; apply Z.ltb_lt in Big; vm_compute in Big; discriminate Big|].
  destruct H as [E|H]; [subst I; exact (ps_words_ok P_pallas P_pallas_ok _ HI Big prime_pallas words_POSEIDON_PALLAS_3_PARAMS)|].
  destruct H as [E|H]; [subst I; exact (ps_words_ok P_pallas P_pallas_ok _ HI Big prime_pallas words_POSEIDON_PALLAS_4_PARAMS)|].
  destruct H as [E|H]; [subst I; exact (ps_words_ok P_pallas P_pallas_ok _ HI Big prime_pallas words_POSEIDON_PALLAS_8_PARAMS)|].
  destruct H as [E|H]; [subst I; exact (ps_words_ok P_vesta P_vesta_ok _ HI Big prime_vesta words_POSEIDON_VESTA_PARAMS)|].
  destruct H.
Qed.
