(** * ProofTop4: exact degrees of the shipped Neptune instances with eight words *)
From Coq Require Import Znumtheory Uint63.
From Verif Require Import Base Field Spec FieldPow SpecPoly SpecTop LinAlg PolyFun TopCoef ProofDegree ProofZeroSum SpecNeptune MatLoops
  Fp Primes ModelRandom ModelNeptune ModelFields ModelInstances Transfer TransferRef ProofNeptuneParams ProofTop ProofTop2 ProofTop3.
Local Open Scope nat_scope.

(** the external matrix for t = 8 does not depend on the draws *)
Section Phi8.
  Context {F : Type} {Fo : FOps F} {G : Type} {Go : FOps G} {p : Z} (HPF : is_prime_field Fo p) (HPG : is_prime_field Go p).
  Local Notation phi := (phi (F := F) (G := G)).
  Lemma circ_phi (l : list Z) i j : circ (map (f_of_Z (F := G)) l) i j = phi (circ (map (f_of_Z (F := F)) l) i j).
  Proof. unfold circ. cbv zeta. rewrite !map_length. rewrite <- (phi_nth HPF HPG), (map_phi_of_Z HPF HPG). reflexivity. Qed.
  Lemma ext8_phi r rng r' rng' i j : np_ext_entry (F := G) 8 r rng i j = phi (np_ext_entry 8 r' rng' i j).
  Proof.
    unfold np_ext_entry. destruct ((i mod 2 =? 1) && (j mod 2 =? 1)); [exact (circ_phi [1;1;2;3]%Z _ _)|].
    destruct ((i mod 2 =? 0) && (j mod 2 =? 0)); [exact (circ_phi [3;2;1;1]%Z _ _)|]. symmetry. apply (phi_0 HPF HPG).
  Qed.
  Lemma top_pairs_phi t (M : nat -> nat -> F) (N : nat -> nat -> G) l : (forall i j, i < t -> j < t -> N i j = phi (M i j)) ->
    top_pairs t N (map phi l) = map phi (top_pairs t M l).
  Proof.
    intros E. unfold top_pairs. rewrite <- (mat_apply_phi HPF HPG t t M N) by exact E. f_equal. rewrite map_map. apply map_ext. intros i.
    rewrite !(phi_nth HPF HPG), (phi_fpow HPF HPG). f_equal. apply (f_to_Z_inj HPG). rewrite (phi_to_Z HPF HPG), (pf_sub _ _ HPF), (pf_sub _ _ HPG), !(phi_to_Z HPF HPG). reflexivity.
  Qed.
End Phi8.

(** ones in the first pair, zeros elsewhere *)
Definition first_pair {F} {Fo : FOps F} (t : nat) : list F := map (fun i => if i <? 2 then f1 else f0) (seq 0 t).

Section Col.
  Context {F : Type} {Fo : FOps F} (HF : is_field Fo).
  Add Ring FringC8 : (ff_ring _ HF).
  Lemma sub_one_add (a : F) : fadd (fsub a f1) f1 = a. Proof. ring. Qed.
  Lemma add_one_sub (a : F) : fsub (fadd a f1) f1 = a. Proof. ring. Qed.
  Lemma fpow4_zero : fpow (f0 : F) 4 = f0. Proof. cbn [fpow]. ring. Qed.
  Lemma pairs_col t ME (mu : nat -> F) : 2 <= t -> t mod 2 = 0 ->
    top_pairs t ME (col0 t (np_int_matrix mu)) = scale (fpow (fsub (mu 0) f1) 4) (mat_apply t t ME (first_pair t)).
  Proof.
    intros Ht He. unfold top_pairs. rewrite <- (mat_apply_scale HF). f_equal. unfold scale, first_pair. rewrite map_map. apply map_ext_in. intros i Hi. apply in_seq in Hi.
    unfold col0. rewrite !nth_map_seq_d. pose proof (Nat.div_mod t 2 ltac:(lia)) as Dt. pose proof (Nat.div_mod i 2 ltac:(lia)) as Di. pose proof (Nat.mod_upper_bound i 2 ltac:(lia)).
    destruct (Nat.ltb_spec (2 * (i / 2)) t) as [|X]; [|lia]. destruct (Nat.ltb_spec (2 * (i / 2) + 1) t) as [|X]; [|lia].
    unfold np_int_matrix. destruct (Nat.eqb_spec (2 * (i / 2) + 1) 0) as [X|_]; [lia|].
    destruct (Nat.ltb_spec i 2) as [H2|H2].
    - replace (2 * (i / 2)) with 0 by lia. cbn [Nat.eqb]. ring.
    - destruct (Nat.eqb_spec (2 * (i / 2)) 0) as [X|_]; [lia|]. replace (fsub f1 f1) with (f0 : F) by ring. rewrite fpow4_zero. ring.
  Qed.
End Col.

Section Check.
  Variable P : mparams.
  Hypothesis Hok : params_ok P = true.
  Let FO := fp_ops P Hok.
  Local Notation nz y := (negb (feqb (FOps := FO) y (f0 (FOps := FO)))).
  Let ME := np_ext_entry (Fo := FO) 8 0 (fun _ => f0 (FOps := FO)).
  Definition np8_words (I : np_instance) : bool := (pz P =? ni_p I)%Z && (2 <? ni_p I)%Z && (ni_t I =? 8) && (1 <=? ni_rf I / 2) && (1 <=? ni_rp I) &&
    forallb (fun j => nz (nth 0 (Nat.iter (ni_rf I / 2) (top_pairs (Fo := FO) 8 ME) (mat_apply (Fo := FO) 8 8 ME (unit_word (Fo := FO) 8 j))) (f0 (FOps := FO)))) (seq 0 8) &&
    (let l := Nat.iter (ni_rf I / 2 - 1) (top_pairs (Fo := FO) 8 ME) (mat_apply (Fo := FO) 8 8 ME (first_pair (Fo := FO) 8)) in (length l =? 8) && forallb (fun y => nz y) l).

  Theorem np8_words_ok I : In I np_instances -> (2 ^ 200 < ni_p I)%Z -> prime (ni_p I) -> np8_words I = true ->
    forall F (Fo : FOps F), is_prime_field Fo (ni_p I) -> forall dbg fuel rng (Q : NeptuneParams F),
    np_new dbg fuel rng (ni_t I) (ni_d I) (ni_rf I) (ni_rp I) = Ok Q -> nth 0 (np_mu Q) f0 <> f0 ->
    word_degree (ni_t I) (4 ^ ni_rf I * ni_d I ^ ni_rp I) (np_permutation dbg Q).
  Proof.
    intros HI Big Hpr H F Fo HP dbg fuel rng Q HQ Hmu. unfold np8_words in H. cbv zeta in H. rewrite !andb_true_iff, !forallb_forall in H.
    destruct H as [[[[[[Ep H2] Ht] Hh] Hk] H4] [H5 H6]].
    apply Z.eqb_eq in Ep. apply Z.ltb_lt in H2. apply Nat.eqb_eq in Ht. apply Nat.leb_le in Hh, Hk. apply Nat.eqb_eq in H5.
    assert (HPc : is_prime_field FO (ni_p I)) by (rewrite <- Ep; apply fp_is_prime_field; rewrite Ep; [exact Hpr|lia]).
    pose proof (prime_field_is_field HP) as HF. pose proof (prime_field_is_field HPc) as HFc.
    pose proof (proj1 (forallb_forall _ _) np_low_all I HI) as C. unfold np_low in C. apply Z.ltb_lt in Big. rewrite Big in C. cbn [negb orb] in C.
    apply andb_true_iff in C. destruct C as [C C2]. apply andb_true_iff in C. destruct C as [C1 C3]. apply Nat.leb_le in C1. apply N.ltb_lt in C3. apply Z.ltb_lt in C2. apply pow2_lt_Z in C2.
    pose proof (np_line_top Fo _ HP dbg fuel rng _ _ _ _ Q HQ C3 C1) as T.
    destruct (np_new_ok HF _ _ _ _ _ _ _ _ HQ C3) as [[Hd [He _]] [_ [_ [_ [_ [_ [_ [_ [EM [Lm [Hm _]]]]]]]]]]].
    apply (exact_words F Fo _ _ _ _ (top_line_exact F Fo _ HP _ _ _ _ T ltac:(pose proof (pow_pos 4 (ni_rf I) ltac:(lia)); pose proof (pow_pos (ni_d I) (ni_rp I) ltac:(pose proof (sbox_two _ Hd); lia)); nia) ltac:(lia))).
    rewrite EM, Ht in *. set (MF := entry (mk_mat 8 8 (np_ext_entry 8 (ni_rf I + ni_rp I) rng))).
    assert (EP : forall i j, i < 8 -> j < 8 -> MF i j = phi (Fo := FO) (ME i j)).
    { intros i j Hi Hj. unfold MF, ME. rewrite mk_mat_entry by assumption. apply (ext8_phi HPc HP). }
    assert (TP : forall l, top_pairs 8 MF (map (phi (Fo := FO)) l) = map (phi (Fo := FO)) (top_pairs (Fo := FO) 8 ME l)) by (intros l; apply (top_pairs_phi HPc HP), EP).
    intros j i Hj Hi. unfold np_top.
    apply (tops_nonzero HF 8 (ni_d I) (ni_rf I / 2) (ni_rp I) 4 (top_pairs 8 MF)); [intros s l; apply (top_pairs_scale HF)|lia|exact Hk| | |].
    - unfold np_int_matrix. cbn [Nat.eqb]. destruct (Hm 0 ltac:(lia)) as [k [_ [Nk Ek]]]. rewrite Ek. intros E. apply Nk. rewrite <- E. symmetry. apply (sub_one_add HF).
    - rewrite (unit_word_phi HPc HP), (mat_apply_phi HPc HP 8 8 ME MF) by exact EP. rewrite (iter_phi _ _ _ TP), (phi_nth HPc HP), <- (phi_0 HPc HP).
      intros E. apply (phi_inj HPc HP) in E. revert E. apply (nz_ok P Hok _ HPc), (H4 j), in_seq. lia.
    - replace (ni_rf I / 2) with (S (ni_rf I / 2 - 1)) by lia. rewrite <- iter_r.
      rewrite (pairs_col HF) by (try reflexivity; lia). rewrite (iter_scale HF _ 4) by (intros s l; apply (top_pairs_scale HF)). rewrite scale_nth by exact HF.
      assert (E1 : first_pair 8 = map (phi (Fo := FO)) (first_pair (F := Fp P) (Fo := FO) 8)).
      { unfold first_pair. rewrite map_map. apply map_ext. intros k. destruct (k <? 2); [rewrite (phi_1 HPc HP)|rewrite (phi_0 HPc HP)]; reflexivity. }
      rewrite E1, (mat_apply_phi HPc HP 8 8 ME MF) by exact EP. rewrite (iter_phi _ _ _ TP), (phi_nth HPc HP).
      intros E. destruct (fmul_integral HF _ _ E) as [E'|E'].
      + revert E'. apply (fpow_neq_0 HF), (fpow_neq_0 HF). intros E2. apply Hmu. rewrite (add_one_sub HF) in E2. exact E2.
      + rewrite <- (phi_0 HPc HP) in E'. apply (phi_inj HPc HP) in E'. revert E'. apply (nz_ok P Hok _ HPc), H6, nth_In. rewrite H5. exact Hi.
  Qed.
End Check.

Lemma words_NEPTUNE_BLS_8 : np8_words P_bls12 P_bls12_ok (nth 2 np_instances (np_inst 0 0 0 0 0)) = true.
Proof. vm_cast_no_check (eq_refl true). Qed.
Lemma words_NEPTUNE_PALLAS_8 : np8_words P_pallas P_pallas_ok (nth 10 np_instances (np_inst 0 0 0 0 0)) = true.
Proof. vm_cast_no_check (eq_refl true). Qed.
Theorem np_shipped_words : forall I, In I np_instances -> (2 ^ 200 < ni_p I)%Z -> ni_t I = 8 ->
  forall F (Fo : FOps F), is_prime_field Fo (ni_p I) -> forall dbg fuel rng (Q : NeptuneParams F),
  np_new dbg fuel rng (ni_t I) (ni_d I) (ni_rf I) (ni_rp I) = Ok Q -> nth 0 (np_mu Q) f0 <> f0 ->
  word_degree (ni_t I) (4 ^ ni_rf I * ni_d I ^ ni_rp I) (np_permutation dbg Q).
Proof.
  intros I HI Big H8. pose proof HI as H. unfold np_instances in H. cbn [In] in H.
  destruct H as [E|[E|[E|[E|[E|[E|[E|[E|[E|[E|[E|[E|[]]]]]]]]]]]]].
  3: subst I; exact (np8_words_ok P_bls12 P_bls12_ok _ HI Big prime_bls12 words_NEPTUNE_BLS_8).
  10: subst I; exact (np8_words_ok P_pallas P_pallas_ok _ HI Big prime_pallas words_NEPTUNE_PALLAS_8).
  all: exfalso; subst I; first [discriminate H8|apply Z.ltb_lt in Big; vm_compute in Big; discriminate Big].
Qed.
