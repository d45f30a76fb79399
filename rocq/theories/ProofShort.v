(** * ProofShort: what release builds compute when rows of constants are too short *)
From Verif Require Import Base Field Spec ModelUtils ModelPoseidon2 ModelPoseidon SpecPoseidon SpecPoseidon2 SpecRagged SpecShort
  ProofMatHelpers ProofTotal ProofPoseidon2 ProofPoseidon ProofPoseidonOpt ProofPoseidonFin ProofAccept ProofRagged ProofReturns ProofReturnsRel
  LinAlg LoopLemmas MatLoops.

Section Short.
  Context {F : Type} {Fo : FOps F}.

  Lemma add_rc_firstn (x x' c : list F) : firstn (length c) x = firstn (length c) x' -> add_rc x c = add_rc x' c.
  Proof.
    unfold add_rc. intros H. f_equal. revert x x' H.
    induction c as [|a c IH]; intros x x' H; [rewrite !combine_nil; reflexivity|].
    destruct x as [|b x], x' as [|b' x']; cbn in H; try discriminate; [reflexivity|].
    injection H as -> H. cbn. f_equal. apply IH. exact H.
  Qed.

  (** words that have no constant in the first round do not influence anything *)
  Lemma short_collision dbg P (x x' : list F) :
    1 <= ps_rounds_f_beginning P -> length x = length x' ->
    firstn (length (nth 0 (ps_rc P) [])) x = firstn (length (nth 0 (ps_rc P) [])) x' ->
    ps_permutation dbg P x = ps_permutation dbg P x' /\ ps_permutation_not_opt dbg P x = ps_permutation_not_opt dbg P x'.
  Proof.
    intros Hr Hl Hf.
    assert (E : for_range 0 (ps_rounds_f_beginning P) (ps_full_round dbg P) x =
                for_range 0 (ps_rounds_f_beginning P) (ps_full_round dbg P) x').
    { rewrite !for_range_step by lia. f_equal. unfold ps_full_round.
      destruct (ps_rc P) as [|c l]; [reflexivity|]. cbn [idx nth_error bind nth] in *.
      rewrite (add_rc_firstn x x' c Hf). reflexivity. }
    unfold ps_permutation, ps_permutation_not_opt. rewrite Hl, E. split; reflexivity.
  Qed.

  Hypothesis HF : is_field Fo.
  Add Ring FR : (ff_ring _ HF).

  Lemma apply_tail n k m A (y : list F) : length y <= k -> k <= m -> mat_apply n k A y = mat_apply n m A y.
  Proof.
    intros H1 H2. unfold mat_apply. apply map_ext. intros i. replace m with (k + (m - k)) by lia.
    rewrite (sumn_split HF). rewrite (sumn_zero HF (m - k)); [ring|].
    intros j _. rewrite (nth_overflow y) by lia. ring.
  Qed.

  Lemma matmul_short t (m : list (list F)) y : dims t t m -> length y <= t ->
    ps_matmul false y m = Ok (mat_apply t t (entry m) y).
  Proof.
    intros [L D] Hy. rewrite (ps_matmul_ok HF).
    - f_equal. rewrite L. apply apply_tail; lia.
    - discriminate.
    - intros i Hi. rewrite D by lia. lia.
  Qed.

  Lemma full_short t P r st : dims t t (ps_mds P) -> sbox_degree (ps_d P) -> r < length (ps_rc P) -> length st = t ->
    ps_full_round false P r st = Ok (short_full t (ps_d P) (entry (ps_mds P)) (nth r (ps_rc P) []) st).
  Proof.
    intros Hd Hs Hr Hl. unfold ps_full_round. rewrite (idx_ok []) by exact Hr. cbn [bind].
    rewrite (ps_sbox_ok HF) by exact Hs. cbn [bind]. set (c := nth r (ps_rc P) []).
    rewrite (matmul_short t) by (try exact Hd; rewrite map_length, add_rc_length; lia).
    f_equal. unfold short_full. apply mat_apply_ext; [reflexivity|]. intros j Hj.
    rewrite nth_map_seq by exact Hj. destruct (Nat.ltb_spec j (length c)) as [L|L].
    - rewrite (nth_indep _ f0 (fpow f0 (ps_d P))) by (rewrite map_length, add_rc_length; lia).
      rewrite (map_nth (fun a => fpow a (ps_d P))). rewrite add_rc_nth by lia. reflexivity.
    - apply nth_overflow. rewrite map_length, add_rc_length. lia.
  Qed.

  Lemma partial_short t P r st : dims t t (ps_mds P) -> sbox_degree (ps_d P) -> r < length (ps_rc P) -> 1 <= t ->
    length st = t -> nth r (ps_rc P) [] <> [] ->
    ps_partial_round false P r st = Ok (short_partial t (ps_d P) (entry (ps_mds P)) (nth r (ps_rc P) []) st).
  Proof.
    intros Hd Hs Hr Ht Hl Hn. unfold ps_partial_round. rewrite (idx_ok []) by exact Hr. cbn [bind]. cbn zeta.
    set (c := nth r (ps_rc P) []) in *. assert (L0 : 0 < length (add_rc st c)).
    { rewrite add_rc_length. destruct c; [congruence|]. cbn. lia. }
    rewrite (idx_ok f0) by exact L0. cbn [bind]. rewrite (ps_sbox_p_ok HF) by exact Hs. cbn [bind].
    rewrite upd_ok by exact L0. cbn [bind].
    rewrite (matmul_short t) by (try exact Hd; rewrite set_nth_length by exact L0; rewrite add_rc_length; lia).
    f_equal. unfold short_partial. apply mat_apply_ext; [reflexivity|]. intros j Hj.
    rewrite nth_map_seq by exact Hj. rewrite add_rc_length in L0. destruct (Nat.ltb_spec j (length c)) as [L|L].
    - destruct (Nat.eqb_spec j 0) as [->|N].
      + rewrite set_nth_nth by (rewrite add_rc_length; lia). rewrite Nat.eqb_refl, add_rc_nth by lia. reflexivity.
      + rewrite set_nth_nth by (rewrite add_rc_length; lia). rewrite (proj2 (Nat.eqb_neq j 0) N), add_rc_nth by lia. reflexivity.
    - apply nth_overflow. rewrite set_nth_length by (rewrite add_rc_length; lia). rewrite add_rc_length. lia.
  Qed.

  Lemma not_opt_short t d rf rp (mds rc : list (list F)) P x :
    ps_new false t d rf rp mds rc = Ok P -> (N.of_nat rf + N.of_nat rp < usize_mod)%N -> dims t t mds ->
    length x = t -> (rf = 0 \/ rf + rp <= length rc) -> (forall k, k < rp -> nth (rf / 2 + k) rc [] <> []) ->
    ps_permutation_not_opt false P x = Ok (short_ref t d rf rp (entry mds) rc x).
  Proof.
    intros HN Hov Hd Lx HR HW. pose proof (ps_new_wide _ _ _ _ _ _ _ _ HN) as [Ht Hp].
    destruct (ps_new_ok _ _ _ _ _ _ _ _ HN Hov) as [Hs [_ [He [m_i [v [w [opt [EM [EC EP]]]]]]]]].
    destruct (ps_erc_ok HF _ _ _ _ _ _ _ Hd Ht (half_ov _ _ Hov) EC) as [_ [_ [_ [Hlast _]]]].
    pose proof (rf_even rf He) as Hrf.
    assert (E1 : ps_t P = t) by (rewrite EP; reflexivity). assert (E2 : ps_d P = d) by (rewrite EP; reflexivity).
    assert (E3 : ps_mds P = mds) by (rewrite EP; reflexivity). assert (E4 : ps_rounds_f_beginning P = rf / 2) by (rewrite EP; reflexivity).
    assert (E8 : ps_rc P = rc) by (rewrite EP; reflexivity). assert (E9 : ps_rounds P = rf + rp) by (rewrite EP; reflexivity).
    assert (E10 : ps_rounds_p P = rp) by (rewrite EP; reflexivity).
    assert (FR : forall r st, r < rf + rp -> rf <> 0 -> length st = t ->
      ps_full_round false P r st = Ok (short_full t d (entry mds) (nth r rc []) st) /\
      length (short_full t d (entry mds) (nth r rc []) st) = t).
    { intros r st Hr Hz Hst. split; [|apply mat_apply_length].
      rewrite (full_short t); [rewrite E2, E3, E8; reflexivity|rewrite E3; exact Hd|rewrite E2; exact Hs|rewrite E8; destruct HR; lia|exact Hst]. }
    unfold ps_permutation_not_opt, short_ref. rewrite E1, E4, E10, E9. rewrite uadd_ok by (apply half_ov; exact Hov).
    rewrite Lx, Nat.eqb_refl. cbn [assert bind].
    destruct (for_range_fold (fun s r => short_full t d (entry mds) (nth r rc []) s) (fun s => length s = t) 0 (rf / 2)
                (ps_full_round false P) x Lx) as [F1 L1].
    { intros i s Hi Hl. apply FR; [lia|lia|exact Hl]. }
    rewrite F1. cbn [bind]. rewrite Nat.sub_0_r in *. set (s1 := fold_left _ _ x) in *.
    destruct (for_range_fold (fun s r => short_partial t d (entry mds) (nth r rc []) s) (fun s => length s = t) (rf / 2) (rf / 2 + rp)
                (ps_partial_round false P) s1 L1) as [F2 L2].
    { intros i s Hi Hl. split; [|apply mat_apply_length].
      rewrite (partial_short t); [rewrite E2, E3, E8; reflexivity|rewrite E3; exact Hd|rewrite E2; exact Hs|rewrite E8; lia|lia|exact Hl|].
      rewrite E8. replace i with (rf / 2 + (i - rf / 2)) by (clear - Hi; lia). apply HW. clear - Hi; lia. }
    rewrite F2. cbn [bind]. replace (rf / 2 + rp - rf / 2) with rp in * by (clear; lia). set (s2 := fold_left _ _ s1) in *.
    destruct (for_range_fold (fun s r => short_full t d (entry mds) (nth r rc []) s) (fun s => length s = t) (rf / 2 + rp) (rf + rp)
                (ps_full_round false P) s2 L2) as [F3 _].
    { intros i s Hi Hl. apply FR; [lia|lia|exact Hl]. }
    rewrite F3. replace (rf + rp - (rf / 2 + rp)) with (rf / 2) by (clear - Hrf; lia). reflexivity.
  Qed.

  Lemma not_opt_short_any t d rf rp (mds rc : list (list F)) P x :
    ps_new false t d rf rp mds rc = Ok P -> (N.of_nat rf + N.of_nat rp < usize_mod)%N ->
    length x = t -> (rf = 0 \/ rf + rp <= length rc) -> (forall k, k < rp -> nth (rf / 2 + k) rc [] <> []) ->
    ps_permutation_not_opt false P x = Ok (short_ref t d rf rp (entry (narrow t mds)) rc x).
  Proof.
    intros HN Hov Lx HR HW. destruct (accepted_form _ _ _ _ _ _ _ _ HF HN) as [Hw HZ].
    pose proof (surplus_ignored false t d rf rp mds rc HF Hw HZ) as H. rewrite HN in H.
    destruct (ps_new false t d rf rp (narrow t mds) rc) as [P'| |] eqn:E2; [|contradiction|contradiction].
    destruct (H x) as [_ ->]. exact (not_opt_short t d rf rp _ _ _ x E2 Hov (narrow_dims t mds Hw) Lx HR HW).
  Qed.

  Lemma new_collision dbg t d rf rp (mds rc : list (list F)) P x x' :
    ps_new dbg t d rf rp mds rc = Ok P -> (N.of_nat rf + N.of_nat rp < usize_mod)%N -> 2 <= rf ->
    length x = length x' -> firstn (length (nth 0 rc [])) x = firstn (length (nth 0 rc [])) x' ->
    ps_permutation dbg P x = ps_permutation dbg P x' /\ ps_permutation_not_opt dbg P x = ps_permutation_not_opt dbg P x'.
  Proof.
    intros HN Hov Hrf Hl Hf.
    destruct (ps_new_ok _ _ _ _ _ _ _ _ HN Hov) as [_ [_ [He [m_i [v [w [opt [_ [_ EP]]]]]]]]].
    apply short_collision; [rewrite EP; cbn [ps_rounds_f_beginning]; pose proof (rf_even rf He); lia|exact Hl|].
    rewrite EP. exact Hf.
  Qed.
End Short.
