(** * ProofReturns: exactly when the Poseidon permutations return (debug builds) *)
From Verif Require Import Base Field Spec ModelUtils ModelPoseidon2 ModelPoseidon SpecPoseidon SpecRagged
  ProofMatHelpers ProofTotal ProofPoseidon2 ProofPoseidon ProofPoseidonFin ProofAccept ProofRagged LoopLemmas MatLoops.
From Verif Require ProofMerkleHash LinAlg.

Section Returns.
  Context {F : Type} {Fo : FOps F}.

  Lemma ps_matmul_ends dbg (x : list F) m : ends (ps_matmul dbg x m).
  Proof.
    unfold ps_matmul. apply ends_bind; [apply ends_debug_assert|intros _].
    apply ends_for_range. intros i s. apply ends_for_list. intros [j a] s'. cbn beta iota.
    repeat (apply ends_bind; [first [apply ends_idx|apply ends_idx2]|intros ?]). apply ends_upd.
  Qed.

  Lemma ps_sbox_p_ends P (x : F) : ends (ps_sbox_p P x).
  Proof. unfold ps_sbox_p. repeat match goal with |- ends (match ?b with _ => _ end) => destruct b end; discriminate. Qed.

  Lemma mapM_ends {A B} (f : A -> res B) (l : list A) : (forall a, ends (f a)) -> ends (mapM f l).
  Proof.
    intros H. induction l as [|a l IH]; [discriminate|]. cbn [mapM]. apply ends_bind; [apply H|intros b].
    apply ends_bind; [exact IH|]. discriminate.
  Qed.

  Lemma full_round_ends dbg P r (st : list F) : ends (ps_full_round dbg P r st).
  Proof.
    unfold ps_full_round. apply ends_bind; [apply ends_idx|intros c]. apply ends_bind; [apply mapM_ends; apply ps_sbox_p_ends|intros s].
    apply ps_matmul_ends.
  Qed.

  Lemma partial_round_ends dbg P r (st : list F) : ends (ps_partial_round dbg P r st).
  Proof.
    unfold ps_partial_round. apply ends_bind; [apply ends_idx|intros c]. cbn zeta. apply ends_bind; [apply ends_idx|intros x].
    apply ends_bind; [apply ps_sbox_p_ends|intros y]. apply ends_bind; [apply ends_upd|intros s]. apply ps_matmul_ends.
  Qed.

  Lemma not_opt_ends dbg P (x : list F) : ends (ps_permutation_not_opt dbg P x).
  Proof.
    unfold ps_permutation_not_opt. apply ends_bind; [apply ends_assert|intros _].
    apply ends_bind; [apply ends_for_range; intros; apply full_round_ends|intros s].
    apply ends_bind; [apply ends_uadd|intros u].
    apply ends_bind; [apply ends_for_range; intros; apply partial_round_ends|intros s'].
    apply ends_for_range. intros. apply full_round_ends.
  Qed.

  Lemma matmul_dbg_length (x : list F) m y : ps_matmul true x m = Ok y -> length x = length m.
  Proof.
    intros H. destruct (Nat.eq_dec (length x) (length m)) as [E|E]; [exact E|].
    rewrite (ps_matmul_short_dbg x m E) in H. discriminate.
  Qed.

  Lemma mapM_length {A B} (f : A -> res B) (l : list A) : forall y, mapM f l = Ok y -> length y = length l.
  Proof.
    induction l as [|a l IH]; intros y H; cbn [mapM] in H; [injection H as <-; reflexivity|].
    apply bind_ok in H. destruct H as (b & _ & H). apply bind_ok in H. destruct H as (bs & Hb & H).
    injection H as <-. cbn. rewrite (IH _ Hb). reflexivity.
  Qed.

  Lemma idx_row r (rc : list (list F)) c : idx rc r = Ok c -> nth r rc [] = c.
  Proof. unfold idx. destruct (nth_error rc r) eqn:E; [|discriminate]. intros H. injection H as <-. apply nth_error_nth. exact E. Qed.

  Lemma full_round_row P r (a b : list F) : ps_full_round true P r a = Ok b -> length (ps_mds P) <= length (nth r (ps_rc P) []).
  Proof.
    intros H. unfold ps_full_round in H. apply bind_ok in H. destruct H as (c & Hc & H).
    apply bind_ok in H. destruct H as (s & Hs & H). apply matmul_dbg_length in H. unfold ps_sbox in Hs. apply mapM_length in Hs.
    rewrite add_rc_length in Hs. rewrite (idx_row _ _ _ Hc). lia.
  Qed.

  Lemma partial_round_row P r (a b : list F) : ps_partial_round true P r a = Ok b -> length (ps_mds P) <= length (nth r (ps_rc P) []).
  Proof.
    intros H. unfold ps_partial_round in H. apply bind_ok in H. destruct H as (c & Hc & H). cbn zeta in H.
    apply bind_ok in H. destruct H as (x & _ & H). apply bind_ok in H. destruct H as (y & _ & H).
    apply bind_ok in H. destruct H as (s & Hs & H). apply matmul_dbg_length in H. unfold upd in Hs.
    destruct (0 <? length (add_rc a c)) eqn:E0; [|discriminate]. apply Nat.ltb_lt in E0. injection Hs as <-.
    rewrite set_nth_length in H by exact E0. rewrite add_rc_length in H. rewrite (idx_row _ _ _ Hc). lia.
  Qed.

  Hypothesis HF : is_field Fo.

  Lemma not_opt_rows t d rf rp (mds rc : list (list F)) P x y :
    ps_new true t d rf rp mds rc = Ok P -> ps_permutation_not_opt true P x = Ok y ->
    length x = t /\ forall r, r < rf + rp -> t <= length (nth r rc []).
  Proof.
    intros HN H. pose proof (debug_no_overflow _ _ _ _ _ _ _ HN) as Hov.
    destruct (ps_new_ok _ _ _ _ _ _ _ _ HN Hov) as [_ [Lm [He [m_i [v [w [opt [_ [_ EP]]]]]]]]].
    pose proof (rf_even rf He) as Hrf. unfold ps_permutation_not_opt in H.
    apply bind_ok in H. destruct H as (u & Ha & H). destruct u. apply assert_ok in Ha. apply Nat.eqb_eq in Ha.
    apply bind_ok in H. destruct H as (s1 & H1 & H).
    rewrite EP in Ha, H1, H. cbn [ps_t ps_rounds_f_beginning ps_rounds_p ps_rounds] in Ha, H1, H.
    rewrite uadd_ok in H by (apply half_ov; exact Hov). cbn [bind] in H.
    apply bind_ok in H. destruct H as (s2 & H2 & H3). rewrite <- EP in H1, H2, H3.
    split; [exact Ha|]. intros r Hr.
    assert (Er : length (ps_mds P) = t /\ ps_rc P = rc) by (rewrite EP; cbn; auto). destruct Er as [<- <-].
    destruct (le_lt_dec (rf / 2) r) as [L1|L1].
    - destruct (le_lt_dec (rf / 2 + rp) r) as [L2|L2].
      + unfold for_range in H3. apply (loop_step_ok _ _ _ _ r) in H3; [|apply in_seq; lia].
        destruct H3 as (a & b & E). exact (full_round_row _ _ _ _ E).
      + unfold for_range in H2. apply (loop_step_ok _ _ _ _ r) in H2; [|apply in_seq; lia].
        destruct H2 as (a & b & E). exact (partial_round_row _ _ _ _ E).
    - unfold for_range in H1. apply (loop_step_ok _ _ _ _ r) in H1; [|apply in_seq; lia].
      destruct H1 as (a & b & E). exact (full_round_row _ _ _ _ E).
  Qed.

  Lemma returns_debug t d rf rp (mds rc : list (list F)) P x :
    ps_new true t d rf rp mds rc = Ok P ->
    ((length x = t /\ forall r, r < rf + rp -> t <= length (nth r rc [])) ->
       ps_permutation true P x = Ok (ps_ref t d rf rp (entry (narrow t mds)) rc x) /\
       ps_permutation_not_opt true P x = Ok (ps_ref t d rf rp (entry (narrow t mds)) rc x)) /\
    (~ (length x = t /\ forall r, r < rf + rp -> t <= length (nth r rc [])) ->
       ps_permutation true P x = Panic /\ ps_permutation_not_opt true P x = Panic).
  Proof.
    intros HN. pose proof (debug_no_overflow _ _ _ _ _ _ _ HN) as Hov.
    rewrite (opt_eq_any_debug t d rf rp mds rc P x HF HN). split.
    - intros [Lx HR]. destruct (accepted_form _ _ _ _ _ _ _ _ HF HN) as [Hw HZ].
      pose proof (surplus_ignored true t d rf rp mds rc HF Hw HZ) as H. rewrite HN in H.
      destruct (ps_new true t d rf rp (narrow t mds) rc) as [P'| |] eqn:E2; [|contradiction|contradiction].
      destruct (H x) as [_ ->].
      destruct (ps_permutation_ref HF true t d rf rp _ _ _ x E2 Hov (narrow_dims t mds Hw) HR) as [H1 _].
      destruct (H1 Lx). auto.
    - intros N. destruct (ends_cases _ (not_opt_ends true P x)) as [[y E]|E]; [|auto].
      exfalso. apply N. exact (not_opt_rows _ _ _ _ _ _ _ _ _ HN E).
  Qed.

  Lemma returns_iff t d rf rp (mds rc : list (list F)) P x :
    ps_new true t d rf rp mds rc = Ok P ->
    let good := length x = t /\ forall r, r < rf + rp -> t <= length (nth r rc []) in
    ((exists y, ps_permutation true P x = Ok y) <-> good) /\
    ((exists y, ps_permutation_not_opt true P x = Ok y) <-> good).
  Proof.
    intros HN good. pose proof (returns_debug t d rf rp mds rc P x HN) as [H1 _]. split; split.
    - rewrite (opt_eq_any_debug t d rf rp mds rc P x HF HN). intros [y E]. exact (not_opt_rows _ _ _ _ _ _ _ _ _ HN E).
    - intros G. destruct (H1 G). eauto.
    - intros [y E]. exact (not_opt_rows _ _ _ _ _ _ _ _ _ HN E).
    - intros G. destruct (H1 G). eauto.
  Qed.
End Returns.

Section Compress.
  Context {F : Type} {Fo : FOps F}.
  Hypothesis HF : is_field Fo.

  Lemma ref_length t d rf rp M rc (x : list F) : length x = t -> length (ps_ref t d rf rp M rc x) = t.
  Proof.
    intros Hx. unfold ps_ref.
    repeat (apply ProofMerkleHash.fold_len; [intros; unfold ps_ref_full, ps_ref_partial; apply LinAlg.mat_apply_length|]). exact Hx.
  Qed.

  Lemma compress_debug t d rf rp (mds rc : list (list F)) P x :
    ps_new true t d rf rp mds rc = Ok P ->
    let good := t = 3 /\ 2 <= length x /\ forall r, r < rf + rp -> t <= length (nth r rc []) in
    (good -> ps_compress true P x = Ok (nth 0 (ps_ref t d rf rp (entry (narrow t mds)) rc [nth 0 x f0; nth 1 x f0; f0]) f0)) /\
    (~ good -> ps_compress true P x = Panic).
  Proof.
    intros HN good. unfold ps_compress.
    destruct x as [|a [|b x]].
    - split; [intros (_ & L & _); cbn in L; lia|reflexivity].
    - split; [intros (_ & L & _); cbn in L; lia|reflexivity].
    - cbn [idx nth_error bind nth]. destruct (returns_debug HF t d rf rp mds rc P [a; b; f0] HN) as [H1 H2]. split.
      + intros (Et & _ & HR). destruct H1 as [E _]; [split; [cbn; lia|exact HR]|].
        assert (Hy : ps_ref t d rf rp (entry (narrow t mds)) rc [a; b; f0] <> []).
        { intros E0. apply (f_equal (@length F)) in E0. rewrite (ref_length t) in E0; [cbn in E0; lia|cbn; lia]. }
        rewrite E. cbn [bind]. destruct (ps_ref _ _ _ _ _ _ _) as [|z l]; [congruence|]. reflexivity.
      + intros N. destruct H2 as [E _].
        * intros [L HR]. apply N. split; [cbn in L; lia|]. split; [cbn; lia|exact HR].
        * rewrite E. reflexivity.
  Qed.
End Compress.
