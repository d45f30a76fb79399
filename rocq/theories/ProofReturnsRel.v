(** * ProofReturnsRel: exactly when the Poseidon permutations return (release builds) *)
From Verif Require Import Base Field Spec ModelUtils ModelPoseidon2 ModelPoseidon SpecPoseidon SpecPoseidon2 SpecRagged
  ProofMatHelpers ProofTotal ProofPoseidon2 ProofPoseidon ProofPoseidonOpt ProofPoseidonFin ProofAccept ProofRagged ProofReturns
  LinAlg LoopLemmas MatLoops.

Lemma for_range_total {St} (I : St -> Prop) lo hi (body : nat -> St -> res St) s :
  I s -> (forall i s, lo <= i < hi -> I s -> exists s', body i s = Ok s' /\ I s') ->
  exists s', for_range lo hi body s = Ok s' /\ I s'.
Proof.
  intros Hs H. unfold for_range.
  assert (H' : forall i s, In i (seq lo (hi - lo)) -> I s -> exists s', body i s = Ok s' /\ I s').
  { intros i s0 Hi. apply in_seq in Hi. apply H. lia. }
  clear H. revert s Hs H'. induction (seq lo (hi - lo)) as [|i l IH]; intros s Hs H; cbn [for_list]; [eauto|].
  destruct (H i s (or_introl eq_refl) Hs) as (s1 & E & H1). rewrite E. cbn [bind]. apply IH; [exact H1|].
  intros j s0 Hj. apply H. right. exact Hj.
Qed.

Section Rel.
  Context {F : Type} {Fo : FOps F}.
  Hypothesis HF : is_field Fo.

  Lemma matmul_rel t (m : list (list F)) x : dims t t m -> exists y, ps_matmul false x m = Ok y /\ length y = t.
  Proof.
    intros [L D]. rewrite (ps_matmul_ok HF).
    - eexists. split; [reflexivity|]. rewrite mat_apply_length. exact L.
    - discriminate.
    - intros i Hi. rewrite D by lia. lia.
  Qed.

  Lemma full_rel t P r st : dims t t (ps_mds P) -> sbox_degree (ps_d P) -> r < length (ps_rc P) ->
    exists y, ps_full_round false P r st = Ok y /\ length y = t.
  Proof.
    intros Hd Hs Hr. unfold ps_full_round. rewrite (idx_ok []) by exact Hr. cbn [bind].
    rewrite (ps_sbox_ok HF) by exact Hs. cbn [bind]. apply matmul_rel. exact Hd.
  Qed.

  Lemma partial_rel t P r st : dims t t (ps_mds P) -> sbox_degree (ps_d P) -> r < length (ps_rc P) -> 1 <= t ->
    length st = t -> nth r (ps_rc P) [] <> [] ->
    exists y, ps_partial_round false P r st = Ok y /\ length y = t.
  Proof.
    intros Hd Hs Hr Ht Hl Hn. unfold ps_partial_round. rewrite (idx_ok []) by exact Hr. cbn [bind]. cbn zeta.
    set (c := nth r (ps_rc P) []) in *. assert (L : 0 < length (add_rc st c)).
    { rewrite add_rc_length. destruct c; [congruence|]. cbn. lia. }
    rewrite (idx_ok f0) by exact L. cbn [bind]. rewrite (ps_sbox_p_ok HF) by exact Hs. cbn [bind].
    rewrite upd_ok by exact L. cbn [bind]. apply matmul_rel. exact Hd.
  Qed.

  Lemma full_needs dbg P r (a b : list F) : ps_full_round dbg P r a = Ok b -> r < length (ps_rc P).
  Proof.
    intros H. unfold ps_full_round in H. apply bind_ok in H. destruct H as (c & Hc & _). unfold idx in Hc.
    destruct (nth_error (ps_rc P) r) eqn:E; [|discriminate]. apply nth_error_Some. congruence.
  Qed.

  Lemma partial_needs dbg P r (a b : list F) : ps_partial_round dbg P r a = Ok b -> nth r (ps_rc P) [] <> [].
  Proof.
    intros H. unfold ps_partial_round in H. apply bind_ok in H. destruct H as (c & Hc & H). cbn zeta in H.
    apply bind_ok in H. destruct H as (x & Hx & _). rewrite (idx_row _ _ _ Hc). intros ->.
    unfold add_rc in Hx. rewrite combine_nil in Hx. discriminate.
  Qed.

  Section Square.
    Context (t d rf rp : nat) (mds rc : list (list F)) (P : PoseidonParams F).
    Hypothesis HN : ps_new false t d rf rp mds rc = Ok P.
    Hypothesis Hov : (N.of_nat rf + N.of_nat rp < usize_mod)%N.
    Hypothesis Hd : dims t t mds.

    Definition rounds_there := rf = 0 \/ rf + rp <= length rc.
    Definition rows_there := forall k, k < rp -> nth (rf / 2 + k) rc [] <> [].

    Lemma opt_rel x : (exists y, ps_permutation false P x = Ok y) <-> length x = t /\ rounds_there.
    Proof.
      pose proof (ps_new_wide _ _ _ _ _ _ _ _ HN) as [Ht Hp].
      destruct (ps_new_ok _ _ _ _ _ _ _ _ HN Hov) as [Hs [_ [He [m_i [v [w [opt [EM [EC EP]]]]]]]]].
      destruct (ps_erc_ok HF _ _ _ _ _ _ _ Hd Ht (half_ov _ _ Hov) EC) as [_ [_ [_ [Hlast [inv [_ [HI [Lo [Ho0 Ho]]]]]]]]].
      destruct (ps_eqmat_ok HF _ _ _ _ _ _ _ Hd Ht Hp EM) as [_ [HM Emi]].
      pose proof (rf_even rf He) as Hrf.
      assert (E1 : ps_t P = t) by (rewrite EP; reflexivity). assert (E2 : ps_d P = d) by (rewrite EP; reflexivity).
      assert (E3 : ps_mds P = mds) by (rewrite EP; reflexivity). assert (E4 : ps_rounds_f_beginning P = rf / 2) by (rewrite EP; reflexivity).
      assert (E5 : ps_opt_rc P = opt) by (rewrite EP; reflexivity). assert (E6 : ps_m_i P = m_i) by (rewrite EP; reflexivity).
      assert (E7 : mats_at t (entry mds) rp (ps_v P) (ps_w_hat P)) by (rewrite EP; exact HM).
      assert (E8 : ps_rc P = rc) by (rewrite EP; reflexivity). assert (E9 : ps_rounds P = rf + rp) by (rewrite EP; reflexivity).
      assert (E10 : ps_rounds_p P = rp) by (rewrite EP; reflexivity).
      unfold ps_permutation. rewrite E1, E4, E10, E5, E6, E9. rewrite uadd_ok by (apply half_ov; exact Hov). split.
      - intros [y H]. apply bind_ok in H. destruct H as (u & Ha & H). destruct u. apply assert_ok in Ha. apply Nat.eqb_eq in Ha.
        split; [exact Ha|]. apply bind_ok in H. destruct H as (s1 & _ & H). cbn [bind] in H.
        apply bind_ok in H. destruct H as (c0 & _ & H). apply bind_ok in H. destruct H as (s2 & _ & H).
        apply bind_ok in H. destruct H as (s3 & _ & H). unfold rounds_there.
        destruct (Nat.eq_dec rf 0) as [Z|Z]; [left; exact Z|right].
        apply (loop_step_ok _ _ _ _ (rf + rp - 1)) in H; [|apply in_seq; lia].
        destruct H as (a & b & E). apply full_needs in E. rewrite E8 in E. lia.
      - intros [Lx HR]. rewrite Lx, Nat.eqb_refl. cbn [assert bind].
        assert (HL : forall r, r < rf + rp -> rf <> 0 -> r < length rc) by (intros r Hr Hz; destruct HR; lia).
        assert (FR : forall r st, r < rf + rp -> rf <> 0 -> exists y, ps_full_round false P r st = Ok y /\ length y = t).
        { intros r st Hr Hz. apply full_rel; [rewrite E3; exact Hd|rewrite E2; exact Hs|rewrite E8; apply HL; assumption]. }
        destruct (for_range_total (fun s => length s = t) 0 (rf / 2) (ps_full_round false P) x Lx) as (s1 & F1 & L1).
        { intros i s Hi _. apply FR; lia. }
        rewrite F1. cbn [bind]. rewrite (idx_ok []) by lia. cbn [bind].
        destruct (matmul_rel t m_i (add_rc s1 (nth 0 opt []))) as (s2 & F2 & L2); [rewrite Emi; apply mk_mat_dims|].
        rewrite F2. cbn [bind].
        destruct (for_range_total (fun s => length s = t) (rf / 2) (rf / 2 + rp) (ps_opt_partial_round P (rf / 2 + rp)) s2 L2) as (s3 & F3 & L3).
        { intros i s Hi Hl. eexists. split; [|apply mat_apply_length].
          replace i with (rf / 2 + (i - rf / 2)) at 1 by (clear - Hi; lia).
          apply (ps_opt_partial_ok HF t d rf rp mds rc P Hd Ht Hov opt inv); try assumption. clear - Hi; lia. }
        rewrite F3. cbn [bind].
        destruct (for_range_total (fun s => length s = t) (rf / 2 + rp) (rf + rp) (ps_full_round false P) s3 L3) as (s4 & F4 & L4).
        { intros i s Hi _. apply FR; lia. }
        eauto.
    Qed.

    Lemma not_opt_rel x : (exists y, ps_permutation_not_opt false P x = Ok y) <-> length x = t /\ rounds_there /\ rows_there.
    Proof.
      pose proof (ps_new_wide _ _ _ _ _ _ _ _ HN) as [Ht Hp].
      destruct (ps_new_ok _ _ _ _ _ _ _ _ HN Hov) as [Hs [_ [He [m_i [v [w [opt [EM [EC EP]]]]]]]]].
      destruct (ps_erc_ok HF _ _ _ _ _ _ _ Hd Ht (half_ov _ _ Hov) EC) as [_ [_ [_ [Hlast _]]]].
      pose proof (rf_even rf He) as Hrf.
      assert (E1 : ps_t P = t) by (rewrite EP; reflexivity). assert (E2 : ps_d P = d) by (rewrite EP; reflexivity).
      assert (E3 : ps_mds P = mds) by (rewrite EP; reflexivity). assert (E4 : ps_rounds_f_beginning P = rf / 2) by (rewrite EP; reflexivity).
      assert (E8 : ps_rc P = rc) by (rewrite EP; reflexivity). assert (E9 : ps_rounds P = rf + rp) by (rewrite EP; reflexivity).
      assert (E10 : ps_rounds_p P = rp) by (rewrite EP; reflexivity).
      unfold ps_permutation_not_opt. rewrite E1, E4, E10, E9. rewrite uadd_ok by (apply half_ov; exact Hov). split.
      - intros [y H]. apply bind_ok in H. destruct H as (u & Ha & H). destruct u. apply assert_ok in Ha. apply Nat.eqb_eq in Ha.
        split; [exact Ha|]. apply bind_ok in H. destruct H as (s1 & _ & H). cbn [bind] in H.
        apply bind_ok in H. destruct H as (s2 & H2 & H). split.
        + unfold rounds_there. destruct (Nat.eq_dec rf 0) as [Z|Z]; [left; exact Z|right].
          apply (loop_step_ok _ _ _ _ (rf + rp - 1)) in H; [|apply in_seq; lia].
          destruct H as (a & b & E). apply full_needs in E. rewrite E8 in E. lia.
        + intros k Hk. apply (loop_step_ok _ _ _ _ (rf / 2 + k)) in H2; [|apply in_seq; lia].
          destruct H2 as (a & b & E). apply partial_needs in E. rewrite E8 in E. exact E.
      - intros [Lx [HR HW]]. rewrite Lx, Nat.eqb_refl. cbn [assert bind].
        assert (FR : forall r st, r < rf + rp -> rf <> 0 -> exists y, ps_full_round false P r st = Ok y /\ length y = t).
        { intros r st Hr Hz. apply full_rel; [rewrite E3; exact Hd|rewrite E2; exact Hs|rewrite E8; destruct HR; lia]. }
        destruct (for_range_total (fun s => length s = t) 0 (rf / 2) (ps_full_round false P) x Lx) as (s1 & F1 & L1).
        { intros i s Hi _. apply FR; lia. }
        rewrite F1. cbn [bind].
        destruct (for_range_total (fun s => length s = t) (rf / 2) (rf / 2 + rp) (ps_partial_round false P) s1 L1) as (s3 & F3 & L3).
        { intros i s Hi Hl. apply partial_rel; [rewrite E3; exact Hd|rewrite E2; exact Hs|rewrite E8; lia|lia|exact Hl|].
          rewrite E8. replace i with (rf / 2 + (i - rf / 2)) by (clear - Hi; lia). apply HW. clear - Hi; lia. }
        rewrite F3. cbn [bind].
        destruct (for_range_total (fun s => length s = t) (rf / 2 + rp) (rf + rp) (ps_full_round false P) s3 L3) as (s4 & F4 & L4).
        { intros i s Hi _. apply FR; lia. }
        eauto.
    Qed.
  End Square.

  Lemma opt_ends dbg P (x : list F) : ends (ps_permutation dbg P x).
  Proof.
    unfold ps_permutation. apply ends_bind; [apply ends_assert|intros _].
    apply ends_bind; [apply ends_for_range; intros; apply full_round_ends|intros s].
    apply ends_bind; [apply ends_uadd|intros u]. apply ends_bind; [apply ends_idx|intros c].
    apply ends_bind; [apply ps_matmul_ends|intros s'].
    apply ends_bind; [|intros s''; apply ends_for_range; intros; apply full_round_ends].
    apply ends_for_range. intros i a. unfold ps_opt_partial_round.
    apply ends_bind; [apply ends_idx|intros b]. apply ends_bind; [apply ps_sbox_p_ends|intros y].
    apply ends_bind; [apply ends_upd|intros a']. apply ends_bind; [ends|intros a'']. unfold ps_cheap_matmul. ends.
  Qed.

  Lemma release_panics dbg P (x : list F) :
    ((exists y, ps_permutation dbg P x = Ok y) \/ ps_permutation dbg P x = Panic) /\
    ((exists y, ps_permutation_not_opt dbg P x = Ok y) \/ ps_permutation_not_opt dbg P x = Panic).
  Proof. split; apply ends_cases; [apply opt_ends|apply not_opt_ends]. Qed.

  Lemma release_iff t d rf rp (mds rc : list (list F)) P x :
    ps_new false t d rf rp mds rc = Ok P -> (N.of_nat rf + N.of_nat rp < usize_mod)%N ->
    ((exists y, ps_permutation false P x = Ok y) <-> length x = t /\ (rf = 0 \/ rf + rp <= length rc)) /\
    ((exists y, ps_permutation_not_opt false P x = Ok y) <->
       length x = t /\ (rf = 0 \/ rf + rp <= length rc) /\ forall k, k < rp -> nth (rf / 2 + k) rc [] <> []).
  Proof.
    intros HN Hov. destruct (accepted_form _ _ _ _ _ _ _ _ HF HN) as [Hw HZ].
    pose proof (surplus_ignored false t d rf rp mds rc HF Hw HZ) as H. rewrite HN in H.
    destruct (ps_new false t d rf rp (narrow t mds) rc) as [P'| |] eqn:E2; [|contradiction|contradiction].
    destruct (H x) as [-> ->]. split.
    - exact (opt_rel t d rf rp _ _ _ E2 Hov (narrow_dims t mds Hw) x).
    - exact (not_opt_rel t d rf rp _ _ _ E2 Hov (narrow_dims t mds Hw) x).
  Qed.
End Rel.
