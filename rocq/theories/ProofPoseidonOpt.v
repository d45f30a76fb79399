(** * Poseidon: optimised = unoptimised, construction, profiles (C14, C16, C20) *)
From Verif Require Import Base Field Spec LinAlg LoopLemmas MatLoops FieldPow Bij ModelUtils ModelPoseidon2 ModelPoseidon
  SpecPoseidon SpecPoseidon2 ProofPoseidon2 ProofMatInverse ProofMatHelpers ProofEquivRC ProofPoseidon.

Section PsOpt.
  Context {F : Type} {Fo : FOps F} (HF : is_field Fo).
  Add Ring FringPsO : (ff_ring _ HF).

  (** ** optimised constants *)
  Lemma ps_erc_ok dbg t (rc mds : list (list F)) rfb rp opt :
    dims t t mds -> 2 <= t -> (N.of_nat rfb + N.of_nat rp < usize_mod)%N ->
    ps_equivalent_round_constants dbg rc mds rfb rp = Ok opt ->
    1 <= rp /\ leading_blocks t (entry mds) /\ rows_ok t rc rfb rp dbg /\ rfb + rp - 1 < length rc /\
    exists inv, mat_inverse dbg mds = Ok inv /\ is_inverse t (entry mds) (entry inv) /\ length opt = rp /\
      nth 0 opt [] = tmpd t (entry inv) rc rfb rp (rp - 1) /\
      forall k, 1 <= k < rp -> nth k opt [] = [optc t (entry inv) rc rfb rp k].
  Proof.
    intros Hd Ht Hov H. unfold ps_equivalent_round_constants in H.
    inv_ok H. rename a into inv, E into Einv.
    rewrite uadd_ok in H by lia. cbn [bind] in H. inv_ok H. inv_ok H.
    destruct rp as [|rp'] eqn:Erp; [|rewrite <- Erp in *].
    - exfalso. inv_ok H. inv_ok H. destruct a2 as [o tm]. 
      match type of E2 with for_range_rev 0 a1 ?b ?s = _ => change b with (erc_body dbg inv rc rfb) in E2 end.
      rewrite erc_zero in E2; [discriminate E2|exact E1|]. simpl; lia.
    - assert (Hp : 1 <= rp) by lia. rewrite (usub_ok dbg (rfb + rp) 1) in E by lia. injection E as <-.
      rewrite usub_ok in H by lia. cbn [bind] in H.
      assert (Hl : rfb + rp - 1 < length rc) by (apply (idx_inv _ _ _ E0)).
      rewrite (idx_ok []) in E0 by exact Hl. injection E0 as <-.
      match type of H with bind (for_range_rev 0 _ ?b ?s) _ = _ => change b with (erc_body dbg inv rc rfb) in H end.
      destruct (mat_inverse_sound HF _ _ _ _ Hd Einv) as [Hdi HI].
      apply bind_ok in H. destruct H as [r [EL H]].
      pose proof (erc_loop_rows HF dbg t inv rc rfb rp _ r Hdi Ht ltac:(lia) Hp EL) as HR.
      destruct (erc_loop HF t (entry inv) rc rfb rp dbg inv Hdi ltac:(reflexivity) ltac:(lia) ltac:(lia)
                  (repeat [] rp) HR Hp ltac:(rewrite repeat_length; lia)) as [o [EL' [Ho1 [Ho2 _]]]].
      rewrite EL in EL'. injection EL' as ->. rewrite repeat_length in Ho1.
      rewrite upd_ok in H by lia. injection H as <-.
      split; [exact Hp|]. split; [exact (proj1 (proj1 (mat_inverse_success HF dbg t mds ltac:(lia) Hd)) (ex_intro _ _ Einv))|].
      split; [exact HR|]. split; [exact Hl|]. exists inv. split; [exact Einv|]. split; [exact HI|]. split; [rewrite set_nth_length; lia|]. split.
      + rewrite set_nth_nth by lia. reflexivity.
      + intros k Hk. rewrite set_nth_nth by lia. destruct (Nat.eqb_spec k 0); [lia|]. apply Ho2. exact Hk.
  Qed.

  Lemma ps_erc_returns dbg t (rc mds : list (list F)) rfb rp :
    dims t t mds -> 2 <= t -> (N.of_nat rfb + N.of_nat rp < usize_mod)%N -> 1 <= rp ->
    leading_blocks t (entry mds) ->
    (forall k, k < rp -> length (nth (rfb + k) rc []) = t) ->
    exists opt, ps_equivalent_round_constants dbg rc mds rfb rp = Ok opt.
  Proof.
    intros Hd Ht Hov Hp HL Hrows.
    destruct (proj2 (proj1 (mat_inverse_success HF dbg t mds ltac:(lia) Hd)) HL) as [inv Einv].
    destruct (mat_inverse_sound HF _ _ _ _ Hd Einv) as [Hdi HI].
    unfold ps_equivalent_round_constants. rewrite Einv. cbn [bind].
    rewrite uadd_ok by lia. cbn [bind]. rewrite usub_ok by lia. cbn [bind].
    assert (Hl : rfb + rp - 1 < length rc).
    { destruct (le_lt_dec (length rc) (rfb + rp - 1)) as [L|L]; [|exact L].
      pose proof (Hrows (rp - 1) ltac:(lia)) as R. rewrite nth_overflow in R by lia. simpl in R. lia. }
    rewrite (idx_ok []) by exact Hl. cbn [bind]. rewrite usub_ok by lia. cbn [bind].
    match goal with |- exists o, bind (for_range_rev 0 _ ?b ?s) _ = _ => change b with (erc_body dbg inv rc rfb) end.
    destruct (erc_loop HF t (entry inv) rc rfb rp dbg inv Hdi ltac:(reflexivity) ltac:(lia) ltac:(lia)
                  (repeat [] rp)) as [o [EL [Ho1 _]]].
    - split; [intros k Hk; rewrite Hrows by lia; auto|]. intros _. specialize (Hrows 0 ltac:(lia)). rewrite Nat.add_0_r in Hrows. lia.
    - exact Hp.
    - rewrite repeat_length; lia.
    - rewrite EL. cbn [bind]. rewrite repeat_length in Ho1. rewrite upd_ok by lia. eexists; reflexivity.
  Qed.

  (** ** cheap_matmul *)
  Lemma ps_cheap_matmul_ok P (M : @mat F) k x : 2 <= ps_t P -> length x = ps_t P ->
    idx2 (ps_mds P) 0 0 = Ok (M 0 0) ->
    k < length (ps_v P) -> k < length (ps_w_hat P) ->
    nth k (ps_v P) [] = v_of (ps_t P) (MM (ps_t P) M k) ->
    length (nth k (ps_w_hat P) []) = ps_t P - 1 ->
    ps_cheap_matmul P x k = Ok (mat_apply (ps_t P) (ps_t P) (Cm (ps_t P) M k (nth k (ps_w_hat P) [])) x).
  Proof.
    intros Ht Hx E00 Lv Lw Ev Ew. set (t := ps_t P) in *. set (w := nth k (ps_w_hat P) []) in *.
    unfold ps_cheap_matmul. rewrite (idx_ok []) by exact Lv. cbn [bind]. rewrite (idx_ok []) by exact Lw. cbn [bind].
    fold t. fold w. rewrite Ev, E00. cbn [bind].
    rewrite upd_ok by (rewrite repeat_length; lia). cbn [bind].
    rewrite (idx_ok f0) by lia. cbn [bind].
    rewrite (idx_ok f0) by (rewrite set_nth_length; rewrite repeat_length; lia). cbn [bind].
    rewrite set_nth_nth by (rewrite repeat_length; lia). cbn [Nat.eqb].
    rewrite upd_ok by (rewrite set_nth_length; rewrite repeat_length; lia). cbn [bind].
    set (ns := set_nth _ 0 (fmul (M 0 0) (nth 0 x f0))).
    assert (Lns : length ns = t) by (unfold ns; rewrite !set_nth_length; rewrite ?set_nth_length; rewrite repeat_length; lia).
    rewrite (for_range_acc HF 0 1 t (fun i => fmul (nth (i - 1) w f0) (nth i x f0))); [|lia|lia|].
    2:{ intros i s Hi Hs _. rewrite (idx_ok f0) by lia. cbn [bind]. rewrite (idx_ok f0) by lia. cbn [bind].
        rewrite (idx_ok f0) by lia. reflexivity. }
    cbn [bind]. set (ns1 := set_nth ns 0 _).
    assert (Lns1 : length ns1 = t) by (unfold ns1; rewrite set_nth_length; lia).
    rewrite (for_range_inplace f0 (fun i _ => fadd (fmul (nth 0 x f0) (MM t M k 0 i)) (nth i x f0))); [|lia|lia|].
    2:{ intros i s Hi Hs _. rewrite upd_ok by lia. cbn [bind].
        rewrite (idx_ok f0) by (rewrite set_nth_length; lia). cbn [bind].
        assert (Lvo : length (v_of t (MM t M k)) = t - 1) by (unfold v_of; rewrite map_length, seq_length; reflexivity).
        rewrite (idx_ok f0) by lia. cbn [bind].
        rewrite (idx_ok f0) by lia. cbn [bind]. rewrite set_nth_nth by lia. rewrite Nat.eqb_refl.
        rewrite !upd_ok by (rewrite ?set_nth_length; lia). f_equal.
        unfold v_of. rewrite nth_map_seq by lia. replace (S (i - 1)) with i by lia.
        apply (list_ext f0); [rewrite !set_nth_length; rewrite ?set_nth_length; lia|].
        intros j Hj. rewrite !set_nth_length in Hj by (rewrite ?set_nth_length; lia).
        rewrite !set_nth_nth by (rewrite ?set_nth_length; lia). destruct (Nat.eqb_spec j i); reflexivity. }
    f_equal. rewrite Lns1. apply map_seq_ext. intros i Hi.
    assert (ES : t = S (t - 1)) by lia.
    destruct (Nat.leb_spec 1 i) as [L1|L1].
    - destruct (Nat.ltb_spec i t) as [L2|L2]; [|lia]. cbn [andb].
      replace (sumn t (fun j => fmul (Cm t M k w i j) (nth j x f0))) with
        (sumn (S (t - 1)) (fun j => fmul (Cm t M k w i j) (nth j x f0))) by (rewrite <- ES; reflexivity).
      rewrite (sumn_first HF). rewrite (sumn_single HF (t - 1) (i - 1)); [|lia|].
      + unfold Cm. destruct (Nat.eqb_spec i 0); [lia|]. cbn [Nat.eqb].
        replace (S (i - 1)) with i by lia. unfold mat_id. rewrite Nat.eqb_refl. ring.
      + intros j Hj Hne. unfold Cm. destruct (Nat.eqb_spec i 0); [lia|]. cbn [Nat.eqb]. unfold mat_id.
        destruct (Nat.eqb_spec i (S j)); [lia|]. ring.
    - assert (i = 0) by lia. subst i. cbn [andb].
      replace (sumn t (fun j => fmul (Cm t M k w 0 j) (nth j x f0))) with
        (sumn (S (t - 1)) (fun j => fmul (Cm t M k w 0 j) (nth j x f0))) by (rewrite <- ES; reflexivity).
      rewrite (sumn_first HF). unfold ns1. rewrite set_nth_nth by lia. cbn [Nat.eqb].
      unfold ns. rewrite set_nth_nth by (rewrite set_nth_length; rewrite repeat_length; lia). cbn [Nat.eqb].
      reflexivity.
  Qed.

  (** ** the optimised middle part *)
  Definition ps_mid_opt (dbg : bool) (P : PoseidonParams F) (p_end : nat) (st : list F) : res (list F) :=
    c0 <- idx (ps_opt_rc P) 0 ;;
    st <- ps_matmul dbg (add_rc st c0) (ps_m_i P) ;;
    for_range (ps_rounds_f_beginning P) p_end (ps_opt_partial_round P p_end) st.

  Lemma fold_seq_shift {A} (f : A -> nat -> A) a n s :
    fold_left f (seq a n) s = fold_left (fun s k => f s (a + k)) (seq 0 n) s.
  Proof.
    revert a f s. induction n as [|n IH]; intros a f s; [reflexivity|]. cbn [seq fold_left].
    rewrite (IH (S a)), (IH 1). rewrite Nat.add_0_r. apply fold_left_ext_in. intros. f_equal. lia.
  Qed.

  Definition ps_matrices_ok (t rp : nat) (M : @mat F) (P : PoseidonParams F) : Prop :=
    mats_at t M rp (ps_v P) (ps_w_hat P) /\ ps_m_i P = mk_mat t t (Dm t M (rp - 1)).

  Lemma ps_eqmat_ok dbg t (mds : list (list F)) rp mi v w : dims t t mds -> 2 <= t -> 1 <= rp ->
    ps_equivalent_matrices dbg mds t rp = Ok (mi, v, w) ->
    (forall k, k < rp -> leading_blocks (t - 1) (drop0 (MM t (entry mds) k))) /\
    mats_at t (entry mds) rp v w /\ mi = mk_mat t t (Dm t (entry mds) (rp - 1)).
  Proof.
    intros Hd Ht Hp H. unfold ps_equivalent_matrices in H.
    rewrite (mat_transpose_ok mds t t) in H; [|apply Hd|lia|apply Hd; lia|intros i Hi; rewrite (proj2 Hd) by exact Hi; lia].
    cbn [bind] in H. change (fun i j => entry mds j i) with (tr (entry mds)) in H.
    destruct (eqmat_loop HF t (entry mds) Ht dbg rp) as [[HL [mi' [v' [w' [E [HM [Hmi Hdm]]]]]]]|[_ E]].
    - rewrite E in H. cbn [bind] in H. rewrite (Hmi Hp) in H.
      rewrite (mat_transpose_ok _ t t) in H; [|apply mk_mat_length|lia|rewrite mk_mat_row, map_length, seq_length by lia; reflexivity|].
      2:{ intros i Hi. rewrite mk_mat_row, map_length, seq_length by lia. lia. }
      cbn [bind] in H. injection H as <- <- <-. split; [exact HL|]. split; [exact HM|].
      apply mk_mat_ext. intros i j Hi Hj. rewrite mk_mat_entry by assumption. reflexivity.
    - rewrite E in H. discriminate H.
  Qed.

  Section Middle.
    Context (dbg : bool) (t d rf rp : nat) (mds rc : list (list F)) (P : PoseidonParams F)
            (Hd : dims t t mds) (Ht : 2 <= t) (Hov : (N.of_nat rf + N.of_nat rp < usize_mod)%N)
            (HN : ps_new dbg t d rf rp mds rc = Ok P).

    Lemma ps_new_rp : 1 <= rp.
    Proof.
      destruct (ps_new_ok _ _ _ _ _ _ _ _ HN Hov) as [_ [_ [_ [m_i [v [w [opt [_ [E _]]]]]]]]].
      apply (ps_erc_ok _ _ _ _ _ _ _ Hd Ht) in E; [apply E|]. pose proof (Nat.div_le_upper_bound rf 2 rf). lia.
    Qed.

    Lemma ps_opt_partial_ok (opt : list (list F)) inv k x :
      ps_t P = t -> ps_d P = d -> ps_mds P = mds -> ps_rounds_f_beginning P = rf / 2 ->
      ps_opt_rc P = opt -> length opt = rp ->
      (forall k, 1 <= k < rp -> nth k opt [] = [optc t (entry inv) rc (rf / 2) rp k]) ->
      sbox_degree d -> mats_at t (entry mds) rp (ps_v P) (ps_w_hat P) ->
      k < rp -> length x = t ->
      ps_opt_partial_round P (rf / 2 + rp) (rf / 2 + k) x =
        Ok (opt_round t (entry mds) d rp (ps_w_hat P) (postc t (entry inv) rc (rf / 2) rp) x k).
    Proof.
      intros E1 E2 E3 E4 E5 Lo Ho Hs [Lv [Lw HM]] Hk Hx.
      unfold ps_opt_partial_round. rewrite (idx_ok f0) by lia. cbn [bind].
      rewrite (ps_sbox_p_ok HF) by (rewrite E2; exact Hs). cbn [bind].
      rewrite upd_ok by lia. cbn [bind]. rewrite E2, E4, E5.
      replace (rf / 2 + rp - 1) with (rf / 2 + (rp - 1)) by (clear - Hk; lia).
      set (y := map (fun i => if i =? 0 then fadd (fpow (nth 0 x f0) d) (postc t (entry inv) rc (rf / 2) rp k) else nth i x f0) (seq 0 t)).
      transitivity (ps_cheap_matmul P y (rp - 1 - k)).
      - assert (Ei : rf / 2 + rp - (rf / 2 + k) - 1 = rp - 1 - k) by (clear - Hk; lia). rewrite Ei.
        destruct (Nat.ltb_spec (rf / 2 + k) (rf / 2 + (rp - 1))) as [L|L].
        + rewrite (idx_ok f0) by (rewrite set_nth_length; lia). cbn [bind].
          assert (E0 : rf / 2 + k + 1 - rf / 2 = S k) by (clear; lia). rewrite E0.
          unfold idx2. rewrite (idx_ok []) by lia. cbn [bind]. rewrite Ho by lia. cbn [idx nth_error bind].
          rewrite upd_ok by (rewrite set_nth_length; lia). cbn [bind]. f_equal.
          apply (list_ext f0).
          * rewrite !set_nth_length; rewrite ?set_nth_length; unfold y; rewrite ?map_length, ?seq_length; lia.
          * intros i Hi. rewrite !set_nth_length in Hi by (rewrite ?set_nth_length; lia).
            rewrite !set_nth_nth by (rewrite ?set_nth_length; lia). unfold y. rewrite nth_map_seq by lia.
            cbn [Nat.eqb]. unfold postc. destruct (Nat.ltb_spec k (rp - 1)); [|lia].
            destruct (Nat.eqb_spec i 0); reflexivity.
        + cbn [bind]. f_equal. apply (list_ext f0).
          * rewrite !set_nth_length; unfold y; rewrite ?map_length, ?seq_length; lia.
          * intros i Hi. rewrite !set_nth_length in Hi by lia.
            rewrite !set_nth_nth by lia. unfold y. rewrite nth_map_seq by lia.
            unfold postc. destruct (Nat.ltb_spec k (rp - 1)); [lia|].
            destruct (Nat.eqb_spec i 0); [ring|reflexivity].
      - destruct (HM (rp - 1 - k) ltac:(lia)) as [Hv [Hw _]].
        rewrite (ps_cheap_matmul_ok P (entry mds)).
        + rewrite E1. reflexivity.
        + rewrite E1; exact Ht.
        + unfold y. rewrite map_length, seq_length. congruence.
        + rewrite E3. unfold idx2. rewrite (idx_ok []) by (rewrite (proj1 Hd); lia). cbn [bind].
          rewrite (idx_ok f0) by (rewrite (proj2 Hd) by lia; lia). reflexivity.
        + lia.
        + lia.
        + rewrite E1. exact Hv.
        + rewrite E1. exact Hw.
    Qed.

    (** the optimised partial rounds compute the reference partial rounds *)
    Lemma ps_mid_opt_ok x :
      (forall k, k < rp -> t <= length (nth (rf / 2 + k) rc [])) -> length x = t ->
      ps_mid_opt dbg P (rf / 2 + rp) x =
        Ok (fold_left (fun s r => ps_ref_partial t d (entry mds) (nth r rc []) s) (seq (rf / 2) rp) x).
    Proof.
      intros HR Hx. pose proof ps_new_rp as Hp.
      destruct (ps_new_ok _ _ _ _ _ _ _ _ HN Hov) as [Hs [_ [_ [m_i [v [w [opt [EM [EC EP]]]]]]]]].
      assert (Hov2 : (N.of_nat (rf / 2) + N.of_nat rp < usize_mod)%N).
      { pose proof (Nat.div_le_upper_bound rf 2 rf). lia. }
      destruct (ps_erc_ok _ _ _ _ _ _ _ Hd Ht Hov2 EC) as [_ [_ [_ [_ [inv [_ [HI [Lo [Ho0 Ho]]]]]]]]].
      destruct (ps_eqmat_ok _ _ _ _ _ _ _ Hd Ht Hp EM) as [_ [HM Emi]].
      unfold ps_mid_opt.
      assert (E1 : ps_t P = t) by (rewrite EP; reflexivity). assert (E2 : ps_d P = d) by (rewrite EP; reflexivity).
      assert (E3 : ps_mds P = mds) by (rewrite EP; reflexivity). assert (E4 : ps_rounds_f_beginning P = rf / 2) by (rewrite EP; reflexivity).
      assert (E5 : ps_opt_rc P = opt) by (rewrite EP; reflexivity). assert (E6 : ps_m_i P = m_i) by (rewrite EP; reflexivity).
      assert (E7 : mats_at t (entry mds) rp (ps_v P) (ps_w_hat P)) by (rewrite EP; exact HM).
      rewrite E4, E5, E6. rewrite (idx_ok []) by lia. cbn [bind]. rewrite Ho0.
      rewrite (add_rc_ok _ _ t); [|exact Hx|rewrite tmpd_length].
      2:{ replace (rf / 2 + rp - 1 - (rp - 1)) with (rf / 2 + 0) by (clear - Hp; lia). apply HR. lia. }
      rewrite Emi. rewrite (ps_matmul_sq HF dbg t); [|apply mk_mat_dims|rewrite map_length, seq_length; reflexivity]. cbn [bind].
      rewrite (mat_apply_ext t t _ (Dm t (entry mds) (rp - 1)) _ (map (fun i => fadd (nth i x f0) (nth i (tmpd t (entry inv) rc (rf / 2) rp (rp - 1)) f0)) (seq 0 t))); [|intros i j Hi Hj; apply mk_mat_entry; assumption|reflexivity].
      edestruct (for_range_fold (fun s r => opt_round t (entry mds) d rp (ps_w_hat P) (postc t (entry inv) rc (rf / 2) rp) s (r - rf / 2)) (fun s => length s = t)
        (rf / 2) (rf / 2 + rp) (ps_opt_partial_round P (rf / 2 + rp))) as [EL _].
      { apply mat_apply_length. }
      { intros i s Hi Hl. split; [|apply mat_apply_length]. replace i with (rf / 2 + (i - rf / 2)) at 1 by (clear - Hi; lia).
        apply (ps_opt_partial_ok opt); try assumption. clear - Hi; lia. }
      rewrite EL. f_equal. replace (rf / 2 + rp - rf / 2) with rp by (clear; lia).
      rewrite fold_seq_shift.
      rewrite (fold_left_ext_in _ (opt_round t (entry mds) d rp (ps_w_hat P) (postc t (entry inv) rc (rf / 2) rp)) (seq 0 rp)).
      2:{ intros a b _. f_equal. lia. }
      rewrite (opt_run HF t (entry mds) Ht d rp (ps_w_hat P)); [|intros l Hl; apply (proj2 (proj2 E7)); exact Hl|exact Hp].
      symmetry. apply (move_all HF t d (entry mds) (entry inv) HI rc (rf / 2) rp ltac:(lia) x Hp).
      intros k Hk. apply HR. lia.
    Qed.
  End Middle.
End PsOpt.
