(** * ProofAccept: the exact success condition of the Poseidon constructor *)
From Verif Require Import Base Field Spec LinAlg LoopLemmas MatLoops FieldPow Bij Poly ModelUtils ModelPoseidon2 ModelPoseidon
  SpecPoseidon SpecPoseidon2 ProofPoseidon2 ProofPoseidon2Bij ProofMatInverse ProofMatHelpers ProofEquivRC ProofPoseidon ProofPoseidonOpt
  ProofPoseidonFin ProofTotal SpecRagged ProofRagged SpecAccept.

Section Accept.
  Context {F : Type} {Fo : FOps F} (HF : is_field Fo).

  Lemma shape_rows dbg t r rp (rc : list (list F)) : 1 <= rp ->
    (rows_ok t rc r rp dbg /\ r + rp - 1 < length rc <-> constants_shape dbg t r rp rc).
  Proof.
    intros Hp. unfold rows_ok, constants_shape. split.
    - intros [[H1 H2] H3]. split; [lia|]. intros H. split; [apply H2; exact H|]. split.
      + intros k Hk Hk2. apply (H1 k ltac:(lia)). right. lia.
      + destruct (H1 (rp - 1) ltac:(lia)) as [A B]. replace (r + rp - 1) with (r + (rp - 1)) by lia.
        destruct dbg; [apply B; left; reflexivity|exact A].
    - intros [H1 H2]. split; [|lia]. split.
      + intros k Hk. destruct (H2 ltac:(lia)) as (_ & B & C). destruct (Nat.eq_dec k (rp - 1)) as [->|N].
        * replace (r + (rp - 1)) with (r + rp - 1) by lia. destruct dbg; [split; [lia|intros _; exact C]|].
          split; [exact C|]. intros [Hd|Hd]; [discriminate|lia].
        * rewrite B by lia. auto.
      + intros H. apply H2. exact H.
  Qed.

  Lemma erc_returns dbg t (rc mds : list (list F)) rfb rp :
    dims t t mds -> 2 <= t -> (N.of_nat rfb + N.of_nat rp < usize_mod)%N -> 1 <= rp ->
    leading_blocks t (entry mds) -> rows_ok t rc rfb rp dbg -> rfb + rp - 1 < length rc ->
    exists opt, ps_equivalent_round_constants dbg rc mds rfb rp = Ok opt.
  Proof.
    intros Hd Ht Hov Hp HL HR Hl.
    destruct (proj2 (proj1 (mat_inverse_success HF dbg t mds ltac:(lia) Hd)) HL) as [inv Einv].
    destruct (mat_inverse_sound HF _ _ _ _ Hd Einv) as [Hdi HI].
    unfold ps_equivalent_round_constants. rewrite Einv. cbn [bind].
    rewrite uadd_ok by lia. cbn [bind]. rewrite usub_ok by lia. cbn [bind].
    rewrite (idx_ok []) by exact Hl. cbn [bind]. rewrite usub_ok by lia. cbn [bind].
    match goal with |- exists o, bind (for_range_rev 0 _ ?b ?s) _ = _ => change b with (erc_body dbg inv rc rfb) end.
    destruct (erc_loop HF t (entry inv) rc rfb rp dbg inv Hdi ltac:(reflexivity) ltac:(lia) ltac:(lia)
                  (repeat [] rp) HR Hp ltac:(rewrite repeat_length; lia)) as [o [EL [Ho1 _]]].
    rewrite EL. cbn [bind]. rewrite repeat_length in Ho1. rewrite upd_ok by lia. eexists; reflexivity.
  Qed.

  Lemma success_square dbg t d rf rp (mds rc : list (list F)) :
    dims t t mds -> (N.of_nat rf + N.of_nat rp < usize_mod)%N ->
    ((exists P, ps_new dbg t d rf rp mds rc = Ok P) <->
      sbox_degree d /\ rf mod 2 = 0 /\ 2 <= t /\ 1 <= rp /\ constants_shape dbg t (rf / 2) rp rc /\
      leading_blocks t (entry mds) /\
      (forall k, 1 <= k <= rp -> leading_blocks (t - 1) (mat_pow (t - 1) (drop0 (entry mds)) k))).
  Proof.
    intros Hd Hov. split.
    - intros [P H]. pose proof (ps_new_wide _ _ _ _ _ _ _ _ H) as [Ht Hp].
      destruct (ps_new_ok _ _ _ _ _ _ _ _ H Hov) as [Hs [_ [He [m_i [v [w [opt [EM [EC _]]]]]]]]].
      destruct (ps_erc_ok HF _ _ _ _ _ _ _ Hd Ht (half_ov _ _ Hov) EC) as [_ [HL [HR [Hl _]]]].
      destruct (ps_eqmat_ok HF _ _ _ _ _ _ _ Hd Ht Hp EM) as [HLM _].
      do 4 (split; [assumption|]). split; [apply shape_rows; auto|]. split; [exact HL|].
      intros k Hk. replace k with (S (k - 1)) by lia. apply leading_MM; [exact HF|exact Ht|]. apply HLM. lia.
    - intros [Hs [He [Ht [Hp [HC [HL HLM]]]]]]. apply shape_rows in HC; [|exact Hp]. destruct HC as [HR Hl].
      destruct (ps_eqmat_returns HF dbg t mds rp Hd Ht Hp) as [[[mi v] w] EM].
      { intros k Hk. apply leading_MM; [exact HF|exact Ht|]. apply HLM. lia. }
      destruct (erc_returns dbg t rc mds (rf / 2) rp Hd Ht (half_ov _ _ Hov) Hp HL HR Hl) as [opt EC].
      unfold ps_new. rewrite (proj2 (degree_bool d) Hs). cbn [assert bind].
      rewrite (proj1 Hd), Nat.eqb_refl. cbn [assert bind]. rewrite He. cbn [Nat.eqb assert bind].
      rewrite uadd_ok by exact Hov. cbn [bind]. rewrite EM. cbn [bind]. rewrite EC. cbn [bind]. eexists. reflexivity.
  Qed.

  Lemma success_any dbg t d rf rp (mds rc : list (list F)) :
    (N.of_nat rf + N.of_nat rp < usize_mod)%N ->
    ((exists P, ps_new dbg t d rf rp mds rc = Ok P) <->
      sbox_degree d /\ rf mod 2 = 0 /\ 2 <= t /\ 1 <= rp /\
      wide t mds /\ (dbg = true -> surplus_zero t mds) /\ constants_shape dbg t (rf / 2) rp rc /\
      leading_blocks t (entry (narrow t mds)) /\
      (forall k, 1 <= k <= rp -> leading_blocks (t - 1) (mat_pow (t - 1) (drop0 (entry (narrow t mds))) k))).
  Proof.
    intros Hov. split.
    - intros [P E]. destruct (accepted_form _ _ _ _ _ _ _ _ HF E) as [Hw HZ].
      pose proof (surplus_ignored dbg t d rf rp mds rc HF Hw HZ) as H. rewrite E in H.
      destruct (ps_new dbg t d rf rp (narrow t mds) rc) as [P'| |] eqn:E'; [|contradiction|contradiction].
      destruct (proj1 (success_square dbg t d rf rp (narrow t mds) rc (narrow_dims t mds Hw) Hov) (ex_intro _ _ E')) as (A1 & A2 & A3 & A4 & A5 & A6 & A7).
      repeat (split; [assumption|]). exact A7.
    - intros (A1 & A2 & A3 & A4 & Hw & HZ & A5 & A6 & A7).
      destruct (proj2 (success_square dbg t d rf rp (narrow t mds) rc (narrow_dims t mds Hw) Hov)) as [P' E'].
      { repeat (split; [assumption|]). exact A7. }
      pose proof (surplus_ignored dbg t d rf rp mds rc HF Hw HZ) as H. rewrite E' in H.
      destruct (ps_new dbg t d rf rp mds rc) as [P| |]; [eauto|contradiction|contradiction].
  Qed.

  Lemma debug_no_overflow t d rf rp (mds rc : list (list F)) P :
    ps_new true t d rf rp mds rc = Ok P -> (N.of_nat rf + N.of_nat rp < usize_mod)%N.
  Proof.
    unfold ps_new. intros E. do 3 (apply bind_ok in E; destruct E as (? & _ & E)). apply bind_ok in E. destruct E as (u & Hu & _).
    unfold uadd in Hu. destruct (N.ltb_spec (N.of_nat rf + N.of_nat rp) usize_mod); [assumption|discriminate].
  Qed.

  Lemma new_ends dbg t d rf rp (mds rc : list (list F)) :
    (exists P, ps_new dbg t d rf rp mds rc = Ok P) \/ ps_new dbg t d rf rp mds rc = Panic.
  Proof. apply ends_cases. apply ps_new_ends. Qed.

  Lemma debug_in_release t d rf rp (mds rc : list (list F)) P :
    ps_new true t d rf rp mds rc = Ok P -> exists P', ps_new false t d rf rp mds rc = Ok P'.
  Proof.
    intros E. pose proof (debug_no_overflow _ _ _ _ _ _ _ E) as Hov.
    destruct (proj1 (success_any true t d rf rp mds rc Hov) (ex_intro _ _ E)) as (A1 & A2 & A3 & A4 & Hw & HZ & A5 & A6 & A7).
    apply success_any; [exact Hov|]. repeat (split; [assumption|]). split; [discriminate|]. split; [|split; assumption].
    destruct A5 as [B1 B2]. split; [exact B1|]. intros H. destruct (B2 H) as (C1 & C2 & C3). split; [exact C1|]. split; [exact C2|]. lia.
  Qed.
End Accept.
