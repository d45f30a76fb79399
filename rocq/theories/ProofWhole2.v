(** * ProofWhole2: S-boxes with different inputs over the permutations of Poseidon2, Poseidon and Neptune *)
From Coq Require Import Znumtheory.
From Verif Require Import Base Field Spec FieldPow LinAlg LoopLemmas Bij Elim MDS SpecMDS SpecPoseidon2 SpecPoseidon SpecNeptune SpecBranch SpecPairs SpecFirst SpecWhole
  SpecInstances ModelPoseidon2 ModelPoseidon ModelNeptune ModelInstances ModelFields ModelSubspace ProofPoseidon2 ProofPoseidon ProofNeptuneParams ProofNeptuneBij
  ProofBranch2 ProofPairs ProofPairs2 ProofQuiet ProofQuiet2 ProofWhole.
From Verif Require ProofPoseidon2Bij ProofPoseidonFin ProofQuiet3 ProofInstances ProofKats ProofGrain4 ProofTrail2.
Local Open Scope nat_scope.

Section Whole2.
  Context {F : Type} {Fo : FOps F} {p : Z} (HP : is_prime_field Fo p).
  Let HF : is_field Fo := prime_field_is_field HP.
  Add Ring FringWh2 : (ff_ring _ HF).

  Lemma differ_pos t (u v : list F) : length u = t -> length v = t -> u <> v -> 1 <= differ u v.
  Proof.
    intros Lu Lv N. rewrite (differ_weight HF t) by exact Lu. pose proof (dv_nonzero HF t u v Lu Lv N) as D.
    destruct (weight (dv t u v)) eqn:E; [|lia]. exfalso. apply D, (zero_list HP); [apply dv_length|exact E].
  Qed.
  Lemma differ_pairs_pos t (u v : list F) : t mod 2 = 0 -> length u = t -> length v = t -> u <> v -> 1 <= differ_pairs u v.
  Proof.
    intros Ht Lu Lv N. pose proof (Nat.div_mod t 2 ltac:(lia)) as Dm. assert (E : t = 2 * (t / 2)) by lia.
    rewrite (differ_pairs_pw HP (t / 2)) by lia. pose proof (dv_nonzero HF t u v Lu Lv N) as D.
    rewrite E in D at 1 2. pose proof (pw_evens (t / 2) (dv (2 * (t / 2)) u v)). pose proof (pw_odds (t / 2) (dv (2 * (t / 2)) u v)).
    destruct (pw_pos HP (t / 2) _ (dv_length _ u v) D); lia.
  Qed.
  Lemma active_none t (step : nat -> list F -> res (list F)) lo m : m = 0 -> active_rounds t step lo 0 m.
  Proof. intros -> x y _ _ _. exists (fun _ => x), (fun _ => y). split; [intros k Hk; lia|]. split; [intros k Hk; lia|lia]. Qed.
  Lemma active_le_words t (f : list F -> res (list F)) b : active_words t f b -> forall u v u' v', length u = t -> length v = t -> u <> v ->
    f u = Ok u' -> f v = Ok v' -> b <= differ u v + differ u' v'.
  Proof.
    intros [H _] u v u' v' Lu Lv N Eu Ev. destruct (H u v Lu Lv N) as [a [c [Ea [Ec Hb]]]]. rewrite Eu in Ea. rewrite Ev in Ec.
    injection Ea as <-. injection Ec as <-. exact Hb.
  Qed.

  Theorem p2_whole dbg t d rf rp (diag : list F) mi rc P :
    p2_new dbg t d rf rp diag mi rc = Ok P -> (N.of_nat rf + N.of_nat rp < usize_mod)%N ->
    p2_width t -> ~ In p (branch_bad_primes t) -> sbox_degree d -> Z.gcd (Z.of_nat d) (p - 1) = 1%Z -> p2_data_ok t rf rp diag rc ->
    rp = 0 \/ invertible t (int_matrix t diag) /\ (4 <= t -> distinct_from_1 t (fun i => nth i diag f0)) ->
    whole_active t differ (p2_permutation dbg P) (p2_matmul_external P) (p2_full_round P) (p2_partial_round P) (rf / 2) (rf / 2 + rp) (rf + rp)
      (whole_bound rf (p2_branch t) (rp / t)).
  Proof.
    intros HN Hov W Hbad Hd Hg HD HI. pose proof HD as [D1 [D2 D3]].
    destruct (p2_new_ok _ _ _ _ _ _ _ _ _ HN Hov) as [_ [He EP]]. pose proof (Nat.div_mod rf 2 ltac:(lia)) as Dm. pose proof (p2_width_pos _ W) as W2.
    assert (HB : bijective_on t (p2_permutation dbg P)).
    { apply (ProofPoseidon2Bij.p2_permutation_bijective HP dbg t d rf rp diag mi rc P HN Hov W Hd HD Hg).
      - intros X. pose proof (ext_nonsing HP t W Hbad) as NS.
        apply (nonsingular_invertible HF) in NS. apply (ProofPoseidon2Lin.ext_invertible_iff HP t W) in NS. exact (NS X).
      - destruct HI as [Z|[I1 _]]; [left; exact Z|right; exact I1]. }
    assert (HFa : forall r, r < rf / 2 \/ rf / 2 + rp <= r < rf + rp -> active_words t (p2_full_round P r) (p2_branch t)).
    { intros r Hr. apply (p2_full_active HP dbg t d rf rp diag mi rc P r HN Hov W Hbad Hd Hg). apply D1. lia. }
    assert (EB : whole_bound rf (p2_branch t) (rp / t) = rf / 2 / 2 * p2_branch t + (rf / 2) mod 2 + rp / t +
      ((rf + rp - (rf / 2 + rp)) / 2 * p2_branch t + (rf + rp - (rf / 2 + rp)) mod 2)).
    { replace (rf + rp - (rf / 2 + rp)) with (rf / 2) by lia. unfold whole_bound. ring. }
    rewrite EB. apply whole; [lia|lia| |exact HB| | | |apply differ_pos| |].
    - intros x Lx. rewrite EP. unfold p2_permutation. cbn [p2_t p2_rounds_f_beginning p2_rounds_p p2_rounds]. rewrite Lx, Nat.eqb_refl. cbn [assert bind].
      rewrite uadd_ok by lia. cbn [bind]. reflexivity.
    - intros x u Lx E. rewrite (p2_matmul_external_ok HF) in E by (rewrite EP; assumption). injection E as <-. rewrite EP. apply mat_apply_length.
    - intros r x u Hr Lx E. rewrite (p2_full_round_ok HF) in E; [|rewrite EP; assumption..|rewrite EP; apply D1; lia].
      injection E as <-. rewrite EP. apply p2_ref_full_length.
    - intros r x u Hr Lx E. rewrite (p2_partial_round_ok HF) in E; [|rewrite EP; assumption..|rewrite EP; apply D2; lia|rewrite EP; intros; apply D3; [assumption|lia]].
      injection E as <-. rewrite EP. apply p2_ref_partial_length.
    - intros r u v u' v' Hr. apply (active_le_words t _ _ (HFa r Hr)).
    - replace (rf / 2 + rp - rf / 2) with rp by lia. destruct (Nat.eq_dec rp 0) as [Z|Z].
      + rewrite Z. apply active_none. apply Nat.div_0_l. lia.
      + destruct HI as [?|[I1 I2]]; [contradiction|].
        apply (p2_count HP dbg t d rf rp diag mi rc P (rf / 2) rp HN Hov W Hd); [intros; apply D3; lia|exact D2|exact Hg|exact I1|exact I2].
  Qed.

  Theorem ps_whole dbg t d rf rp (mds rc : list (list F)) P :
    ps_new dbg t d rf rp mds rc = Ok P -> (N.of_nat rf + N.of_nat rp < usize_mod)%N ->
    dims t t mds -> (forall r, r < rf + rp -> t <= length (nth r rc [])) -> Z.gcd (Z.of_nat d) (p - 1) = 1%Z -> is_mds t (entry mds) -> algorithm_1 (entry mds) t ->
    (forall perm, perm = ps_permutation dbg P \/ perm = ps_permutation_not_opt dbg P ->
     whole_active t differ perm (fun x => Ok x) (ps_full_round dbg P) (ps_partial_round dbg P) (rf / 2) (rf / 2 + rp) (rf + rp)
      (whole_bound rf (t + 1) (rp / t))).
  Proof.
    intros HN Hov Hdm HR Hg HM HA1. pose proof (proj1 (ProofPoseidonFin.ps_new_wide _ _ _ _ _ _ _ _ HN)) as Ht.
    destruct (ps_new_ok _ _ _ _ _ _ _ _ HN Hov) as [Hd [_ [He [m_i [v [w [opt [_ [_ EP]]]]]]]]]. pose proof (Nat.div_mod rf 2 ltac:(lia)) as Dm.
    destruct (ProofPoseidonFin.ps_permutation_bijective_iff HP dbg t d rf rp mds rc P HN Hov Hdm HR) as [_ HB]. apply proj2 in HB. specialize (HB Hg).
    assert (WF : ps_wf P) by (rewrite EP; split; [exact Hd|split; [exact Hdm|cbn [ps_t]; lia]]).
    assert (Et : ps_t P = t) by (rewrite EP; reflexivity). assert (Erc : ps_rc P = rc) by (rewrite EP; reflexivity).
    assert (HFa : forall r, r < rf + rp -> active_words t (ps_full_round dbg P r) (t + 1)).
    { intros r Hr. apply (ps_full_active HP dbg t d rf rp mds rc P r HN Hov Hdm ltac:(lia) HM Hg). apply HR, Hr. }
    assert (G : whole_active t differ (ps_permutation_not_opt dbg P) (fun x => Ok x) (ps_full_round dbg P) (ps_partial_round dbg P) (rf / 2) (rf / 2 + rp) (rf + rp)
      (whole_bound rf (t + 1) (rp / t))).
    { assert (EB : whole_bound rf (t + 1) (rp / t) = rf / 2 / 2 * (t + 1) + (rf / 2) mod 2 + rp / t +
        ((rf + rp - (rf / 2 + rp)) / 2 * (t + 1) + (rf + rp - (rf / 2 + rp)) mod 2)).
      { replace (rf + rp - (rf / 2 + rp)) with (rf / 2) by lia. unfold whole_bound. ring. }
      rewrite EB. apply whole; [lia|lia| |exact HB| | | |apply differ_pos| |].
      - intros x Lx. cbn [bind]. unfold ps_permutation_not_opt. rewrite Et, Lx, Nat.eqb_refl. cbn [assert bind]. rewrite EP.
        cbn [ps_rounds_f_beginning ps_rounds_p ps_rounds]. rewrite uadd_ok by lia. cbn [bind]. reflexivity.
      - intros x u Lx E. injection E as <-. exact Lx.
      - intros r x u Hr Lx E. rewrite (ps_full_round_ok HF dbg P r x WF) in E by (rewrite ?Et, ?Erc; (exact Lx || (apply HR; lia))). injection E as <-. rewrite Et. apply mat_apply_length.
      - intros r x u Hr Lx E. rewrite (ps_partial_round_ok HF dbg P r x WF) in E by (rewrite ?Et, ?Erc; (exact Lx || (apply HR; lia))). injection E as <-. rewrite Et. apply mat_apply_length.
      - intros r u v0 u' v' Hr. apply (active_le_words t _ _ (HFa r ltac:(lia))).
      - replace (rf / 2 + rp - rf / 2) with rp by lia.
        apply (ps_count HP dbg t d rf rp mds rc P (rf / 2) rp HN Hov Hdm); [intros r Hr; apply HR; lia|exact Hg| |exact HA1].
        apply (nonsingular_invertible HF). apply (mds_nonsingular HP). exact HM. }
    intros perm [-> | ->]; [|exact G]. intros x y Lx Ly N. destruct (G x y Lx Ly N) as [st [st' [H1 [H2 H3]]]]. exists st, st'.
    assert (EQ : forall z, ps_permutation dbg P z = ps_permutation_not_opt dbg P z).
    { intros z. apply (ProofPoseidonFin.ps_opt_eq HF dbg t d rf rp mds rc P z HN Hov Hdm). intros k Hk. apply HR. lia. }
    split; [|split; [|exact H3]]; unfold runs; rewrite EQ; [exact H1|exact H2].
  Qed.

  Theorem np_whole dbg fuel rng t d rf rp (P : NeptuneParams F) :
    np_new dbg fuel rng t d rf rp = Ok P -> (N.of_nat rf + N.of_nat rp < usize_mod)%N -> 2 <= t -> p <> 5%Z ->
    is_mds (t / 2) (even_part (entry (np_m_e P))) -> is_mds (t / 2) (odd_part (entry (np_m_e P))) ->
    rp = 0 \/ Z.gcd (Z.of_nat d) (p - 1) = 1%Z /\ invertible t (np_int_matrix (fun i => fadd (nth i (np_mu P) f0) f1)) /\
      distinct_from_1 t (fun i => nth i (np_mu P) f0) ->
    whole_active t differ_pairs (np_permutation dbg P) (np_external_matmul P) (np_external_round P) (np_internal_round P) (rf / 2) (rf / 2 + rp) (rf + rp)
      (whole_bound rf (t / 2 + 1) (rp / t)).
  Proof.
    intros HN Hov Ht N5 HE HO HI.
    destruct (np_new_ok HF _ _ _ _ _ _ _ _ HN Hov) as [[Hd [He Hev]] HM]. pose proof HM as (Et & Ed & Eb & Ep & Ee & Er & Erc & Em & Lm & _).
    pose proof (Nat.div_mod rf 2 ltac:(lia)) as Dm.
    assert (HB : bijective_on t (np_permutation dbg P)).
    { apply (np_bijective_iff HP dbg fuel rng t d rf rp P HN Hov Ht). split; [|split; [right; exact N5|destruct HI as [Z|[I1 [I2 _]]]; [left; exact Z|right; split; assumption]]].
      pose proof (new_even HP _ _ _ _ _ _ _ _ HN Hov) as Ev. pose proof (new_split HP _ _ _ _ _ _ _ _ HN Hov) as HS.
      apply (nonsingular_invertible HF). apply (linj_mat HF). intros x y Lx Ly E. destruct (list_eq_dec (feq_dec HF) x y) as [Exy|Nxy]; [exact Exy|].
      exfalso. pose proof (dv_nonzero HF t x y Lx Ly Nxy) as Nz. rewrite Ev in Nz at 1 2.
      pose proof (pw_branch HP (t / 2) _ _ HS HE HO (dv_length _ x y) Nz) as B. rewrite <- (dv_mat HF), <- !Ev, E in B.
      pose proof (pw_le (t / 2) (dv t x y)) as B1.
      assert (Z : forall w : list F, length w = t -> pw (t / 2) (dv t w w) = 0).
      { intros w Lw. replace (dv t w w) with (dv (2 * (t / 2)) w w) by (rewrite <- Ev; reflexivity). rewrite <- (differ_pairs_pw HP (t / 2)) by lia. unfold differ_pairs. generalize (seq 0 (length w / 2)) as l0. induction l0 as [|a l IH]; [reflexivity|]. cbn [filter]. rewrite !(feqb_refl HF). exact IH. }
      rewrite Z in B by apply mat_apply_length. lia. }
    assert (HFa : forall r, r < rf + rp -> active_pairs t (np_external_round P r) (t / 2 + 1)).
    { intros r Hr. apply (np_round_pairs HP _ _ _ _ _ _ _ _ HN Hov r Ht N5 Hr). split; assumption. }
    assert (EB : whole_bound rf (t / 2 + 1) (rp / t) = rf / 2 / 2 * (t / 2 + 1) + (rf / 2) mod 2 + rp / t +
      ((rf + rp - (rf / 2 + rp)) / 2 * (t / 2 + 1) + (rf + rp - (rf / 2 + rp)) mod 2)).
    { replace (rf + rp - (rf / 2 + rp)) with (rf / 2) by lia. unfold whole_bound. ring. }
    rewrite EB. apply whole; [lia|lia| |exact HB| | | |intros u v; apply (differ_pairs_pos t u v Hev)| |].
    - intros x Lx. unfold np_permutation. rewrite Et, Eb, Ep, Er, Lx, Nat.eqb_refl. cbn [assert bind]. 
      rewrite uadd_ok by lia. cbn [bind]. reflexivity.
    - intros x u Lx E. rewrite (np_ext_ok HP P rng t d rf rp x HM Hev Lx) in E. injection E as <-. apply mat_apply_length.
    - intros r x u Hr Lx E. destruct (new_round HP _ _ _ _ _ _ _ _ HN Hov r ltac:(lia)) as [ga [c E']]. rewrite E' in E by exact Lx. injection E as <-.
      rewrite xr_length. symmetry. exact (new_even HP _ _ _ _ _ _ _ _ HN Hov).
    - intros r x u Hr Lx E. destruct (np_step_is HF _ _ _ _ _ _ _ _ (rf / 2) rp HN Hov ltac:(lia) ltac:(lia)) as [c [e H]].
      rewrite H in E by (assumption || lia). injection E as <-. apply pround_length.
    - intros r u v u' v' Hr Lu Lv N Eu Ev. destruct (HFa r ltac:(lia)) as [H _]. destruct (H u v Lu Lv N) as [a [c [Ea [Ec Hb]]]]. rewrite Eu in Ea. rewrite Ev in Ec.
      injection Ea as <-. injection Ec as <-. exact Hb.
    - replace (rf / 2 + rp - rf / 2) with rp by lia. destruct (Nat.eq_dec rp 0) as [Z|Z].
      + rewrite Z. apply active_none. apply Nat.div_0_l. lia.
      + destruct HI as [?|[I1 [I2 I3]]]; [contradiction|].
        apply (np_count HP dbg fuel rng t d rf rp P (rf / 2) rp HN Hov ltac:(lia) ltac:(lia) I1 I2 I3).
  Qed.
End Whole2.

(** ** The shipped instances *)
Theorem p2_shipped_whole I : In I p2_instances -> forall F (Fo : FOps F), is_prime_field Fo (qi_p I) -> forall dbg,
  exists Q, p2_instance_params dbg I = Ok Q /\
  whole_active (qi_t I) differ (p2_permutation dbg Q) (p2_matmul_external Q) (p2_full_round Q) (p2_partial_round Q)
    (qi_rf I / 2) (qi_rf I / 2 + qi_rp I) (qi_rf I + qi_rp I) (whole_bound (qi_rf I) (p2_branch (qi_t I)) (qi_rp I / qi_t I)).
Proof.
  intros HI F Fo HP dbg. pose proof (prime_field_is_field HP) as HF.
  destruct (ProofQuiet3.p2_shipped_count I HI F Fo HP dbg) as [Q [HQ HC0]]. destruct (p2_shipped_active I HI F Fo HP dbg) as [Q' [HQ' [HA0 _]]].
  rewrite HQ in HQ'. injection HQ' as <-. exists Q. split; [exact HQ|].
  destruct (ProofKats.p2_all I HI) as [P [Hok [Hpr H]]].
  destruct (ProofInstances.p2_cert_bijective P Hok I Hpr H (Fo := Fo) HP dbg) as [Q' [HQ' HB]]. rewrite HQ in HQ'. injection HQ' as <-.
  destruct (ProofInstances.p2_cert_parts P Hok I H) as [Ep [H7 [Hb [HA [HC HE]]]]]. rewrite (ProofInstances.p2_instance_residues dbg I HC Hb) in HQ.
  destruct HA as [Hd He Hw Hp1 Hg Hov]. pose proof (p2_width_pos _ Hw) as W2. pose proof (Nat.div_mod (qi_rf I) 2 ltac:(lia)) as Dm.
  assert (HR : forall r, r < qi_rf I + qi_rp I -> length (nth r (map (map (f_of_Z (F := F))) (qi_rc I)) []) = qi_t I).
  { intros r Hr. rewrite (ProofInstances.map_of_Z_row _ _ _ r (pc_rc_shape I HC)); lia. }
  destruct (p2_new_ok _ _ _ _ _ _ _ _ _ HQ Hov) as [_ [_ EP]].
  assert (EB : whole_bound (qi_rf I) (p2_branch (qi_t I)) (qi_rp I / qi_t I) = qi_rf I / 2 / 2 * p2_branch (qi_t I) + (qi_rf I / 2) mod 2 + qi_rp I / qi_t I +
      ((qi_rf I + qi_rp I - (qi_rf I / 2 + qi_rp I)) / 2 * p2_branch (qi_t I) + (qi_rf I + qi_rp I - (qi_rf I / 2 + qi_rp I)) mod 2)).
  { replace (qi_rf I + qi_rp I - (qi_rf I / 2 + qi_rp I)) with (qi_rf I / 2) by lia. unfold whole_bound. ring. }
  rewrite EB. apply whole; [lia|lia| |exact HB| | | |apply (differ_pos HP)| |].
  - intros x Lx. rewrite EP. unfold p2_permutation. cbn [p2_t p2_rounds_f_beginning p2_rounds_p p2_rounds]. rewrite Lx, Nat.eqb_refl. cbn [assert bind].
    rewrite uadd_ok by lia. cbn [bind]. reflexivity.
  - intros x u Lx E. rewrite (p2_matmul_external_ok HF) in E by (rewrite EP; assumption). injection E as <-. rewrite EP. apply mat_apply_length.
  - intros r x u Hr Lx E. rewrite (p2_full_round_ok HF) in E; [|rewrite EP; assumption..|rewrite EP; cbn [p2_t p2_rc]; rewrite HR; lia].
    injection E as <-. rewrite EP. apply p2_ref_full_length.
  - intros r x u Hr Lx E. rewrite (p2_partial_round_ok HF) in E;
      [|rewrite EP; assumption..|rewrite EP; cbn [p2_t p2_rc]; rewrite HR; lia|rewrite EP; cbn [p2_t p2_diag]; rewrite map_length, (pc_diag_length I HC); lia].
    injection E as <-. rewrite EP. apply p2_ref_partial_length.
  - intros r u v u' v' Hr. apply (active_le_words _ _ _ (proj1 (HA0 r ltac:(lia)))).
  - replace (qi_rf I / 2 + qi_rp I - qi_rf I / 2) with (qi_rp I) by lia. apply HC0; lia.
Qed.

Theorem ps_shipped_whole I : In I ps_instances -> forall F (Fo : FOps F), is_prime_field Fo (si_p I) -> forall dbg,
  exists Q, ps_instance_params dbg I = Ok Q /\
  whole_active (si_t I) differ (ps_permutation dbg Q) (fun x => Ok x) (ps_full_round dbg Q) (ps_partial_round dbg Q)
    (si_rf I / 2) (si_rf I / 2 + si_rp I) (si_rf I + si_rp I) (whole_bound (si_rf I) (si_t I + 1) (si_rp I / si_t I)).
Proof.
  intros HI F Fo HP dbg. pose proof (prime_field_is_field HP) as HF. destruct (ProofKats.ps_all I HI) as [P [Hok [Hpr H]]].
  destruct (ProofInstances.ps_cert_ok P Hok I Hpr H (Fo := Fo) HP dbg) as [Q [HQ _]]. exists Q. split; [exact HQ|].
  destruct (ProofInstances.ps_cert_parts P Hok I H) as [Ep [H7 [Hb [HA [HC _]]]]]. rewrite (ProofInstances.ps_instance_residues dbg I HC Hb) in HQ.
  destruct HA as [Hd He Hw Hp1 Hg Hov].
  pose proof (ProofInstances.map_of_Z_dims (F := F) _ _ _ (sc_mds_shape I HC)) as HD.
  destruct (ProofGrain4.ps_shipped_mds I HI F Fo HP) as [_ HM].
  apply (ps_whole HP dbg _ _ _ _ _ _ Q HQ Hov HD); [|exact Hg|exact HM|apply (ProofTrail2.ps_algorithms I HI F Fo HP)|left; reflexivity].
  intros r Hr. rewrite (ProofInstances.map_of_Z_row _ _ _ r (sc_rc_shape I HC)); lia.
Qed.

Theorem np_shipped_whole I F (Fo : FOps F) : In I np_instances -> ni_t I = 4 \/ ni_t I = 8 -> is_prime_field Fo (ni_p I) ->
  forall dbg fuel rng (P : NeptuneParams F), np_new dbg fuel rng (ni_t I) (ni_d I) (ni_rf I) (ni_rp I) = Ok P ->
  invertible (ni_t I) (np_int_matrix (fun i => fadd (nth i (np_mu P) f0) f1)) -> distinct_from_1 (ni_t I) (fun i => nth i (np_mu P) f0) ->
  whole_active (ni_t I) differ_pairs (np_permutation dbg P) (np_external_matmul P) (np_external_round P) (np_internal_round P)
    (ni_rf I / 2) (ni_rf I / 2 + ni_rp I) (ni_rf I + ni_rp I) (whole_bound (ni_rf I) (ni_t I / 2 + 1) (ni_rp I / ni_t I)).
Proof.
  intros HI Ht HP dbg fuel rng P HN H1 H2.
  assert (C : (N.of_nat (ni_rf I) + N.of_nat (ni_rp I) < usize_mod)%N /\ ni_p I <> 5%Z /\ ~ In (ni_p I) (np_mds_bad_primes (ni_t I)) /\
    Z.gcd (Z.of_nat (ni_d I)) (ni_p I - 1) = 1%Z).
  { assert (B : forallb (fun J => (N.of_nat (ni_rf J) + N.of_nat (ni_rp J) <? usize_mod)%N && negb (ni_p J =? 5)%Z &&
        forallb (fun q => negb (q =? ni_p J)%Z) (np_mds_bad_primes (ni_t J)) && (Z.gcd (Z.of_nat (ni_d J)) (ni_p J - 1) =? 1)%Z) np_instances = true)
      by (vm_compute; reflexivity).
    rewrite forallb_forall in B. specialize (B I HI). apply andb_true_iff in B. destruct B as [B B4]. apply andb_true_iff in B. destruct B as [B B3].
    apply andb_true_iff in B. destruct B as [B1 B2].
    split; [apply N.ltb_lt; exact B1|]. split; [apply Z.eqb_neq, negb_true_iff; exact B2|]. split; [|apply Z.eqb_eq; exact B4].
    intros X. rewrite forallb_forall in B3. specialize (B3 _ X). rewrite Z.eqb_refl in B3. discriminate B3. }
  destruct C as [Hov [N5 [Hb Hg]]].
  destruct (np_fixed_mds HP _ _ _ _ _ _ _ _ HN Hov Ht) as [HE HO]. apply HE in Hb as HE'. apply HO in Hb as HO'.
  apply (np_whole HP dbg fuel rng _ (ni_d I) _ _ P HN Hov ltac:(lia) N5 HE' HO'). right. split; [exact Hg|]. split; assumption.
Qed.
