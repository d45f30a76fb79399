(** * ProofPairs2: active pairs of the instances, and when the fixed blocks are MDS *)
From Coq Require Import ZifyNat Zify.
From Verif Require Import Base Field Spec LinAlg LoopLemmas MatLoops FieldPow Bij Elim MDS SpecMDS SpecBranch SpecPairs SpecNeptune SpecPoseidon2
  ModelPoseidon2 ModelRandom ModelNeptune ModelFields ProofPoseidon2 ProofPoseidon2Lin ProofPoseidon2MDS ProofBranch ProofBranch2 ProofNeptuneParams ProofNeptune ProofNeptuneBij ProofPairs.
Ltac Zify.zify_post_hook ::= Z.to_euclidean_division_equations.

Lemma small_primes q : In q [2; 3; 5; 7; 11; 17]%Z -> prime q.
Proof.
  intros Hq. cbn [In] in Hq.
  assert (S : (2 <= q < 25)%Z -> forallb (fun k => negb (q mod k =? 0)%Z) [2;3;4]%Z = true -> prime q).
  { intros H1 H2. apply small_prime; [exact H1|]. intros k Hk. rewrite forallb_forall in H2.
    assert (In k [2;3;4]%Z) as Hk' by (simpl; lia). specialize (H2 k Hk'). apply negb_true_iff, Z.eqb_neq in H2. exact H2. }
  destruct Hq as [<-|[<-|[<-|[<-|[<-|[<-|[]]]]]]]; first [exact prime_2|exact prime_3|apply S; [lia|reflexivity]].
Qed.

Section Blocks.
  Context {F : Type} {Fo : FOps F} {p : Z} (HP : is_prime_field Fo p).
  Let HF : is_field Fo := prime_field_is_field HP.
  Add Ring FringPB : (ff_ring _ HF).

  Definition zcirc (row : list Z) (i j : nat) : Z := nth ((j + length row - i) mod length row) row 0%Z.
  Lemma circ_of_Z row i j : circ (map f_of_Z row) i j = (f_of_Z (zcirc row i j) : F).
  Proof. unfold circ, zcirc. rewrite map_length, <- (f_of_Z_0 HP). apply map_nth. Qed.
  Lemma even_4 rounds rng i j : np_even_block 4 rounds rng i j = (f_of_Z (zcirc [2;1]%Z i j) : F).
  Proof. rewrite <- circ_of_Z. unfold np_even_block. cbn [Nat.eqb map]. rewrite (f_of_Z_1 HP). reflexivity. Qed.
  Lemma odd_4 rounds rng i j : np_odd_block 4 rounds rng i j = (f_of_Z (zcirc [1;2]%Z i j) : F).
  Proof. rewrite <- circ_of_Z. unfold np_odd_block. cbn [Nat.eqb map]. rewrite (f_of_Z_1 HP). reflexivity. Qed.
  Lemma even_8 rounds rng i j : np_even_block 8 rounds rng i j = (f_of_Z (zcirc [3;2;1;1]%Z i j) : F).
  Proof. rewrite <- circ_of_Z. reflexivity. Qed.
  Lemma odd_8 rounds rng i j : np_odd_block 8 rounds rng i j = (f_of_Z (zcirc [1;1;2;3]%Z i j) : F).
  Proof. rewrite <- circ_of_Z. reflexivity. Qed.

  Lemma circ_mds row l (A : @mat F) : (forall i j, i < length row -> j < length row -> A i j = f_of_Z (zcirc row i j)) ->
    (forall q, In q l -> prime q) -> ~ In p l -> all_cert (fold_right Z.mul 1 l ^ Z.of_nat 6)%Z (zcirc row) (length row) = true -> is_mds (length row) A.
  Proof.
    intros HA Hl Hp HC. apply (all_cert_mds HP _ (zcirc row)) with (1 := HC); [|exact HA].
    intros D. apply Hp, (prime_div_list HP); [|exact Hl]. apply (prime_pow_div HP _ 6). exact D.
  Qed.

  Lemma cert_4e : all_cert (fold_right Z.mul 1 [2;3] ^ Z.of_nat 6)%Z (zcirc [2;1]%Z) 2 = true. Proof. vm_compute. reflexivity. Qed.
  Lemma cert_4o : all_cert (fold_right Z.mul 1 [2;3] ^ Z.of_nat 6)%Z (zcirc [1;2]%Z) 2 = true. Proof. vm_compute. reflexivity. Qed.
  Lemma cert_8e : all_cert (fold_right Z.mul 1 [2;3;5;7;11;17] ^ Z.of_nat 6)%Z (zcirc [3;2;1;1]%Z) 4 = true. Proof. vm_compute. reflexivity. Qed.
  Lemma cert_8o : all_cert (fold_right Z.mul 1 [2;3;5;7;11;17] ^ Z.of_nat 6)%Z (zcirc [1;1;2;3]%Z) 4 = true. Proof. vm_compute. reflexivity. Qed.

  Lemma is_mds_ext n (A B : @mat F) : (forall i j, i < n -> j < n -> A i j = B i j) -> is_mds n A -> is_mds n B.
  Proof.
    intros E H x Hx N. specialize (H x Hx N). replace (mat_apply n n B x) with (mat_apply n n A x); [exact H|].
    unfold mat_apply. apply map_seq_ext. intros i Hi. apply sumn_ext. intros j Hj. rewrite E by assumption. reflexivity.
  Qed.

  Lemma blocks_mds_4 rounds rng :
    (is_mds 2 (np_even_block 4 rounds rng : @mat F) <-> ~ In p (np_mds_bad_primes 4)) /\
    (is_mds 2 (np_odd_block 4 rounds rng : @mat F) <-> ~ In p (np_mds_bad_primes 4)).
  Proof.
    assert (Pr : forall q, In q (np_mds_bad_primes 4) -> prime q) by (intros q Hq; apply small_primes; cbn [np_mds_bad_primes In] in *; lia).
    split; split.
    - intros HM Hb. revert HM. pose proof (not_mds HP 2 (zcirc [2;1]%Z) (np_even_block 4 rounds rng) ) as R. specialize (fun v => R v (fun i j _ _ => even_4 rounds rng i j)).
      cbn [np_mds_bad_primes In] in Hb. destruct Hb as [<-|[<-|[]]]; [apply (R [0;1]%Z)|apply (R [1;1]%Z)]; vm_compute; lia.
    - intros Hp. apply (circ_mds [2;1]%Z (np_mds_bad_primes 4)); [intros; apply even_4|exact Pr|exact Hp|exact cert_4e].
    - intros HM Hb. revert HM. pose proof (not_mds HP 2 (zcirc [1;2]%Z) (np_odd_block 4 rounds rng) ) as R. specialize (fun v => R v (fun i j _ _ => odd_4 rounds rng i j)).
      cbn [np_mds_bad_primes In] in Hb. destruct Hb as [<-|[<-|[]]]; [apply (R [0;1]%Z)|apply (R [1;1]%Z)]; vm_compute; lia.
    - intros Hp. apply (circ_mds [1;2]%Z (np_mds_bad_primes 4)); [intros; apply odd_4|exact Pr|exact Hp|exact cert_4o].
  Qed.
  Lemma blocks_mds_8 rounds rng :
    (is_mds 4 (np_even_block 8 rounds rng : @mat F) <-> ~ In p (np_mds_bad_primes 8)) /\
    (is_mds 4 (np_odd_block 8 rounds rng : @mat F) <-> ~ In p (np_mds_bad_primes 8)).
  Proof.
    split; split.
    - intros HM Hb. revert HM. pose proof (not_mds HP 4 (zcirc [3;2;1;1]%Z) (np_even_block 8 rounds rng) ) as R. specialize (fun v => R v (fun i j _ _ => even_8 rounds rng i j)).
      cbn [np_mds_bad_primes In] in Hb. destruct Hb as [<-|[<-|[<-|[<-|[<-|[<-|[]]]]]]];
        [apply (R [0;0;0;1]%Z)|apply (R [0;0;0;1]%Z)|apply (R [0;0;1;3]%Z)|apply (R [0;0;1;2]%Z)|apply (R [0;1;3;6]%Z)|apply (R [0;1;12;7]%Z)]; vm_compute; lia.
    - intros Hp. apply (circ_mds [3;2;1;1]%Z (np_mds_bad_primes 8)); [intros; apply even_8|exact small_primes|exact Hp|exact cert_8e].
    - intros HM Hb. revert HM. pose proof (not_mds HP 4 (zcirc [1;1;2;3]%Z) (np_odd_block 8 rounds rng) ) as R. specialize (fun v => R v (fun i j _ _ => odd_8 rounds rng i j)).
      cbn [np_mds_bad_primes In] in Hb. destruct Hb as [<-|[<-|[<-|[<-|[<-|[<-|[]]]]]]];
        [apply (R [0;0;0;1]%Z)|apply (R [0;0;0;1]%Z)|apply (R [0;0;1;2]%Z)|apply (R [0;0;1;4]%Z)|apply (R [0;1;6;2]%Z)|apply (R [0;1;9;5]%Z)]; vm_compute; lia.
    - intros Hp. apply (circ_mds [1;1;2;3]%Z (np_mds_bad_primes 8)); [intros; apply odd_8|exact small_primes|exact Hp|exact cert_8o].
  Qed.

  Lemma ext_even t rounds rng n i j : t = 2 * n -> i < n -> j < n ->
    even_part (np_ext_entry t rounds rng) i j = (np_even_block t rounds rng i j : F).
  Proof.
    intros _ _ _. unfold even_part, np_ext_entry. rewrite !(Nat.mul_comm 2), !Nat.mod_mul, !Nat.div_mul by lia. reflexivity.
  Qed.
  Lemma ext_odd t rounds rng n i j : t = 2 * n -> i < n -> j < n ->
    odd_part (np_ext_entry t rounds rng) i j = (np_odd_block t rounds rng i j : F).
  Proof.
    intros _ _ _. unfold odd_part, np_ext_entry.
    assert (M : forall k, (2 * k + 1) mod 2 = 1) by (intros; lia). assert (D : forall k, (2 * k + 1) / 2 = k) by (intros; lia).
    rewrite !M, !D. reflexivity.
  Qed.

  (** ** The constructor *)
  Section New.
    Context (dbg : bool) (fuel : nat) (rng : nat -> F) (t d rf rp : nat) (P : NeptuneParams F).
    Context (HN : np_new dbg fuel rng t d rf rp = Ok P) (Hov : (N.of_nat rf + N.of_nat rp < usize_mod)%N).

    Lemma new_even : t = 2 * (t / 2).
    Proof. destruct (np_new_ok HF _ _ _ _ _ _ _ _ HN Hov) as [[_ [_ Hev]] _]. lia. Qed.
    Lemma new_m_e i j : i < t -> j < t -> entry (np_m_e P) i j = np_ext_entry t (rf + rp) rng i j.
    Proof.
      intros Hi Hj. destruct (np_new_ok HF _ _ _ _ _ _ _ _ HN Hov) as [_ (_ & _ & _ & _ & _ & _ & _ & Em & _)].
      rewrite Em, mk_mat_entry by assumption. reflexivity.
    Qed.
    Lemma new_split : split_mat (2 * (t / 2)) (entry (np_m_e P)).
    Proof. rewrite <- new_even. intros i j Hi Hj N. rewrite new_m_e by assumption. apply (checker t _ _ _ _ N). Qed.
    Lemma new_even_part i j : i < t / 2 -> j < t / 2 -> even_part (entry (np_m_e P)) i j = np_even_block t (rf + rp) rng i j.
    Proof. intros Hi Hj. pose proof new_even. rewrite <- (ext_even t (rf + rp) rng (t / 2)) by assumption. unfold even_part. apply new_m_e; lia. Qed.
    Lemma new_odd_part i j : i < t / 2 -> j < t / 2 -> odd_part (entry (np_m_e P)) i j = np_odd_block t (rf + rp) rng i j.
    Proof. intros Hi Hj. pose proof new_even. rewrite <- (ext_odd t (rf + rp) rng (t / 2)) by assumption. unfold odd_part. apply new_m_e; lia. Qed.

    Lemma new_round r : r < rf + rp -> exists ga c, forall x, length x = t -> np_external_round P r x = Ok (xr (t / 2) ga (entry (np_m_e P)) c x).
    Proof.
      intros Hr. destruct (np_new_ok HF _ _ _ _ _ _ _ _ HN Hov) as [[Hd [Hrf Hev]] HM].
      pose proof HM as (Et & Ed & Eb & Ep & Ee & Er & Erc & Em & Lm & Hm & [ka Ea] & _).
      exists (rng ka), (nth r (np_rc P) []). intros s Hs. unfold np_external_round. rewrite (np_sbox_layer HF P _ s t Ea Hs Hev). cbn [bind].
      rewrite (np_ext_ok HP P rng t d rf rp _ HM Hev (np_ref_sbox_length _ _ _)). cbn [bind].
      rewrite (idx_ok []) by (rewrite Erc, mk_mat_length; exact Hr). cbn [bind]. unfold xr. rewrite <- new_even. unfold np_ref_ext. f_equal.
      rewrite Ea, Em, mat_apply_mk. apply add_rc_ok; [apply mat_apply_length|].
      rewrite Erc, mk_mat_row by exact Hr. rewrite map_length, seq_length. lia.
    Qed.

    Lemma active_pairs_ext (f g : list F -> res (list F)) b : (forall x, length x = t -> g x = f x) -> active_pairs t f b -> active_pairs t g b.
    Proof.
      intros E [H [x [y [u [v [Hx [Hy [N [Hu [Hv Hb]]]]]]]]]]. split.
      - intros x' y' Hx' Hy' N'. rewrite !E by assumption. apply H; assumption.
      - exists x, y, u, v. rewrite !E by assumption. repeat split; assumption.
    Qed.

    Theorem np_round_pairs r : 2 <= t -> p <> 5%Z -> r < rf + rp ->
      (active_pairs t (np_external_round P r) (t / 2 + 1) <->
       is_mds (t / 2) (even_part (entry (np_m_e P))) /\ is_mds (t / 2) (odd_part (entry (np_m_e P)))).
    Proof.
      intros Ht N5 Hr. destruct (new_round r Hr) as [ga [c E]]. pose proof new_even as Ev. pose proof new_split as HS. split.
      - intros HA. apply (xr_active_mds HP (t / 2) ga _ HS N5 c); [lia|]. rewrite <- Ev.
        eapply active_pairs_ext; [|exact HA]. intros x Hx. rewrite E by exact Hx. reflexivity.
      - intros [HE HO]. eapply active_pairs_ext; [exact E|]. rewrite Ev at 1. apply (xr_active HP (t / 2) ga _ HS N5 c); [lia|exact HE|exact HO].
    Qed.
    Theorem np_round_spread r : p <> 5%Z -> r < rf + rp ->
      is_mds (t / 2) (even_part (entry (np_m_e P))) -> is_mds (t / 2) (odd_part (entry (np_m_e P))) ->
      full_pair_diffusion t (np_external_round P r).
    Proof.
      intros N5 Hr HE HO. destruct (new_round r Hr) as [ga [c E]]. pose proof new_even as Ev.
      pose proof (xr_spread HP (t / 2) ga _ new_split N5 c HE HO) as HD. rewrite <- Ev in HD.
      intros x y Hx Hy D. rewrite !E by assumption. apply HD; assumption.
    Qed.
    Theorem np_trail lo m : 2 <= t -> p <> 5%Z -> lo + 2 * m <= rf + rp ->
      is_mds (t / 2) (even_part (entry (np_m_e P))) -> is_mds (t / 2) (odd_part (entry (np_m_e P))) ->
      trail_pairs t (t / 2 + 1) (np_external_round P) lo m.
    Proof.
      intros Ht N5 Hlo HE HO x y Hx Hy N. pose proof new_even as Ev.
      assert (Step : forall r u v, r < rf + rp -> length u = t -> length v = t -> u <> v ->
        exists u' v', np_external_round P r u = Ok u' /\ np_external_round P r v = Ok v' /\ length u' = t /\ length v' = t /\ u' <> v' /\
          t / 2 + 1 <= differ_pairs u v + differ_pairs u' v').
      { intros r u v Hr Hu Hv Nuv. destruct (new_round r Hr) as [ga [c E]]. rewrite !E by assumption.
        do 2 eexists. split; [reflexivity|]. split; [reflexivity|]. split; [rewrite Ev at 2; apply xr_length|]. split; [rewrite Ev at 2; apply xr_length|]. split.
        - apply (xr_neq HP); try assumption; try apply new_split; rewrite <- Ev; assumption.
        - pose proof (xr_active HP (t / 2) ga _ new_split N5 c ltac:(lia) HE HO) as HA. rewrite <- Ev in HA. destruct HA as [HA _].
          destruct (HA u v Hu Hv Nuv) as [a [b [Ea [Eb Hb]]]]. injection Ea as <-. injection Eb as <-. exact Hb. }
      assert (G : forall k, k <= 2 * m -> exists u v, for_range lo (lo + k) (np_external_round P) x = Ok u /\ for_range lo (lo + k) (np_external_round P) y = Ok v /\
        length u = t /\ length v = t /\ u <> v).
      { induction k as [|k IH]; intros Hk.
        - exists x, y. rewrite Nat.add_0_r, !for_range_empty by lia. repeat split; assumption.
        - destruct (IH ltac:(lia)) as [u [v [Eu [Evv [Hu [Hv Nuv]]]]]].
          destruct (Step (lo + k) u v ltac:(lia) Hu Hv Nuv) as [u' [v' [Eu' [Ev' [Hu' [Hv' [Nuv' _]]]]]]].
          exists u', v'. rewrite <- plus_n_Sm. rewrite !for_range_last by lia.
          rewrite Eu, Evv. cbn [bind]. repeat split; assumption. }
      set (get := fun (z : list F) k => match for_range lo (lo + k) (np_external_round P) z with Ok u => u | _ => [] end).
      exists (get x), (get y).
      assert (GG : forall k, k <= 2 * m -> for_range lo (lo + k) (np_external_round P) x = Ok (get x k) /\ for_range lo (lo + k) (np_external_round P) y = Ok (get y k) /\
        length (get x k) = t /\ length (get y k) = t /\ get x k <> get y k).
      { intros k Hk. unfold get. destruct (G k Hk) as [u [v [-> [-> H]]]]. repeat split; apply H. }
      split; [intros k Hk; destruct (GG k Hk) as [H1 [H2 _]]; split; assumption|].
      assert (Q : forall j, j <= m -> j * (t / 2 + 1) <= list_sum (map (fun k => differ_pairs (get x k) (get y k)) (seq 0 (2 * j)))).
      { induction j as [|j IH]; intros Hj; [lia|]. specialize (IH ltac:(lia)).
        replace (2 * S j) with (2 * j + 2) by lia. rewrite seq_app, map_app, list_sum_app. cbn [seq map Nat.add].
        change (list_sum [differ_pairs (get x (2 * j)) (get y (2 * j)); differ_pairs (get x (S (2 * j))) (get y (S (2 * j)))])
          with (differ_pairs (get x (2 * j)) (get y (2 * j)) + (differ_pairs (get x (S (2 * j))) (get y (S (2 * j))) + 0)).
        destruct (GG (2 * j) ltac:(lia)) as [A1 [A2 [L1 [L2 Nj]]]]. destruct (GG (S (2 * j)) ltac:(lia)) as [B1 [B2 _]].
        destruct (Step (lo + 2 * j) _ _ ltac:(lia) L1 L2 Nj) as [u' [v' [Eu' [Ev' [_ [_ [_ Hb]]]]]]].
        assert (Eu : get x (S (2 * j)) = u').
        { rewrite <- plus_n_Sm in B1. rewrite for_range_last, A1 in B1 by lia. cbn [bind] in B1. rewrite Eu' in B1. congruence. }
        assert (Evv : get y (S (2 * j)) = v').
        { rewrite <- plus_n_Sm in B2. rewrite for_range_last, A2 in B2 by lia. cbn [bind] in B2. rewrite Ev' in B2. congruence. }
        rewrite Eu, Evv. lia. }
      apply Q. lia.
    Qed.

    (** the matrix on single words *)
    Theorem np_word_branch : 2 <= t -> is_mds (t / 2) (even_part (entry (np_m_e P))) -> is_mds (t / 2) (odd_part (entry (np_m_e P))) ->
      branch_number t (entry (np_m_e P)) (t / 2 + 1).
    Proof.
      intros Ht HE HO. pose proof new_even as Ev. pose proof new_split as HS. set (n := t / 2) in *.
      assert (Wle : forall z, length z = 2 * n -> pw n z <= weight z).
      { intros z Lz. rewrite weight_seq, Lz. unfold pw.
        assert (G : forall k, k <= n -> length (filter (fun i => nz (evens n z) i || nz (odds n z) i) (seq 0 k)) <= length (filter (nz z) (seq 0 (2 * k)))).
        { induction k as [|k IH]; intros Hk; [cbn; lia|]. specialize (IH ltac:(lia)). replace (2 * S k) with (2 * k + 2) by lia.
          rewrite seq_S, seq_app, !filter_app, !app_length. cbn [Nat.add seq filter].
          assert (E1 : nz (evens n z) k = nz z (2 * k)) by (unfold nz; rewrite evens_nth by lia; reflexivity).
          assert (E2 : nz (odds n z) k = nz z (S (2 * k))) by (unfold nz; rewrite odds_nth by lia; f_equal; f_equal; f_equal; lia).
          rewrite E1, E2. destruct (nz z (2 * k)), (nz z (S (2 * k))); cbn [orb length]; lia. }
        apply G. lia. }
      split.
      - intros x Hx Nx. rewrite Ev in Hx, Nx. pose proof (pw_branch HP n _ x HS HE HO Hx Nx) as B. rewrite <- Ev in B.
        pose proof (Wle x Hx). pose proof (Wle (mat_apply t t (entry (np_m_e P)) x) ltac:(rewrite mat_apply_length; exact Ev)). lia.
      - assert (Lu : length (@unit_vec F Fo n) = n) by (unfold unit_vec; rewrite map_length, seq_length; reflexivity).
        exists (weave (unit_vec n) (repeat f0 n) n).
        assert (Wz : forall z, length z = 2 * n -> weight z = weight (evens n z) + weight (odds n z)).
        { intros z Lz. rewrite !weight_seq, evens_length, odds_length, Lz.
          assert (G : forall k, k <= n -> length (filter (nz z) (seq 0 (2 * k))) = length (filter (nz (evens n z)) (seq 0 k)) + length (filter (nz (odds n z)) (seq 0 k))).
          { induction k as [|k IH]; intros Hk; [reflexivity|]. specialize (IH ltac:(lia)). replace (2 * S k) with (2 * k + 2) by lia.
            rewrite !seq_S, seq_app, !filter_app, !app_length. cbn [Nat.add seq filter].
            assert (E1 : nz (evens n z) k = nz z (2 * k)) by (unfold nz; rewrite evens_nth by lia; reflexivity).
            assert (E2 : nz (odds n z) k = nz z (S (2 * k))) by (unfold nz; rewrite odds_nth by lia; f_equal; f_equal; f_equal; lia).
            rewrite E1, E2. destruct (nz z (2 * k)), (nz z (S (2 * k))); cbn [length]; lia. }
          apply G. lia. }
        assert (Lw : length (weave (unit_vec n) (repeat f0 n) n) = 2 * n) by apply weave_length.
        assert (W1 : weight (weave (unit_vec n) (repeat (f0 : F) n) n) = 1).
        { rewrite Wz, weave_evens, weave_odds, (unit_weight HF), (zero_weight HF) by (rewrite ?repeat_length; auto; lia). reflexivity. }
        split; [rewrite Ev; exact Lw|]. split; [apply (weight_nonzero HF); lia|].
        rewrite W1. rewrite Wz by (rewrite mat_apply_length; exact Ev). rewrite Ev. rewrite (evens_mat HP), (odds_mat HP) by exact HS.
        rewrite weave_evens, weave_odds, (mat_zero HP), (zero_weight HF) by (rewrite ?repeat_length; auto).
        rewrite (entries_spread HF n); [lia|apply (mds_entries HF); exact HE|exact Lu|apply (unit_weight HF); lia].
    Qed.
    (** an even word never reaches an odd one *)
    Theorem np_word_not_mds : 2 <= t -> ~ is_mds t (entry (np_m_e P)).
    Proof.
      intros Ht HM. pose proof new_even as Ev.
      apply (mds_entries HF t (entry (np_m_e P)) HM 0 1 ltac:(lia) ltac:(lia)). rewrite new_m_e by lia. apply checker. cbn; lia.
    Qed.
  End New.

  Theorem np_fixed_mds dbg fuel rng t d rf rp (P : NeptuneParams F) : np_new dbg fuel rng t d rf rp = Ok P -> (N.of_nat rf + N.of_nat rp < usize_mod)%N ->
    t = 4 \/ t = 8 ->
    (is_mds (t / 2) (even_part (entry (np_m_e P))) <-> ~ In p (np_mds_bad_primes t)) /\
    (is_mds (t / 2) (odd_part (entry (np_m_e P))) <-> ~ In p (np_mds_bad_primes t)).
  Proof.
    intros HN Hov Ht.
    assert (XE : is_mds (t / 2) (even_part (entry (np_m_e P))) <-> is_mds (t / 2) (np_even_block t (rf + rp) rng)).
    { split; apply is_mds_ext; intros i j Hi Hj; [|symmetry]; apply (new_even_part dbg fuel rng t d rf rp P HN Hov); assumption. }
    assert (XO : is_mds (t / 2) (odd_part (entry (np_m_e P))) <-> is_mds (t / 2) (np_odd_block t (rf + rp) rng)).
    { split; apply is_mds_ext; intros i j Hi Hj; [|symmetry]; apply (new_odd_part dbg fuel rng t d rf rp P HN Hov); assumption. }
    rewrite XE, XO. destruct Ht as [-> | ->]; [apply blocks_mds_4|apply blocks_mds_8].
  Qed.
End Blocks.

(** ** The shipped instances of width 4 and 8 *)
Theorem np_shipped_pairs I F (Fo : FOps F) : In I np_instances -> ni_t I = 4 \/ ni_t I = 8 -> is_prime_field Fo (ni_p I) ->
  forall dbg fuel rng (P : NeptuneParams F), np_new dbg fuel rng (ni_t I) (ni_d I) (ni_rf I) (ni_rp I) = Ok P ->
  (forall r, r < ni_rf I + ni_rp I -> active_pairs (ni_t I) (np_external_round P r) (ni_t I / 2 + 1) /\ full_pair_diffusion (ni_t I) (np_external_round P r)) /\
  (forall lo m, lo + 2 * m <= ni_rf I + ni_rp I -> trail_pairs (ni_t I) (ni_t I / 2 + 1) (np_external_round P) lo m).
Proof.
  intros HI Ht HP dbg fuel rng P HN.
  assert (C : (N.of_nat (ni_rf I) + N.of_nat (ni_rp I) < usize_mod)%N /\ ni_p I <> 5%Z /\ ~ In (ni_p I) (np_mds_bad_primes (ni_t I))).
  { assert (B : forallb (fun J => (N.of_nat (ni_rf J) + N.of_nat (ni_rp J) <? usize_mod)%N && negb (ni_p J =? 5)%Z &&
        forallb (fun q => negb (q =? ni_p J)%Z) (np_mds_bad_primes (ni_t J))) np_instances = true) by (vm_compute; reflexivity).
    rewrite forallb_forall in B. specialize (B I HI). apply andb_true_iff in B. destruct B as [B B3]. apply andb_true_iff in B. destruct B as [B1 B2].
    split; [apply N.ltb_lt; exact B1|]. split; [apply Z.eqb_neq, negb_true_iff; exact B2|].
    intros X. rewrite forallb_forall in B3. specialize (B3 _ X). rewrite Z.eqb_refl in B3. discriminate B3. }
  destruct C as [Hov [N5 Hb]].
  destruct (np_fixed_mds HP _ _ _ _ _ _ _ _ HN Hov Ht) as [HE HO]. apply HE in Hb as HE'. apply HO in Hb as HO'.
  assert (T : 2 <= ni_t I) by lia. split.
  - intros r Hr. split.
    + apply (np_round_pairs HP _ _ _ _ _ _ _ _ HN Hov r T N5 Hr). split; assumption.
    + apply (np_round_spread HP _ _ _ _ _ _ _ _ HN Hov r N5 Hr HE' HO').
  - intros lo m Hlo. apply (np_trail HP _ _ _ _ _ _ _ _ HN Hov lo m T N5 Hlo HE' HO').
Qed.

(** ** The other widths depend on the generator *)
Section Random.
  Context {F : Type} {Fo : FOps F} {p : Z} (HP : is_prime_field Fo p).
  Let HF : is_field Fo := prime_field_is_field HP.
  Add Ring FringPRd : (ff_ring _ HF).

  Theorem np_random_blocks_fail dbg fuel t d rf rp : p <> 5%Z -> In d [3; 5; 7] /\ rf mod 2 = 0 /\ t mod 2 = 0 -> 6 <= t -> t <> 8 ->
    (N.of_nat rf + N.of_nat rp < usize_mod)%N -> 1 <= fuel ->
    exists P : NeptuneParams F, np_new dbg fuel (fun _ => f1) t d rf rp = Ok P /\
      forall r, r < rf + rp -> ~ active_pairs t (np_external_round P r) (t / 2 + 1).
  Proof.
    intros N5 HA Ht N8 Hov Hf.
    destruct (np_new_returns HF dbg fuel (fun _ => f1) t d rf rp HA Hov) as [P HN].
    { intros _. exists 0. split; [lia|]. apply (ff_one_neq_zero _ HF). }
    exists P. split; [exact HN|]. intros r Hr HAct.
    apply (np_round_pairs HP _ _ _ _ _ _ _ _ HN Hov r ltac:(lia) N5 Hr) in HAct. destruct HAct as [HE _].
    assert (Ones : forall i j, i < t / 2 -> j < t / 2 -> even_part (entry (np_m_e P)) i j = f1).
    { intros i j Hi Hj. rewrite (new_even_part HP _ _ _ _ _ _ _ _ HN Hov) by assumption. unfold np_even_block.
      destruct (Nat.eqb_spec t 4); [lia|]. destruct (Nat.eqb_spec t 8); [lia|]. reflexivity. }
    assert (H2 : 2 <= t / 2) by lia.
    assert (B : forall r, In r [0; 1] -> r < t / 2) by (intros k [<-|[<-|[]]]; lia).
    assert (ND : NoDup [0; 1]) by (constructor; [intros [C|[]]; discriminate C|constructor; [intros []|constructor]]).
    pose proof (mds_minors HF _ _ HE [0; 1] [0; 1] ND ND eq_refl B B (fun j => if j =? 0 then f1 else fsub f0 f1)) as NS. cbn [length] in NS.
    apply (ff_one_neq_zero _ HF). refine (NS _ 0 ltac:(lia)). intros i Hi. cbn [sumn nth Nat.eqb].
    rewrite !Ones by (destruct i as [|[|i]]; cbn [nth]; lia). ring.
  Qed.
End Random.
