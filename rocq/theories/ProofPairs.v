(** * ProofPairs: active pairs of Neptune's external rounds *)
From Coq Require Import ZifyNat Zify.
From Verif Require Import Base Field Spec LinAlg LoopLemmas MatLoops FieldPow Bij Elim MDS SpecMDS SpecBranch SpecPairs SpecNeptune SpecPoseidon2
  ModelPoseidon2 ModelRandom ModelNeptune ProofPoseidon2 ProofPoseidon2MDS ProofBranch ProofBranch2 ProofNeptuneParams ProofNeptune ProofNeptuneBij.

Section Pairs.
  Context {F : Type} {Fo : FOps F} {p : Z} (HP : is_prime_field Fo p).
  Let HF : is_field Fo := prime_field_is_field HP.
  Add Ring FringPR : (ff_ring _ HF).

  Definition evens (n : nat) (z : list F) : list F := map (fun i => nth (2 * i) z f0) (seq 0 n).
  Definition odds (n : nat) (z : list F) : list F := map (fun i => nth (2 * i + 1) z f0) (seq 0 n).
  Lemma evens_length n z : length (evens n z) = n. Proof. unfold evens. rewrite map_length, seq_length. reflexivity. Qed.
  Lemma odds_length n z : length (odds n z) = n. Proof. unfold odds. rewrite map_length, seq_length. reflexivity. Qed.
  Lemma evens_nth n z i : i < n -> nth i (evens n z) f0 = nth (2 * i) z f0. Proof. intros H. unfold evens. rewrite nth_map_seq by exact H. reflexivity. Qed.
  Lemma odds_nth n z i : i < n -> nth i (odds n z) f0 = nth (2 * i + 1) z f0. Proof. intros H. unfold odds. rewrite nth_map_seq by exact H. reflexivity. Qed.

  (** number of non-zero pairs *)
  Definition pw (n : nat) (z : list F) : nat := length (filter (fun i => nz (evens n z) i || nz (odds n z) i) (seq 0 n)).

  Lemma filter_mono {A} (f g : A -> bool) l : (forall a, In a l -> f a = true -> g a = true) -> length (filter f l) <= length (filter g l).
  Proof.
    induction l as [|a l IH]; intros H; [cbn; lia|]. cbn [filter].
    specialize (IH (fun b Hb => H b (or_intror Hb))). pose proof (H a (or_introl eq_refl)).
    destruct (f a), (g a); cbn [length]; first [lia|discriminate (H0 eq_refl)|idtac].
  Qed.
  Lemma pw_evens n z : weight (evens n z) <= pw n z.
  Proof. rewrite weight_seq, evens_length. apply filter_mono. intros i _ ->. reflexivity. Qed.
  Lemma pw_odds n z : weight (odds n z) <= pw n z.
  Proof. rewrite weight_seq, odds_length. apply filter_mono. intros i _ ->. apply orb_true_r. Qed.
  Lemma pw_le n z : pw n z <= n.
  Proof. unfold pw. etransitivity; [apply filter_mono with (g := fun _ => true); reflexivity|]. clear. assert (G : forall l : list nat, length (filter (fun _ => true) l) = length l) by (induction l; cbn; congruence). rewrite G, seq_length. reflexivity. Qed.
  Lemma pw_sum n z : pw n z <= weight (evens n z) + weight (odds n z).
  Proof.
    rewrite !weight_seq, evens_length, odds_length. unfold pw. induction (seq 0 n) as [|i l IH]; [cbn; lia|]. cbn [filter].
    destruct (nz (evens n z) i), (nz (odds n z) i); cbn [orb length]; lia.
  Qed.

  Lemma zero_list n (z : list F) : length z = n -> weight z = 0 -> z = repeat f0 n.
  Proof.
    intros L W. apply (nth_ext _ _ f0 f0); [rewrite repeat_length; exact L|]. intros i Hi. rewrite nth_repeat.
    rewrite weight_seq in W. apply length_zero_iff_nil in W. destruct (nz z i) eqn:Z; [|apply (nz_false HF); exact Z].
    assert (G : In i (filter (nz z) (seq 0 (length z)))) by (apply filter_In; split; [apply in_seq; lia|exact Z]). rewrite W in G. destruct G.
  Qed.
  Lemma halves_zero n z : length z = 2 * n -> evens n z = repeat f0 n -> odds n z = repeat f0 n -> z = repeat f0 (2 * n).
  Proof.
    intros L E O. apply (nth_ext _ _ f0 f0); [rewrite repeat_length; exact L|]. intros i Hi. rewrite nth_repeat.
    destruct (Nat.Even_or_Odd i) as [[k ->]|[k ->]].
    - rewrite <- (evens_nth n) by lia. rewrite E. apply nth_repeat.
    - rewrite <- (odds_nth n) by lia. rewrite O. apply nth_repeat.
  Qed.
  Lemma pw_pos n z : length z = 2 * n -> z <> repeat f0 (2 * n) -> 1 <= weight (evens n z) \/ 1 <= weight (odds n z).
  Proof.
    intros L N. destruct (weight (evens n z)) eqn:E; [|left; lia]. destruct (weight (odds n z)) eqn:O; [|right; lia].
    exfalso. apply N, halves_zero; [exact L|apply zero_list; [apply evens_length|exact E]|apply zero_list; [apply odds_length|exact O]].
  Qed.

  Lemma differ_pairs_pw n x y : length x = 2 * n -> differ_pairs x y = pw n (dv (2 * n) x y).
  Proof.
    intros L. unfold differ_pairs, pw. rewrite L, Nat.mul_comm, Nat.div_mul by lia. rewrite Nat.mul_comm. f_equal. apply filter_ext_in. intros i Hi. apply in_seq in Hi.
    unfold nz. rewrite evens_nth, odds_nth by lia. rewrite !dv_nth by lia. rewrite !(sub_eqb HF). apply negb_andb.
  Qed.

  (** ** Matrices without entries at positions of different parity *)
  Definition split_mat (t : nat) (A : @mat F) : Prop := forall i j, i < t -> j < t -> i mod 2 <> j mod 2 -> A i j = f0.
  Lemma evens_mat n A z : split_mat (2 * n) A -> evens n (mat_apply (2 * n) (2 * n) A z) = mat_apply n n (even_part A) (evens n z).
  Proof.
    intros HA. apply (nth_ext _ _ f0 f0); [rewrite evens_length, mat_apply_length; reflexivity|]. intros i Hi. rewrite evens_length in Hi.
    rewrite evens_nth, !mat_apply_nth by lia. rewrite (sumn_pairs HF).
    rewrite (sumn_zero HF n (fun c => fmul (A (2 * i) (2 * c + 1)) _)) by (intros c Hc; rewrite HA by lia; ring).
    match goal with |- fadd ?a f0 = _ => transitivity a; [ring|] end. apply sumn_ext. intros c Hc. rewrite evens_nth by exact Hc. reflexivity.
  Qed.
  Lemma odds_mat n A z : split_mat (2 * n) A -> odds n (mat_apply (2 * n) (2 * n) A z) = mat_apply n n (odd_part A) (odds n z).
  Proof.
    intros HA. apply (nth_ext _ _ f0 f0); [rewrite odds_length, mat_apply_length; reflexivity|]. intros i Hi. rewrite odds_length in Hi.
    rewrite odds_nth, !mat_apply_nth by lia. rewrite (sumn_pairs HF).
    rewrite (sumn_zero HF n (fun c => fmul (A (2 * i + 1) (2 * c)) _)) by (intros c Hc; rewrite HA by lia; ring).
    match goal with |- fadd f0 ?a = _ => transitivity a; [ring|] end. apply sumn_ext. intros c Hc. rewrite odds_nth by exact Hc. reflexivity.
  Qed.

  Lemma pw_branch n A z : split_mat (2 * n) A -> is_mds n (even_part A) -> is_mds n (odd_part A) ->
    length z = 2 * n -> z <> repeat f0 (2 * n) -> n + 1 <= pw n z + pw n (mat_apply (2 * n) (2 * n) A z).
  Proof.
    intros HA HE HO L N.
    assert (P : 1 <= weight (evens n z) \/ 1 <= weight (odds n z)) by (apply pw_pos; assumption).
    destruct P as [P|P].
    - pose proof (HE (evens n z) (evens_length n z) (weight_nonzero HF _ n P)) as H. rewrite <- evens_mat in H by exact HA.
      pose proof (pw_evens n z). pose proof (pw_evens n (mat_apply (2 * n) (2 * n) A z)). lia.
    - pose proof (HO (odds n z) (odds_length n z) (weight_nonzero HF _ n P)) as H. rewrite <- odds_mat in H by exact HA.
      pose proof (pw_odds n z). pose proof (pw_odds n (mat_apply (2 * n) (2 * n) A z)). lia.
  Qed.
  Lemma pw_spread n A z : split_mat (2 * n) A -> is_mds n (even_part A) -> is_mds n (odd_part A) ->
    length z = 2 * n -> pw n z = 1 -> pw n (mat_apply (2 * n) (2 * n) A z) = n.
  Proof.
    intros HA HE HO L W.
    assert (Nz : z <> repeat f0 (2 * n)).
    { intros ->. assert (Z : pw n (repeat f0 (2 * n)) = 0); [|lia]. pose proof (pw_sum n (repeat f0 (2 * n))) as H.
      assert (E1 : evens n (repeat f0 (2 * n)) = repeat f0 n).
      { apply (nth_ext _ _ f0 f0); [rewrite evens_length, repeat_length; reflexivity|]. intros i Hi. rewrite evens_length in Hi. rewrite evens_nth by exact Hi. rewrite !nth_repeat. reflexivity. }
      assert (E2 : odds n (repeat f0 (2 * n)) = repeat f0 n).
      { apply (nth_ext _ _ f0 f0); [rewrite odds_length, repeat_length; reflexivity|]. intros i Hi. rewrite odds_length in Hi. rewrite odds_nth by exact Hi. rewrite !nth_repeat. reflexivity. }
      rewrite E1, E2, (zero_weight HF) in H. lia. }
    pose proof (pw_branch n A z HA HE HO L Nz). pose proof (pw_le n (mat_apply (2 * n) (2 * n) A z)). lia.
  Qed.

  Definition weave (u v : list F) (n : nat) : list F := map (fun i => if Nat.even i then nth (i / 2) u f0 else nth (i / 2) v f0) (seq 0 (2 * n)).
  Lemma weave_length u v n : length (weave u v n) = 2 * n. Proof. unfold weave. rewrite map_length, seq_length. reflexivity. Qed.
  Lemma weave_evens u v n : length u = n -> evens n (weave u v n) = u.
  Proof.
    intros L. apply (nth_ext _ _ f0 f0); [rewrite evens_length; lia|]. intros i Hi. rewrite evens_length in Hi. rewrite evens_nth by exact Hi.
    unfold weave. rewrite nth_map_seq by lia. rewrite Nat.even_mul. cbn [Nat.even orb]. f_equal. lia.
  Qed.
  Lemma weave_odds u v n : length v = n -> odds n (weave u v n) = v.
  Proof.
    intros L. apply (nth_ext _ _ f0 f0); [rewrite odds_length; lia|]. intros i Hi. rewrite odds_length in Hi. rewrite odds_nth by exact Hi.
    unfold weave. rewrite nth_map_seq by lia. rewrite Nat.even_add, Nat.even_mul. cbn [Nat.even orb eqb]. f_equal. lia.
  Qed.
  Lemma mat_zero n (A : @mat F) : mat_apply n n A (repeat f0 n) = repeat f0 n.
  Proof.
    apply (nth_ext _ _ f0 f0); [rewrite mat_apply_length, repeat_length; reflexivity|]. intros i Hi. rewrite mat_apply_length in Hi.
    rewrite mat_apply_nth, nth_repeat by exact Hi. apply (sumn_zero HF). intros j Hj. rewrite nth_repeat. ring.
  Qed.
  Lemma pw_weave_l n A u : split_mat (2 * n) A -> length u = n ->
    pw n (weave u (repeat f0 n) n) = weight u /\
    pw n (mat_apply (2 * n) (2 * n) A (weave u (repeat f0 n) n)) = weight (mat_apply n n (even_part A) u).
  Proof.
    intros HA L. split; apply Nat.le_antisymm.
    - etransitivity; [apply pw_sum|]. rewrite weave_evens, weave_odds, (zero_weight HF) by (rewrite ?repeat_length; auto). lia.
    - rewrite <- (weave_evens u (repeat f0 n) n L) at 1. apply pw_evens.
    - etransitivity; [apply pw_sum|]. rewrite evens_mat, odds_mat by exact HA.
      rewrite weave_evens, weave_odds, mat_zero, (zero_weight HF) by (rewrite ?repeat_length; auto). lia.
    - rewrite <- (weave_evens u (repeat f0 n) n L) at 1. rewrite <- evens_mat by exact HA. apply pw_evens.
  Qed.
  Lemma pw_weave_r n A u : split_mat (2 * n) A -> length u = n ->
    pw n (weave (repeat f0 n) u n) = weight u /\
    pw n (mat_apply (2 * n) (2 * n) A (weave (repeat f0 n) u n)) = weight (mat_apply n n (odd_part A) u).
  Proof.
    intros HA L. split; apply Nat.le_antisymm.
    - etransitivity; [apply pw_sum|]. rewrite weave_evens, weave_odds, (zero_weight HF) by (rewrite ?repeat_length; auto). lia.
    - rewrite <- (weave_odds (repeat f0 n) u n L) at 1. apply pw_odds.
    - etransitivity; [apply pw_sum|]. rewrite evens_mat, odds_mat by exact HA.
      rewrite weave_evens, weave_odds, mat_zero, (zero_weight HF) by (rewrite ?repeat_length; auto). lia.
    - rewrite <- (weave_odds (repeat f0 n) u n L) at 1. rewrite <- odds_mat by exact HA. apply pw_odds.
  Qed.

  (** ** The S-box layer keeps the number of differing pairs *)
  Lemma sbox_even t ga x i : 2 * i + 1 < t -> nth (2 * i) (np_ref_sbox t (f1, f1, ga) x) f0 = fst (np_pair f1 f1 ga (nth (2 * i) x f0) (nth (2 * i + 1) x f0)).
  Proof.
    intros Hi. unfold np_ref_sbox. rewrite nth_map_seq by lia. rewrite Nat.even_mul. cbn [Nat.even orb].
    replace (S (2 * i)) with (2 * i + 1) by lia. reflexivity.
  Qed.
  Lemma sbox_odd t ga x i : 2 * i + 1 < t -> nth (2 * i + 1) (np_ref_sbox t (f1, f1, ga) x) f0 = snd (np_pair f1 f1 ga (nth (2 * i) x f0) (nth (2 * i + 1) x f0)).
  Proof.
    intros Hi. unfold np_ref_sbox. rewrite nth_map_seq by lia. rewrite Nat.even_add, Nat.even_mul. cbn [Nat.even orb eqb].
    replace (2 * i + 1 - 1) with (2 * i) by lia. reflexivity.
  Qed.
  Lemma pair_inj ga a b c d : p <> 5%Z -> np_pair f1 f1 ga a b = np_pair f1 f1 ga c d -> a = c /\ b = (d : F).
  Proof.
    intros N E. destruct (fnat5 HP N) as [i5 H5].
    assert (Q : (a, b) = (c, d)) by (rewrite <- (pair_inv_l HF i5 ga a b H5), <- (pair_inv_l HF i5 ga c d H5), E; reflexivity).
    injection Q as -> ->. split; reflexivity.
  Qed.
  Lemma sbox_pairs n ga x y : p <> 5%Z -> length x = 2 * n -> length y = 2 * n ->
    differ_pairs (np_ref_sbox (2 * n) (f1, f1, ga) x) (np_ref_sbox (2 * n) (f1, f1, ga) y) = differ_pairs x y.
  Proof.
    intros N Hx Hy. unfold differ_pairs. rewrite np_ref_sbox_length, Hx. f_equal. apply filter_ext_in. intros i Hi. apply in_seq in Hi.
    rewrite !sbox_even, !sbox_odd by lia. f_equal.
    apply Bool.eq_true_iff_eq. rewrite !andb_true_iff, !(ff_eqb _ HF). split.
    - intros [E1 E2]. apply (pair_inj ga _ _ _ _ N). destruct (np_pair f1 f1 ga _ _), (np_pair f1 f1 ga _ _). cbn [fst snd] in *. congruence.
    - intros [-> ->]. split; reflexivity.
  Qed.

  Section Round.
    Context (n : nat) (ga : F) (A : @mat F) (HA : split_mat (2 * n) A) (N5 : p <> 5%Z).
    Let t := 2 * n.
    Definition xr (c x : list F) : list F := np_ref_ext t (f1, f1, ga) A c x.
    Lemma xr_length c x : length (xr c x) = t. Proof. apply np_ref_ext_length. Qed.
    Lemma dv_xr c x y : dv t (xr c x) (xr c y) = mat_apply t t A (dv t (np_ref_sbox t (f1, f1, ga) x) (np_ref_sbox t (f1, f1, ga) y)).
    Proof.
      rewrite <- (dv_mat HF). apply (nth_ext _ _ f0 f0); [rewrite !dv_length; reflexivity|]. intros i Hi. rewrite dv_length in Hi.
      rewrite !dv_nth by exact Hi. unfold xr, np_ref_ext. rewrite !nth_map_seq by exact Hi. ring.
    Qed.
    Lemma xr_pairs c x y : length x = t -> length y = t -> exists z, length z = t /\
      differ_pairs x y = pw n z /\ differ_pairs (xr c x) (xr c y) = pw n (mat_apply t t A z) /\ (x <> y -> z <> repeat f0 t).
    Proof.
      intros Hx Hy. exists (dv t (np_ref_sbox t (f1, f1, ga) x) (np_ref_sbox t (f1, f1, ga) y)).
      split; [apply dv_length|]. split.
      { rewrite <- (sbox_pairs n ga x y N5 Hx Hy). apply differ_pairs_pw. apply np_ref_sbox_length. }
      split; [rewrite (differ_pairs_pw n) by apply xr_length; fold t; rewrite dv_xr; reflexivity|].
      intros N E. apply N.
      assert (Ev : t mod 2 = 0) by (unfold t; rewrite Nat.mul_comm; apply Nat.mod_mul; lia).
      destruct (sb_lbij HP t ga Ev N5) as [_ [g Hg]].
      assert (Es : np_ref_sbox t (f1, f1, ga) x = np_ref_sbox t (f1, f1, ga) y).
      { apply (nth_ext _ _ f0 f0); [rewrite !np_ref_sbox_length; reflexivity|]. intros i Hi. rewrite np_ref_sbox_length in Hi.
        apply (fsub_eq_0 HF). rewrite <- (dv_nth t) by exact Hi. rewrite E. apply nth_repeat. }
      rewrite <- (proj2 (proj2 (Hg x Hx))), Es. apply (proj2 (proj2 (Hg y Hy))).
    Qed.
    (** every difference after the S-boxes occurs *)
    Lemma xr_reach c z : length z = t -> z <> repeat f0 t -> exists x y, length x = t /\ length y = t /\ x <> y /\
      differ_pairs x y = pw n z /\ differ_pairs (xr c x) (xr c y) = pw n (mat_apply t t A z).
    Proof.
      intros Lz Nz. assert (Ev : t mod 2 = 0) by (unfold t; rewrite Nat.mul_comm; apply Nat.mod_mul; lia).
      destruct (sb_lbij HP t ga Ev N5) as [_ [g Hg]].
      pose proof (repeat_length (f0 : F) t) as L0.
      assert (D : dv t (np_ref_sbox t (f1, f1, ga) (g z)) (np_ref_sbox t (f1, f1, ga) (g (repeat f0 t))) = z).
      { destruct (Hg z Lz) as [_ [-> _]]. destruct (Hg _ L0) as [_ [-> _]].
        apply (nth_ext _ _ f0 f0); [rewrite dv_length; lia|]. intros i Hi. rewrite dv_length in Hi. rewrite dv_nth, nth_repeat by exact Hi. ring. }
      exists (g z), (g (repeat f0 t)). assert (Lx : length (g z) = t) by apply (Hg z Lz). assert (Ly : length (g (repeat f0 t)) = t) by apply (Hg _ L0).
      split; [exact Lx|]. split; [exact Ly|]. split.
      { intros E. apply Nz. rewrite <- D, E. apply (nth_ext _ _ f0 f0); [rewrite dv_length, repeat_length; reflexivity|].
        intros i Hi. rewrite dv_length in Hi. rewrite dv_nth, nth_repeat by exact Hi. ring. }
      split.
      - rewrite <- (sbox_pairs n ga _ _ N5 Lx Ly). rewrite (differ_pairs_pw n) by apply np_ref_sbox_length. fold t. rewrite D. reflexivity.
      - rewrite (differ_pairs_pw n) by apply xr_length. fold t. rewrite dv_xr, D. reflexivity.
    Qed.

    Theorem xr_active c : 1 <= n -> is_mds n (even_part A) -> is_mds n (odd_part A) -> active_pairs t (fun x => Ok (xr c x)) (n + 1).
    Proof.
      intros Hn HE HO. split.
      - intros x y Hx Hy N. destruct (xr_pairs c x y Hx Hy) as [z [Lz [E1 [E2 Nz]]]].
        do 2 eexists. split; [reflexivity|]. split; [reflexivity|]. rewrite E1, E2. apply pw_branch; auto.
      - destruct (pw_weave_l n A (unit_vec n) HA ltac:(unfold unit_vec; rewrite map_length, seq_length; reflexivity)) as [W1 W2].
        rewrite (unit_weight HF) in W1 by exact Hn.
        assert (Lw : length (weave (unit_vec n) (repeat f0 n) n) = t) by apply weave_length.
        assert (Nw : weave (unit_vec n) (repeat f0 n) n <> repeat f0 t).
        { intros E. assert (Q : evens n (weave (unit_vec n) (repeat f0 n) n) = unit_vec n) by (apply weave_evens; unfold unit_vec; rewrite map_length, seq_length; reflexivity).
          rewrite E in Q. apply (f_equal (fun l => nth 0 l f0)) in Q. rewrite evens_nth, nth_repeat in Q by lia.
          unfold unit_vec in Q. rewrite nth_map_seq in Q by lia. cbn in Q. exact (ff_one_neq_zero _ HF (eq_sym Q)). }
        destruct (xr_reach c _ Lw Nw) as [x [y [Hx [Hy [N [E1 E2]]]]]].
        exists x, y. do 2 eexists. split; [exact Hx|]. split; [exact Hy|]. split; [exact N|]. split; [reflexivity|]. split; [reflexivity|].
        rewrite E1, E2. unfold t. rewrite (pw_spread n A _ HA HE HO Lw W1), W1. lia.
    Qed.
    Theorem xr_active_mds c : 1 <= n -> active_pairs t (fun x => Ok (xr c x)) (n + 1) -> is_mds n (even_part A) /\ is_mds n (odd_part A).
    Proof.
      intros Hn [H _]. split; intros u Lu Nu.
      - destruct (pw_weave_l n A u HA Lu) as [W1 W2].
        assert (Nw : weave u (repeat f0 n) n <> repeat f0 t).
        { intros E. apply Nu. rewrite <- (weave_evens u (repeat f0 n) n Lu), E. apply (nth_ext _ _ f0 f0); [rewrite evens_length, repeat_length; reflexivity|].
          intros i Hi. rewrite evens_length in Hi. rewrite evens_nth by exact Hi. rewrite !nth_repeat. reflexivity. }
        destruct (xr_reach c _ (weave_length _ _ _) Nw) as [x [y [Hx [Hy [N [E1 E2]]]]]].
        destruct (H x y Hx Hy N) as [a [b [Ea [Eb Hb]]]]. injection Ea as <-. injection Eb as <-. rewrite E1, E2 in Hb. unfold t in Hb. rewrite W1, W2 in Hb. exact Hb.
      - destruct (pw_weave_r n A u HA Lu) as [W1 W2].
        assert (Nw : weave (repeat f0 n) u n <> repeat f0 t).
        { intros E. apply Nu. rewrite <- (weave_odds (repeat f0 n) u n Lu), E. apply (nth_ext _ _ f0 f0); [rewrite odds_length, repeat_length; reflexivity|].
          intros i Hi. rewrite odds_length in Hi. rewrite odds_nth by exact Hi. rewrite !nth_repeat. reflexivity. }
        destruct (xr_reach c _ (weave_length _ _ _) Nw) as [x [y [Hx [Hy [N [E1 E2]]]]]].
        destruct (H x y Hx Hy N) as [a [b [Ea [Eb Hb]]]]. injection Ea as <-. injection Eb as <-. rewrite E1, E2 in Hb. unfold t in Hb. rewrite W1, W2 in Hb. exact Hb.
    Qed.
    Theorem xr_spread c : is_mds n (even_part A) -> is_mds n (odd_part A) -> full_pair_diffusion t (fun x => Ok (xr c x)).
    Proof.
      intros HE HO x y Hx Hy E. destruct (xr_pairs c x y Hx Hy) as [z [Lz [E1 [E2 _]]]].
      do 2 eexists. split; [reflexivity|]. split; [reflexivity|]. rewrite E2. transitivity n; [|unfold t; rewrite Nat.mul_comm, Nat.div_mul; lia]. apply pw_spread; auto. congruence.
    Qed.
    Lemma xr_neq c x y : is_mds n (even_part A) -> is_mds n (odd_part A) -> length x = t -> length y = t -> x <> y -> xr c x <> xr c y.
    Proof.
      intros HE HO Hx Hy N E. destruct (xr_pairs c x y Hx Hy) as [z [Lz [E1 [E2 Nz]]]]. rewrite E in E2.
      assert (Z : differ_pairs (xr c y) (xr c y) = 0).
      { unfold differ_pairs. generalize (seq 0 (length (xr c y) / 2)) as l0. induction l0 as [|a l IH]; [reflexivity|]. cbn [filter]. rewrite !(feqb_refl HF). exact IH. }
      pose proof (pw_branch n A z HA HE HO Lz (Nz N)) as B. pose proof (pw_le n z). fold t in B. lia.
    Qed.
  End Round.
End Pairs.
