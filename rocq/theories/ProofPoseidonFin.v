(** * Poseidon: final statements for C13-C16 and C20 *)
From Verif Require Import Base Field Spec LinAlg LoopLemmas MatLoops FieldPow Bij Poly ModelUtils ModelPoseidon2 ModelPoseidon
  SpecPoseidon SpecPoseidon2 ProofPoseidon2 ProofPoseidon2Bij ProofMatInverse ProofMatHelpers ProofEquivRC ProofPoseidon ProofPoseidonOpt.

Lemma for_list_ok_inv {X St} (I : St -> Prop) (l : list X) (body : X -> St -> res St) s s' :
  (forall x s s', I s -> body x s = Ok s' -> I s') -> I s -> for_list l body s = Ok s' -> I s'.
Proof.
  intros H. revert s. induction l as [|x l IH]; intros s Hs E; simpl in E; [congruence|].
  inv_ok E. apply (IH a); [apply (H x s a Hs E0)|exact E].
Qed.
Lemma for_range_ok_inv {St} (I : St -> Prop) lo hi (body : nat -> St -> res St) s s' :
  (forall i s s', I s -> body i s = Ok s' -> I s') -> I s -> for_range lo hi body s = Ok s' -> I s'.
Proof. apply for_list_ok_inv. Qed.

Section Fin.
  Context {F : Type} {Fo : FOps F} (HF : is_field Fo).
  Add Ring FringPsF : (ff_ring _ HF).

  Lemma ps_matmul_length dbg x (m : list (list F)) y : ps_matmul dbg x m = Ok y -> length y = length m.
  Proof.
    intros H. unfold ps_matmul in H. inv_ok H.
    apply (for_range_ok_inv (fun s => length s = length m)) in H; [exact H| |apply repeat_length].
    clear. intros i s s' Hs E.
    apply (for_list_ok_inv (fun s => length s = length m)) in E; [exact E| |exact Hs].
    clear. intros [c v] s s' Hs E. inv_ok E. inv_ok E. rewrite <- Hs. pose proof (upd_inv _ _ _ _ E) as Hi.
    rewrite upd_ok in E by lia. injection E as <-. apply set_nth_length. lia.
  Qed.

  Lemma ps_full_round_length dbg P r st st' : ps_full_round dbg P r st = Ok st' -> length st' = length (ps_mds P).
  Proof. intros H. unfold ps_full_round in H. inv_ok H. inv_ok H. apply (ps_matmul_length _ _ _ _ H). Qed.

  Lemma ps_new_len dbg t d rf rp (mds rc : list (list F)) P : ps_new dbg t d rf rp mds rc = Ok P ->
    length mds = t /\ rf mod 2 = 0 /\ sbox_degree d.
  Proof.
    intros H. unfold ps_new in H. inv_ok H. inv_ok H. inv_ok H. destruct a, a0, a1.
    apply assert_ok in E. apply assert_ok in E0. apply assert_ok in E1.
    split; [apply Nat.eqb_eq; exact E0|]. split; [apply Nat.eqb_eq; exact E1|apply degree_bool; exact E].
  Qed.

  (** construction needs two columns and one partial round *)
  Lemma ps_split_1 (m : list (list F)) mh w v : ps_split 1 m = Ok (mh, w, v) -> mh = [].
  Proof. intros H. unfold ps_split in H. cbn [Nat.leb assert bind] in H. inv_ok H. inv_ok H. rewrite for_range_empty in H by lia. cbn [bind] in H. injection H as <- _ _. reflexivity. Qed.
  Lemma ps_split_0 (m : list (list F)) r : ps_split 0 m <> Ok r.
  Proof. discriminate. Qed.

  Lemma ps_new_wide dbg t d rf rp (mds rc : list (list F)) P : ps_new dbg t d rf rp mds rc = Ok P -> 2 <= t /\ 1 <= rp.
  Proof.
    intros H. unfold ps_new in H. inv_ok H. inv_ok H. inv_ok H. inv_ok H. inv_ok H. destruct a3 as [[mi v] w]. inv_ok H.
    assert (Hp : 1 <= rp).
    { destruct rp as [|rp']; [exfalso|lia]. unfold ps_equivalent_round_constants in E4.
      inv_ok E4. inv_ok E4. inv_ok E4. inv_ok E4. inv_ok E4. inv_ok E4. destruct a9 as [o tm].
      match type of E10 with for_range_rev 0 _ ?b ?s = _ => change b with (erc_body dbg a4 rc (rf / 2)) in E10 end.
      rewrite erc_zero in E10; [discriminate|exact E9|simpl; lia]. }
    split; [|exact Hp]. unfold ps_equivalent_matrices in E3. inv_ok E3. inv_ok E3.
    destruct rp as [|rp']; [lia|]. rewrite for_range_step in E6 by lia. inv_ok E6. unfold ps_eqmat_body in E7. inv_ok E7.
    destruct a7 as [[mh w'] v']. destruct t as [|[|t]]; [|apply ps_split_1 in E8; subst mh; discriminate E7|lia].
    exfalso. exact (ps_split_0 _ _ E8).
  Qed.

  (** ** C14 *)
  Lemma ps_mid_split dbg P x :
    ps_permutation dbg P x =
      (assert (length x =? ps_t P) ;; st <- for_range 0 (ps_rounds_f_beginning P) (ps_full_round dbg P) x ;;
       p_end <- uadd dbg (ps_rounds_f_beginning P) (ps_rounds_p P) ;;
       st <- ps_mid_opt dbg P p_end st ;;
       for_range p_end (ps_rounds P) (ps_full_round dbg P) st).
  Proof.
    unfold ps_permutation, ps_mid_opt. apply bind_ext. intros _ _. apply bind_ext. intros st _. apply bind_ext. intros pe _.
    rewrite !bind_assoc. apply bind_ext. intros c0 _. rewrite bind_assoc. reflexivity.
  Qed.

  Lemma half_ov rf rp : (N.of_nat rf + N.of_nat rp < usize_mod)%N -> (N.of_nat (rf / 2) + N.of_nat rp < usize_mod)%N.
  Proof. intros H. pose proof (Nat.div_le_upper_bound rf 2 rf). lia. Qed.

  Lemma ps_opt_eq_mid dbg t d rf rp (mds rc : list (list F)) P x :
    ps_new dbg t d rf rp mds rc = Ok P -> (N.of_nat rf + N.of_nat rp < usize_mod)%N -> dims t t mds ->
    (forall st, length st = t -> ps_mid_opt dbg P (rf / 2 + rp) st = for_range (rf / 2) (rf / 2 + rp) (ps_partial_round dbg P) st) ->
    ps_permutation dbg P x = ps_permutation_not_opt dbg P x.
  Proof.
    intros H Hov Hd HM.
    destruct (ps_new_ok _ _ _ _ _ _ _ _ H Hov) as [Hs [_ [He [m_i [v [w [opt [EM [EC EP]]]]]]]]].
    rewrite ps_mid_split. unfold ps_permutation_not_opt.
    apply bind_ext. intros u Hu. destruct u. apply assert_ok in Hu. apply Nat.eqb_eq in Hu.
    apply bind_ext. intros st Est.
    assert (E4 : ps_rounds_f_beginning P = rf / 2) by (rewrite EP; reflexivity). assert (E5 : ps_rounds_p P = rp) by (rewrite EP; reflexivity).
    assert (E1 : ps_t P = t) by (rewrite EP; reflexivity). assert (E3 : ps_mds P = mds) by (rewrite EP; reflexivity).
    rewrite E4, E5 in *. rewrite uadd_ok by (apply half_ov; exact Hov). cbn [bind].
    rewrite HM; [reflexivity|].
    apply (for_range_ok_inv (fun s => length s = t)) in Est; [exact Est| |congruence].
    intros i s s' _ E. apply ps_full_round_length in E. rewrite E, E3. apply (proj1 Hd).
  Qed.

  Theorem ps_opt_eq dbg t d rf rp (mds rc : list (list F)) P x :
    ps_new dbg t d rf rp mds rc = Ok P -> (N.of_nat rf + N.of_nat rp < usize_mod)%N -> dims t t mds ->
    (forall k, k < rp -> t <= length (nth (rf / 2 + k) rc [])) ->
    ps_permutation dbg P x = ps_permutation_not_opt dbg P x.
  Proof.
    intros H Hov Hd HR. pose proof (ps_new_wide _ _ _ _ _ _ _ _ H) as [Ht Hp].
    apply (ps_opt_eq_mid dbg t d rf rp mds rc P x H Hov Hd). intros st Hst.
    rewrite (ps_mid_opt_ok HF dbg t d rf rp mds rc P Hd Ht Hov H st HR Hst).
    destruct (ps_new_ok _ _ _ _ _ _ _ _ H Hov) as [Hs [_ [He [m_i [v [w [opt [EM [EC EP]]]]]]]]].
    destruct (ps_partial_rounds HF dbg P (rf / 2) (rf / 2 + rp) st) as [E _].
    - rewrite EP. split; [exact Hs|]. split; [exact Hd|]. simpl; lia.
    - rewrite EP; exact Hst.
    - lia.
    - rewrite EP. cbn [ps_t ps_rc]. intros r Hr. replace r with (rf / 2 + (r - rf / 2)) by (clear - Hr; lia). apply HR. clear - Hr; lia.
    - rewrite E. rewrite EP. cbn [ps_t ps_d ps_mds ps_rc]. replace (rf / 2 + rp - rf / 2) with rp by (clear; lia). reflexivity.
  Qed.

  Lemma ps_matmul_short_dbg x (m : list (list F)) : length x <> length m -> ps_matmul true x m = Panic.
  Proof. intros H. unfold ps_matmul. destruct (Nat.eqb_spec (length m) (length x)); [congruence|reflexivity]. Qed.

  (** debug builds: no condition on the constants at all *)
  Theorem ps_opt_eq_debug t d rf rp (mds rc : list (list F)) P x :
    ps_new true t d rf rp mds rc = Ok P -> (N.of_nat rf + N.of_nat rp < usize_mod)%N -> dims t t mds ->
    ps_permutation true P x = ps_permutation_not_opt true P x.
  Proof.
    intros H Hov Hd. pose proof (ps_new_wide _ _ _ _ _ _ _ _ H) as [Ht Hp].
    destruct (ps_new_ok _ _ _ _ _ _ _ _ H Hov) as [Hs [_ [He [m_i [v [w [opt [EM [EC EP]]]]]]]]].
    destruct (ps_erc_ok HF _ _ _ _ _ _ _ Hd Ht (half_ov _ _ Hov) EC) as [_ [_ [[R1 R2] [Hlast [inv [_ [HI [Lo [Ho0 Ho]]]]]]]]].
    destruct (le_lt_dec 2 rp) as [L2|L2].
    - apply (ps_opt_eq true t d rf rp mds rc P x H Hov Hd). intros k Hk.
      destruct k as [|k]; [rewrite Nat.add_0_r; apply R2; exact L2|].
      destruct (R1 (S k) ltac:(lia)) as [_ R3]. rewrite R3 by (left; reflexivity). lia.
    - assert (E1 : rp = 1) by lia. clear R1 R2 L2. rewrite E1 in *. clear E1. replace (rf / 2 + 1 - 1) with (rf / 2) in Hlast by (clear; lia).
      destruct (le_lt_dec t (length (nth (rf / 2) rc []))) as [L|L].
      + apply (ps_opt_eq true t d rf 1 mds rc P x H Hov Hd). intros k Hk. assert (k = 0) by lia. subst k. rewrite Nat.add_0_r. exact L.
      + apply (ps_opt_eq_mid true t d rf 1 mds rc P x H Hov Hd). intros st Hst.
        destruct (ps_eqmat_ok HF _ _ _ _ _ _ _ Hd Ht Hp EM) as [_ [HM Emi]].
        unfold ps_mid_opt. rewrite EP at 1. cbn [ps_opt_rc]. rewrite (idx_ok []) by lia. cbn [bind]. rewrite Ho0.
        cbn [Nat.sub tmpd]. replace (rf / 2 + 1 - 1) with (rf / 2) by (clear; lia).
        rewrite ps_matmul_short_dbg.
        2:{ rewrite EP. cbn [ps_m_i]. rewrite Emi, mk_mat_length, add_rc_length. lia. }
        cbn [bind]. rewrite Nat.add_1_r, for_range_step by lia. symmetry.
        unfold ps_partial_round. rewrite EP at 1. cbn [ps_rc]. rewrite (idx_ok []) by exact Hlast. cbn [bind].
        set (y := add_rc st (nth (rf / 2) rc [])). assert (Ly : length y < t) by (unfold y; rewrite add_rc_length; lia).
        destruct (le_lt_dec (length y) 0) as [L0|L0]; [rewrite idx_panic by lia; reflexivity|].
        rewrite (idx_ok f0) by exact L0. cbn [bind]. rewrite (ps_sbox_p_ok HF) by (rewrite EP; exact Hs). cbn [bind].
        rewrite upd_ok by exact L0. cbn [bind]. rewrite ps_matmul_short_dbg; [reflexivity|].
        rewrite set_nth_length by exact L0. rewrite EP. cbn [ps_mds]. rewrite (proj1 Hd). lia.
  Qed.

  (** ** C13 *)
  Theorem ps_permutation_ref dbg t d rf rp (mds rc : list (list F)) P x :
    ps_new dbg t d rf rp mds rc = Ok P -> (N.of_nat rf + N.of_nat rp < usize_mod)%N -> dims t t mds ->
    ps_rows_ok t rf rp rc ->
    (length x = t -> ps_permutation dbg P x = Ok (ps_ref t d rf rp (entry mds) rc x) /\
                     ps_permutation_not_opt dbg P x = Ok (ps_ref t d rf rp (entry mds) rc x)) /\
    (length x <> t -> ps_permutation dbg P x = Panic /\ ps_permutation_not_opt dbg P x = Panic).
  Proof.
    intros H Hov Hd HR. pose proof (ps_new_wide _ _ _ _ _ _ _ _ H) as [Ht Hp].
    destruct (ps_new_ok _ _ _ _ _ _ _ _ H Hov) as [Hs [_ [He [m_i [v [w [opt [EM [EC EP]]]]]]]]].
    pose proof (rf_even rf He) as He2.
    rewrite (ps_opt_eq dbg t d rf rp mds rc P x H Hov Hd) by (intros k Hk; apply HR; lia).
    split; intros Hx.
    - assert (E : ps_permutation_not_opt dbg P x = Ok (ps_ref t d rf rp (entry mds) rc x)); [|auto].
      rewrite (ps_not_opt_ref_P HF dbg P rf rp x); try (rewrite EP; reflexivity); try assumption.
      + rewrite EP. split; [exact Hs|]. split; [exact Hd|]. simpl; lia.
      + rewrite EP. exact Hx.
      + rewrite EP. exact HR.
    - assert (E : ps_permutation_not_opt dbg P x = Panic); [|auto]. unfold ps_permutation_not_opt.
      replace (ps_t P) with t by (rewrite EP; reflexivity). destruct (Nat.eqb_spec (length x) t); [contradiction|reflexivity].
  Qed.

  (** ** C16 *)
  Lemma nonsingular_tr k (A : @mat F) : nonsingular k A -> nonsingular k (tr A).
  Proof.
    intros H. apply (nonsingular_invertible HF) in H. apply (invertible_nonsingular HF).
    destruct H as [B [H1 H2]]. exists (tr B). split; intros i j Hi Hj.
    - transitivity (mat_id j i); [rewrite <- (H2 j i Hj Hi)|unfold mat_id; rewrite Nat.eqb_sym; reflexivity].
      unfold mat_mul, tr. apply sumn_ext. intros l Hl. ring.
    - transitivity (mat_id j i); [rewrite <- (H1 j i Hj Hi)|unfold mat_id; rewrite Nat.eqb_sym; reflexivity].
      unfold mat_mul, tr. apply sumn_ext. intros l Hl. ring.
  Qed.
  Lemma leading_tr n (A : @mat F) : leading_blocks n A -> leading_blocks n (tr A).
  Proof. intros H k Hk. apply nonsingular_tr. apply H. exact Hk. Qed.
  Lemma leading_ext n (A B : @mat F) : mat_eq n A B -> leading_blocks n A -> leading_blocks n B.
  Proof. intros E H k Hk. apply (nonsingular_ext k A); [|apply H; exact Hk]. intros i j Hi Hj. apply E; lia. Qed.

  Lemma mat_pow_comm n (A : @mat F) k : mat_eq n (mat_mul n A (mat_pow n A k)) (mat_mul n (mat_pow n A k) A).
  Proof.
    induction k as [|k IH]; intros i j Hi Hj; cbn [mat_pow].
    - rewrite (mat_mul_id_r HF), (mat_mul_id_l HF) by assumption. reflexivity.
    - rewrite <- (mat_mul_assoc HF n n A (mat_pow n A k) A). apply mat_mul_ext; [reflexivity|]. intros l Hl. apply IH; assumption.
  Qed.
  Lemma mat_pow_tr n (A : @mat F) k : mat_eq n (mat_pow n (tr A) k) (tr (mat_pow n A k)).
  Proof.
    induction k as [|k IH]; intros i j Hi Hj.
    - cbn [mat_pow]. unfold tr, mat_id. rewrite Nat.eqb_sym. reflexivity.
    - cbn [mat_pow]. unfold tr at 3. rewrite (mat_pow_comm n A k j i Hj Hi).
      unfold mat_mul. apply sumn_ext. intros l Hl. rewrite IH by assumption. unfold tr. ring.
  Qed.
  Lemma drop0_MM t M k : 2 <= t -> mat_eq (t - 1) (drop0 (MM t M k)) (tr (mat_pow (t - 1) (drop0 M) (S k))).
  Proof.
    intros Ht. apply (mat_eq_trans _ _ (mat_pow (t - 1) (tr (drop0 M)) (S k))); [|apply mat_pow_tr].
    induction k as [|k IH]; intros i j Hi Hj.
    - cbn [mat_pow]. rewrite (mat_mul_id_r HF) by exact Hj. reflexivity.
    - cbn [MM]. unfold drop0 at 1. unfold mat_mul at 1.
      assert (ES : t = S (t - 1)) by lia. 
      replace (sumn t (fun k0 => fmul (tr M (S i) k0) (mi_of (MM t M k) k0 (S j)))) with
        (sumn (S (t - 1)) (fun k0 => fmul (tr M (S i) k0) (mi_of (MM t M k) k0 (S j)))) by (rewrite <- ES; reflexivity).
      rewrite (sumn_first HF). unfold mi_of at 1. cbn [Nat.eqb andb orb].
      etransitivity; [|apply (ff_ring _ HF).(Radd_0_l)]. f_equal; [ring|].
      cbn [mat_pow]. unfold mat_mul at 1. apply sumn_ext. intros l Hl. f_equal.
      unfold mi_of. cbn [Nat.eqb andb orb]. exact (IH l j Hl Hj).
  Qed.
  Lemma leading_MM t M k : 2 <= t ->
    (leading_blocks (t - 1) (drop0 (MM t M k)) <-> leading_blocks (t - 1) (mat_pow (t - 1) (drop0 M) (S k))).
  Proof.
    intros Ht. pose proof (drop0_MM t M k Ht) as E. split; intros H.
    - apply (leading_ext _ _ _ E) in H. apply leading_tr in H. exact H.
    - apply leading_tr in H. apply (leading_ext _ _ _ (mat_eq_sym _ _ _ E)) in H. exact H.
  Qed.

  Lemma ps_eqmat_returns dbg t (mds : list (list F)) rp : dims t t mds -> 2 <= t -> 1 <= rp ->
    (forall k, k < rp -> leading_blocks (t - 1) (drop0 (MM t (entry mds) k))) ->
    exists r, ps_equivalent_matrices dbg mds t rp = Ok r.
  Proof.
    intros Hd Ht Hp HL. unfold ps_equivalent_matrices.
    rewrite (mat_transpose_ok mds t t); [|apply Hd|lia|apply Hd; lia|intros i Hi; rewrite (proj2 Hd) by exact Hi; lia].
    cbn [bind]. change (fun i j => entry mds j i) with (tr (entry mds)).
    destruct (eqmat_loop HF t (entry mds) Ht dbg rp) as [[_ [mi' [v' [w' [E [HM [Hmi Hdm]]]]]]]|[HN _]]; [|contradiction].
    rewrite E. cbn [bind]. rewrite (mat_transpose_ok mi' t t); [|apply Hdm|lia|apply Hdm; lia|intros i Hi; rewrite (proj2 Hdm) by exact Hi; lia].
    cbn [bind]. eexists. reflexivity.
  Qed.

  Lemma ps_new_not_fuel dbg t d rf rp (mds rc : list (list F)) : dims t t mds ->
    ps_new dbg t d rf rp mds rc <> Fuel.
  Proof.
    intros Hd. unfold ps_new. apply bind_not_fuel; [apply assert_not_fuel|intros _].
    apply bind_not_fuel; [apply assert_not_fuel|intros _]. apply bind_not_fuel; [apply assert_not_fuel|intros _].
    apply bind_not_fuel; [apply uadd_not_fuel|intros rr].
    assert (NI : forall n (m : list (list F)), dims n n m -> mat_inverse dbg m <> Fuel).
    { intros n m Hm. destruct n as [|n]; [destruct Hm as [Hm _]; destruct m; [discriminate|discriminate Hm]|].
      destruct (proj2 (mat_inverse_success HF dbg (S n) m ltac:(lia) Hm)) as [[B E]|E]; rewrite E; discriminate. }
    apply bind_not_fuel.
    - unfold ps_equivalent_matrices. destruct (le_lt_dec 2 t) as [Ht|Ht].
      + rewrite (mat_transpose_ok mds t t); [|apply Hd|lia|apply Hd; lia|intros i Hi; rewrite (proj2 Hd) by exact Hi; lia].
        cbn [bind]. change (fun i j => entry mds j i) with (tr (entry mds)).
        destruct (eqmat_loop HF t (entry mds) Ht dbg rp) as [[_ [mi' [v' [w' [E [HM [Hmi Hdm]]]]]]]|[_ E]]; rewrite E; [|discriminate].
        cbn [bind]. rewrite (mat_transpose_ok mi' t t); [discriminate|apply Hdm|lia|apply Hdm; lia|intros i Hi; rewrite (proj2 Hdm) by exact Hi; lia].
      + assert (NT : forall m : list (list F), mat_transpose m <> Fuel).
        { intros m. unfold mat_transpose. apply bind_not_fuel; [apply idx_not_fuel|intros r0].
          apply for_list_not_fuel. intros [i r] s. nofuel. }
        apply bind_not_fuel; [apply NT|intros m]. apply bind_not_fuel.
        * apply for_range_not_fuel. intros _ [[[mi mm] v] w]. unfold ps_eqmat_body.
          destruct t as [|[|t]]; [discriminate| |lia].
          destruct (ps_split 1 mm) as [[[mh w'] v']| |] eqn:E; [|discriminate|].
          -- apply ps_split_1 in E. subst mh. discriminate.
          -- exfalso. revert E. unfold ps_split. cbn [Nat.leb assert bind].
             apply bind_not_fuel; [apply idx_not_fuel|intros r0]. apply bind_not_fuel; [apply assert_not_fuel|intros _].
             rewrite for_range_empty by lia. discriminate.
        * intros [[[mi mm] v] w]. apply bind_not_fuel; [apply NT|discriminate].
    - intros [[mi v] w]. apply bind_not_fuel; [|discriminate].
      unfold ps_equivalent_round_constants. apply bind_not_fuel; [apply (NI t); exact Hd|intros inv].
      apply bind_not_fuel; [apply uadd_not_fuel|intros s]. apply bind_not_fuel; [apply usub_not_fuel|intros pe].
      apply bind_not_fuel; [apply idx_not_fuel|intros tmp]. apply bind_not_fuel; [apply usub_not_fuel|intros hi].
      apply bind_not_fuel; [|intros [o t']; apply upd_not_fuel].
      unfold for_range_rev. apply for_list_not_fuel. intros i st. apply (erc_body_not_fuel dbg inv rc (rf / 2) i st).
  Qed.

  Theorem ps_new_success dbg t d rf rp (mds rc : list (list F)) :
    dims t t mds -> ps_rows_ok t rf rp rc -> (forall r, r < rf + rp -> length (nth r rc []) <= t) ->
    (N.of_nat rf + N.of_nat rp < usize_mod)%N ->
    ((exists P, ps_new dbg t d rf rp mds rc = Ok P) <->
      sbox_degree d /\ rf mod 2 = 0 /\ 2 <= t /\ 1 <= rp /\ leading_blocks t (entry mds) /\
      (forall k, 1 <= k <= rp -> leading_blocks (t - 1) (mat_pow (t - 1) (drop0 (entry mds)) k))) /\
    ((exists P, ps_new dbg t d rf rp mds rc = Ok P) \/ ps_new dbg t d rf rp mds rc = Panic).
  Proof.
    intros Hd HR HR2 Hov. split.
    - split.
      + intros [P H]. pose proof (ps_new_wide _ _ _ _ _ _ _ _ H) as [Ht Hp].
        destruct (ps_new_ok _ _ _ _ _ _ _ _ H Hov) as [Hs [_ [He [m_i [v [w [opt [EM [EC _]]]]]]]]].
        destruct (ps_erc_ok HF _ _ _ _ _ _ _ Hd Ht (half_ov _ _ Hov) EC) as [_ [HL _]].
        destruct (ps_eqmat_ok HF _ _ _ _ _ _ _ Hd Ht Hp EM) as [HLM _].
        do 5 (split; [assumption|]). intros k Hk. replace k with (S (k - 1)) by lia. apply leading_MM; [exact Ht|]. apply HLM. lia.
      + intros [Hs [He [Ht [Hp [HL HLM]]]]]. pose proof (rf_even rf He) as He2.
        destruct (ps_eqmat_returns dbg t mds rp Hd Ht Hp) as [[[mi v] w] EM].
        { intros k Hk. apply leading_MM; [exact Ht|]. apply HLM. lia. }
        destruct (ps_erc_returns HF dbg t rc mds (rf / 2) rp Hd Ht (half_ov _ _ Hov) Hp HL) as [opt EC].
        { intros k Hk. specialize (HR (rf / 2 + k) ltac:(lia)). specialize (HR2 (rf / 2 + k) ltac:(lia)). lia. }
        unfold ps_new. rewrite (proj2 (degree_bool d) Hs). cbn [assert bind].
        rewrite (proj1 Hd), Nat.eqb_refl. cbn [assert bind]. rewrite He. cbn [Nat.eqb assert bind].
        rewrite uadd_ok by exact Hov. cbn [bind]. rewrite EM. cbn [bind]. rewrite EC. cbn [bind]. eexists. reflexivity.
    - pose proof (ps_new_not_fuel dbg t d rf rp mds rc Hd) as NF.
      destruct (ps_new dbg t d rf rp mds rc) as [P| |]; [left; exists P; reflexivity|right; reflexivity|contradiction].
  Qed.

  Lemma ps_new_few_panics dbg t d rf rp (mds rc : list (list F)) : dims t t mds -> (t < 2 \/ rp = 0) ->
    ps_new dbg t d rf rp mds rc = Panic.
  Proof.
    intros Hd Hc. pose proof (ps_new_not_fuel dbg t d rf rp mds rc Hd) as NF.
    destruct (ps_new dbg t d rf rp mds rc) as [P| |] eqn:E; [|reflexivity|contradiction].
    apply ps_new_wide in E. lia.
  Qed.

  (** ** C20 for the parameter generation and the permutations *)
  Lemma is_w_hat_unique t (A : @mat F) w w' : 2 <= t -> nonsingular (t - 1) (drop0 A) ->
    is_w_hat t A w -> is_w_hat t A w' -> w = w'.
  Proof.
    intros Ht HN [L H] [L' H']. apply (list_ext f0); [congruence|]. intros i Hi. rewrite L in Hi.
    assert (E : fsub (nth i w f0) (nth i w' f0) = f0).
    { apply (HN (fun j => fsub (nth j w f0) (nth j w' f0))); [|exact Hi]. intros r Hr.
      transitivity (fsub (sumn (t - 1) (fun j => fmul (A (S r) (S j)) (nth j w f0))) (sumn (t - 1) (fun j => fmul (A (S r) (S j)) (nth j w' f0)))).
      - rewrite <- (sumn_sub HF). apply sumn_ext. intros j Hj. unfold drop0. ring.
      - rewrite H, H' by exact Hr. ring. }
    transitivity (fadd (fsub (nth i w f0) (nth i w' f0)) (nth i w' f0)); [ring|]. rewrite E. ring.
  Qed.

  Theorem ps_new_profiles t d rf rp (mds rc : list (list F)) :
    dims t t mds -> ps_rows_ok t rf rp rc -> (forall r, r < rf + rp -> length (nth r rc []) <= t) ->
    (N.of_nat rf + N.of_nat rp < usize_mod)%N ->
    ps_new true t d rf rp mds rc = ps_new false t d rf rp mds rc.
  Proof.
    intros Hd HR HR2 Hov.
    destruct (ps_new_success true t d rf rp mds rc Hd HR HR2 Hov) as [I1 O1].
    destruct (ps_new_success false t d rf rp mds rc Hd HR HR2 Hov) as [I2 O2].
    destruct O1 as [H1|E1].
    - pose proof (proj2 I2 (proj1 I1 H1)) as H2. destruct H1 as [P1 H1], H2 as [P2 H2]. rewrite H1, H2. f_equal.
      pose proof (ps_new_wide _ _ _ _ _ _ _ _ H1) as [Ht Hp].
      destruct (ps_new_ok _ _ _ _ _ _ _ _ H1 Hov) as [Hs [_ [He [m_i [v [w [opt [EM [EC ->]]]]]]]]].
      destruct (ps_new_ok _ _ _ _ _ _ _ _ H2 Hov) as [_ [_ [_ [m_i' [v' [w' [opt' [EM' [EC' ->]]]]]]]]].
      destruct (ps_erc_ok HF _ _ _ _ _ _ _ Hd Ht (half_ov _ _ Hov) EC) as [_ [_ [_ [_ [inv [Ei [_ [Lo [Ho0 Ho]]]]]]]]].
      destruct (ps_erc_ok HF _ _ _ _ _ _ _ Hd Ht (half_ov _ _ Hov) EC') as [_ [_ [_ [_ [inv' [Ei' [_ [Lo' [Ho0' Ho']]]]]]]]].
      rewrite (mat_inverse_profiles HF t mds Hd) in Ei. rewrite Ei in Ei'. injection Ei' as <-.
      destruct (ps_eqmat_ok HF _ _ _ _ _ _ _ Hd Ht Hp EM) as [HL [[Lv [Lw HA]] ->]].
      destruct (ps_eqmat_ok HF _ _ _ _ _ _ _ Hd Ht Hp EM') as [_ [[Lv' [Lw' HA']] ->]].
      f_equal.
      + apply (list_ext []); [congruence|]. intros k Hk. destruct k as [|k]; [congruence|]. rewrite Ho, Ho' by lia. reflexivity.
      + apply (list_ext []); [congruence|]. intros k Hk.
        apply (is_w_hat_unique t (MM t (entry mds) k)); [exact Ht|apply HL; lia|apply HA; lia|apply HA'; lia].
      + apply (list_ext []); [congruence|]. intros k Hk. rewrite (proj1 (HA k ltac:(lia))), (proj1 (HA' k ltac:(lia))). reflexivity.
    - destruct O2 as [H2|E2]; [|congruence]. pose proof (proj2 I1 (proj1 I2 H2)) as [P1 H1]. congruence.
  Qed.

  Theorem ps_permutation_profiles t d rf rp (mds rc : list (list F)) P x :
    dims t t mds -> ps_rows_ok t rf rp rc -> (forall r, r < rf + rp -> length (nth r rc []) <= t) ->
    (N.of_nat rf + N.of_nat rp < usize_mod)%N -> ps_new true t d rf rp mds rc = Ok P ->
    ps_permutation true P x = ps_permutation false P x /\ ps_permutation_not_opt true P x = ps_permutation_not_opt false P x.
  Proof.
    intros Hd HR HR2 Hov H. assert (H' : ps_new false t d rf rp mds rc = Ok P) by (rewrite <- ps_new_profiles; assumption).
    destruct (ps_permutation_ref true t d rf rp mds rc P x H Hov Hd HR) as [A B].
    destruct (ps_permutation_ref false t d rf rp mds rc P x H' Hov Hd HR) as [A' B'].
    destruct (Nat.eq_dec (length x) t) as [E|N].
    - destruct (A E) as [-> ->], (A' E) as [-> ->]. auto.
    - destruct (B N) as [-> ->], (B' N) as [-> ->]. auto.
  Qed.
End Fin.

Section FinBij.
  Context {F : Type} {Fo : FOps F} {p : Z} (HP : is_prime_field Fo p).
  Let HF := prime_field_is_field HP.
  Add Ring FringPsB : (ff_ring _ HF).

  Definition ps_part_sb t d (c x : list F) : list F :=
    map (fun i => let y := fadd (nth i x f0) (nth i c f0) in if i =? 0 then fpow y d else y) (seq 0 t).
  Definition ps_layers t d rf rp (M : mat) (rc : list (list F)) : list (list F -> list F) :=
    flat_map (fun r => [full_sb t d (nth r rc []); mat_apply t t M]) (seq 0 (rf / 2)) ++
    flat_map (fun r => [ps_part_sb t d (nth r rc []); mat_apply t t M]) (seq (rf / 2) rp) ++
    flat_map (fun r => [full_sb t d (nth r rc []); mat_apply t t M]) (seq (rf / 2 + rp) (rf / 2)).
  Lemma ps_layers_ref t d rf rp M rc x : run_layers (ps_layers t d rf rp M rc) x = ps_ref t d rf rp M rc x.
  Proof. unfold ps_layers. rewrite !run_layers_app, !run_layers_flat. reflexivity. Qed.

  Lemma ps_part_sb_lbij t d c : d <> 0 -> Z.gcd (Z.of_nat d) (p - 1) = 1%Z -> lbij t (ps_part_sb t d c).
  Proof.
    intros Hd Hg. destruct (pow_inverse HP d Hd Hg) as [r Hr].
    apply (lbij_pointwise t f0 (fun i a => if i =? 0 then fpow (fadd a (nth i c f0)) d else fadd a (nth i c f0))
            (fun i a => if i =? 0 then fsub (r a) (nth i c f0) else fsub a (nth i c f0))).
    intros i a Hi. destruct (i =? 0); split; try ring.
    - rewrite (proj1 (Hr _)). ring.
    - replace (fadd (fsub (r a) (nth i c f0)) (nth i c f0)) with (r a) by ring. apply Hr.
  Qed.
  Lemma ps_part_sb_inj t d c : 1 <= t -> d <> 0 -> linj t (ps_part_sb t d c) -> Z.gcd (Z.of_nat d) (p - 1) = 1%Z.
  Proof.
    intros Ht Hd Hi. apply (pow_injective_iff HP d Hd). intros x y E.
    set (w := fun a => map (fun i => fsub (if i =? 0 then a else f0) (nth i c f0)) (seq 0 t)).
    assert (Ev : w x = w y).
    { apply Hi; try (unfold w; rewrite map_length, seq_length; reflexivity).
      unfold ps_part_sb. apply map_seq_ext. intros i Hi'. unfold w. rewrite !nth_map_seq by lia. cbv zeta.
      destruct (i =? 0); [|reflexivity].
      replace (fadd (fsub x (nth i c f0)) (nth i c f0)) with x by ring.
      replace (fadd (fsub y (nth i c f0)) (nth i c f0)) with y by ring. exact E. }
    apply (f_equal (fun l => fadd (nth 0 l f0) (nth 0 c f0))) in Ev. unfold w in Ev.
    rewrite !nth_map_seq in Ev by lia. cbn [Nat.eqb] in Ev.
    transitivity (fadd (fsub x (nth 0 c f0)) (nth 0 c f0)); [ring|]. rewrite Ev. ring.
  Qed.

  Lemma ps_ref_lbij t d rf rp (M : mat) (rc : list (list F)) : nonsingular t M -> d <> 0 -> Z.gcd (Z.of_nat d) (p - 1) = 1%Z ->
    lbij t (ps_ref t d rf rp M rc).
  Proof.
    intros HM Hd Hg. apply (lbij_ext t (run_layers (ps_layers t d rf rp M rc))); [|intros x _; apply ps_layers_ref].
    apply run_layers_lbij. apply Forall_forall. intros f Hf. unfold ps_layers in Hf.
    repeat (apply in_app_or in Hf; destruct Hf as [Hf|Hf]);
      apply in_flat_map in Hf; destruct Hf as [r [_ Hf]];
      repeat (destruct Hf as [<-|Hf]); try contradiction; try (apply (lbij_mat HF); exact HM).
    - apply (full_sb_lbij HP); assumption.
    - apply ps_part_sb_lbij; assumption.
    - apply (full_sb_lbij HP); assumption.
  Qed.

  Lemma ps_ref_inj_gcd t d rf rp (M : mat) (rc : list (list F)) : 1 <= t -> nonsingular t M -> d <> 0 -> 1 <= rp ->
    linj t (ps_ref t d rf rp M rc) -> Z.gcd (Z.of_nat d) (p - 1) = 1%Z.
  Proof.
    intros Ht HM Hd Hp Hi.
    assert (Hall : Forall (lbij t) (ps_layers t d rf rp M rc)).
    { apply peel.
      - apply Forall_forall. intros f Hf. unfold ps_layers in Hf.
        repeat (apply in_app_or in Hf; destruct Hf as [Hf|Hf]);
          apply in_flat_map in Hf; destruct Hf as [r [_ Hf]];
          repeat (destruct Hf as [<-|Hf]); try contradiction; try (intros _; apply (lbij_mat HF); exact HM).
        + intros H. apply (full_sb_lbij HP); [exact Hd|]. apply (full_sb_inj HP t d _ Ht Hd H).
        + intros H. apply ps_part_sb_lbij; [exact Hd|]. apply (ps_part_sb_inj t d _ Ht Hd H).
        + intros H. apply (full_sb_lbij HP); [exact Hd|]. apply (full_sb_inj HP t d _ Ht Hd H).
      - intros x y Hx Hy E. rewrite !ps_layers_ref in E. apply Hi; assumption. }
    rewrite Forall_forall in Hall. apply (ps_part_sb_inj t d (nth (rf / 2) rc []) Ht Hd). apply lbij_inj. apply Hall.
    unfold ps_layers. apply in_or_app; right. apply in_or_app; left.
    apply in_flat_map. exists (rf / 2). split; [apply in_seq; lia|left; reflexivity].
  Qed.

  (** C15: a constructed instance is a bijection exactly when the exponent is coprime to p - 1 *)
  Theorem ps_permutation_bijective_iff dbg t d rf rp (mds rc : list (list F)) P :
    ps_new dbg t d rf rp mds rc = Ok P -> (N.of_nat rf + N.of_nat rp < usize_mod)%N -> dims t t mds ->
    ps_rows_ok t rf rp rc ->
    (bijective_on t (ps_permutation dbg P) <-> Z.gcd (Z.of_nat d) (p - 1) = 1%Z) /\
    (bijective_on t (ps_permutation_not_opt dbg P) <-> Z.gcd (Z.of_nat d) (p - 1) = 1%Z).
  Proof.
    intros H Hov Hd HR. pose proof (ps_new_wide _ _ _ _ _ _ _ _ H) as [Ht Hp].
    destruct (ps_new_ok _ _ _ _ _ _ _ _ H Hov) as [Hs [_ [He [m_i [v [w [opt [_ [EC _]]]]]]]]].
    destruct (ps_erc_ok HF _ _ _ _ _ _ _ Hd Ht (half_ov _ _ Hov) EC) as [_ [HL _]].
    assert (HM : nonsingular t (entry mds)) by (apply HL; lia).
    assert (Hd0 : d <> 0) by (unfold sbox_degree in Hs; simpl in Hs; intros ->; intuition discriminate).
    assert (Href : forall x, length x = t -> ps_permutation dbg P x = Ok (ps_ref t d rf rp (entry mds) rc x) /\
                     ps_permutation_not_opt dbg P x = Ok (ps_ref t d rf rp (entry mds) rc x)).
    { intros x Hx. apply (ps_permutation_ref HF dbg t d rf rp mds rc P x H Hov Hd HR). exact Hx. }
    split; split; intros HG.
    - apply (ps_ref_inj_gcd t d rf rp (entry mds) rc ltac:(lia) HM Hd0 Hp). apply (bijective_inj t _ _ HG). intros x Hx. apply Href; exact Hx.
    - apply (lbij_bijective t (ps_ref t d rf rp (entry mds) rc)); [apply ps_ref_lbij; assumption|]. intros x Hx. apply Href; exact Hx.
    - apply (ps_ref_inj_gcd t d rf rp (entry mds) rc ltac:(lia) HM Hd0 Hp). apply (bijective_inj t _ _ HG). intros x Hx. apply Href; exact Hx.
    - apply (lbij_bijective t (ps_ref t d rf rp (entry mds) rc)); [apply ps_ref_lbij; assumption|]. intros x Hx. apply Href; exact Hx.
  Qed.
End FinBij.
