(** * Round counts that do not fit in usize (C70) *)
From Verif Require Import Base Field Spec LinAlg LoopLemmas MatLoops FieldPow ModelUtils ModelPoseidon2 ModelPoseidon ModelRandom ModelNeptune
  SpecPoseidon2 SpecNeptune ProofPoseidon2 ProofPoseidon2Extra ProofTotal ProofNeptuneParams ProofNeptune ProofNeptuneBij.

Lemma for_list_each {X St} (body : X -> St -> res St) l : forall s s', for_list l body s = Ok s' ->
  forall x, In x l -> exists s1 s2, body x s1 = Ok s2.
Proof.
  induction l as [|y l IH]; intros s s' H x Hx; [destruct Hx|]. cbn in H. inv_ok H. destruct Hx as [<-|Hx]; [exists s, a; exact E|].
  exact (IH _ _ H x Hx).
Qed.
Lemma for_range_each {St} lo hi (body : nat -> St -> res St) s s' : for_range lo hi body s = Ok s' ->
  forall i, lo <= i < hi -> exists s1 s2, body i s1 = Ok s2.
Proof. intros H i Hi. apply (for_list_each _ _ _ _ H). apply in_seq. lia. Qed.
Lemma for_range_rev_each {St} lo hi (body : nat -> St -> res St) s s' : for_range_rev lo hi body s = Ok s' ->
  forall i, lo <= i < hi -> exists s1 s2, body i s1 = Ok s2.
Proof. intros H i Hi. unfold for_range_rev in H. apply (for_list_each _ _ _ _ H). rewrite <- in_rev. apply in_seq. lia. Qed.

Lemma uadd_wrap a b : (usize_mod <= N.of_nat a + N.of_nat b < 2 * usize_mod)%N ->
  uadd false a b = Ok (N.to_nat (N.of_nat a + N.of_nat b - usize_mod)).
Proof.
  intros H. unfold uadd. destruct (N.ltb_spec (N.of_nat a + N.of_nat b) usize_mod); [lia|]. f_equal. f_equal.
  rewrite (N.mod_eq _ usize_mod) by (vm_compute; discriminate).
  replace ((N.of_nat a + N.of_nat b) / usize_mod)%N with 1%N; [lia|].
  apply (N.div_unique _ _ _ (N.of_nat a + N.of_nat b - usize_mod)%N); lia.
Qed.
Lemma uadd_overflow_debug a b : (usize_mod <= N.of_nat a + N.of_nat b)%N -> uadd true a b = Panic.
Proof. intros H. unfold uadd. apply N.ltb_ge in H. rewrite H. reflexivity. Qed.
Lemma ok_inj {A} (a b : A) : Ok a = Ok b -> a = b.
Proof. congruence. Qed.
Lemma idx_length {A} (l : list A) i a : idx l i = Ok a -> i < length l.
Proof. intros H. destruct (Nat.lt_ge_cases i (length l)) as [L|L]; [exact L|]. rewrite idx_panic in H by exact L. discriminate. Qed.

Section Overflow.
  Context {F : Type} {Fo : FOps F} (HF : is_field Fo).

  Lemma ends_mapM {A B} (f : A -> res B) l : (forall a, ends (f a)) -> ends (mapM f l).
  Proof. intros H. apply mapM_not_fuel. exact H. Qed.
  Lemma p2_permutation_ends dbg (P : Poseidon2Params F) x : ends (p2_permutation dbg P x).
  Proof.
    assert (E1 : forall st, ends (p2_matmul_external P st))
      by (intros st; unfold p2_matmul_external, p2_external_big, p2_stored, p2_matmul_m4, p2_m4_body; ends).
    assert (E2 : forall st, ends (p2_matmul_internal P st (p2_diag P)))
      by (intros st; unfold p2_matmul_internal, p2_internal_big; ends).
    assert (E3 : forall y, ends (p2_sbox_p P y)) by (intros y; unfold p2_sbox_p; ends).
    assert (E4 : forall st, ends (p2_sbox P st)) by (intros st; apply ends_mapM; exact E3).
    unfold p2_permutation, p2_full_round, p2_partial_round.
    repeat first [apply E1 | apply E2 | apply E3 | apply E4 | progress ends].
  Qed.

  (** ** Poseidon2, the case not covered by C55_overflow_release *)
  Theorem p2_overflow_panics t d rf rp (diag : list F) (mi rc : list (list F)) P x :
    (N.of_nat rf < usize_mod)%N -> (usize_mod <= N.of_nat rf + N.of_nat rp)%N ->
    (N.of_nat (rf / 2) + N.of_nat rp < usize_mod)%N -> (N.of_nat (length rc) <= usize_mod / 2)%N ->
    p2_new false t d rf rp diag mi rc = Ok P -> p2_permutation false P x = Panic.
  Proof.
    intros H1 H2 H3 H4 HN. destruct (ends_cases _ (p2_permutation_ends false P x)) as [[y E]|E]; [exfalso|exact E].
    unfold p2_new in HN. remember (rf / 2) as h eqn:Eh. inv_ok HN. inv_ok HN. destruct a0. apply assert_ok in E1. apply Nat.eqb_eq in E1. inv_ok HN. injection HN as <-.
    assert (Hh : rf = 2 * h) by (rewrite Eh; apply Nat.div_exact; [discriminate|exact E1]).
    change (usize_mod / 2)%N with 9223372036854775808%N in H4. change usize_mod with 18446744073709551616%N in *.
    unfold p2_permutation in E. cbn [p2_t p2_rounds_f_beginning p2_rounds_p p2_rounds] in E.
    inv_ok E. inv_ok E. inv_ok E. rewrite uadd_ok in E by exact H3. cbn [bind] in E. inv_ok E.
    destruct (for_range_each _ _ _ _ _ E6 (h + rp - 1)) as [s1 [s2 B]]; [lia|].
    unfold p2_partial_round in B. inv_ok B. inv_ok B. unfold idx2 in E8. inv_ok E8. apply idx_length in E9. cbn in E9. lia.
  Qed.

  (** ** Poseidon: the constructor panics *)
  Theorem ps_overflow dbg t d rf rp (mds rc : list (list F)) :
    (N.of_nat rf < usize_mod)%N -> (N.of_nat rp < usize_mod)%N -> (usize_mod <= N.of_nat rf + N.of_nat rp)%N ->
    (N.of_nat (length rc) <= usize_mod / 2)%N -> ps_new dbg t d rf rp mds rc = Panic.
  Proof.
    intros H1 H2 H3 H4. destruct (ends_cases _ (ps_new_ends dbg t d rf rp mds rc)) as [[P HN]|E]; [exfalso|exact E].
    unfold ps_new in HN. remember (rf / 2) as h eqn:Eh. inv_ok HN. inv_ok HN. inv_ok HN. destruct a1. apply assert_ok in E1. apply Nat.eqb_eq in E1. inv_ok HN.
    destruct dbg; [rewrite uadd_overflow_debug in E2 by exact H3; discriminate|]. clear E2.
    inv_ok HN. match goal with a : list (list F) * list (list F) * list (list F) |- _ => destruct a as [[mi v] w] end. inv_ok HN. clear HN. rename E3 into HN.
    assert (Hh : rf = 2 * h) by (rewrite Eh; apply Nat.div_exact; [discriminate|exact E1]).
    change (usize_mod / 2)%N with 9223372036854775808%N in H4.
    unfold ps_equivalent_round_constants in HN. apply bind_ok in HN as [inv [_ HN]]. apply bind_ok in HN as [s [Es HN]].
    apply bind_ok in HN as [pe [Epe HN]]. apply bind_ok in HN as [t0 [Et0 HN]]. apply idx_length in Et0. apply bind_ok in HN as [hi [Ehi HN]].
    apply bind_ok in HN as [[opt tmp] [EL _]].
    assert (L : (N.of_nat pe < 9223372036854775808)%N) by lia. clear Et0.
    destruct (N.lt_ge_cases (N.of_nat h + N.of_nat rp) usize_mod) as [C|C].
    - rewrite uadd_ok in Es by exact C. injection Es as <-. change usize_mod with 18446744073709551616%N in *.
      unfold usub in Epe. destruct (Nat.leb_spec 1 (h + rp)); [|lia]. injection Epe as <-. lia.
    - rewrite uadd_wrap in Es by (change usize_mod with 18446744073709551616%N in *; lia).
      assert (ES : N.of_nat s = (N.of_nat h + N.of_nat rp - usize_mod)%N) by (apply ok_inj in Es; rewrite <- Es; apply N2Nat.id). clear Es.
      unfold usub in Epe. destruct (Nat.leb_spec 1 s) as [K|K].
      + clear Epe L. change usize_mod with 18446744073709551616%N in *.
        assert (EH : hi = rp - 1). { unfold usub in Ehi. destruct (Nat.leb_spec 1 rp); [|lia]. injection Ehi as <-. reflexivity. }
        assert (EI : exists i, N.of_nat i = (18446744073709551615 - N.of_nat h)%N) by (eexists; apply N2Nat.id).
        destruct EI as [i EI]. destruct (for_range_rev_each _ _ _ _ _ EL i) as [[o1 t1] [s2 B]]; [lia|].
        apply bind_ok in B as [ic [_ B]]. apply bind_ok in B as [c0 [_ B]]. apply bind_ok in B as [o2 [_ B]].
        rewrite uadd_ok in B by (change usize_mod with 18446744073709551616%N; lia).
        cbn [bind] in B. apply bind_ok in B as [t2 [B _]]. apply idx_length in B. lia.
      + assert (EP : N.of_nat pe = (usize_mod + N.of_nat s - N.of_nat 1)%N) by (apply ok_inj in Epe; rewrite <- Epe; apply N2Nat.id).
        change usize_mod with 18446744073709551616%N in *. lia.
  Qed.
End Overflow.

Section OverflowNp.
  Context {F : Type} {Fo : FOps F} {p : Z} (HP : is_prime_field Fo p).
  Let HF := prime_field_is_field HP.

  Theorem np_new_overflow_debug fuel (rng : nat -> F) t d rf rp :
    (usize_mod <= N.of_nat rf + N.of_nat rp)%N -> np_new true fuel rng t d rf rp = Panic.
  Proof.
    intros H. unfold np_new. destruct (_ || _); [|reflexivity]. destruct (rf mod 2 =? 0); [|reflexivity]. destruct (t mod 2 =? 0); [|reflexivity].
    cbn [assert bind]. rewrite uadd_overflow_debug by exact H. reflexivity.
  Qed.

  (** the instance made in release mode is the one with the wrapped sum, apart from the round numbers *)
  Definition set_rounds (r rp rounds : nat) (P : NeptuneParams F) : NeptuneParams F :=
    {| np_t := np_t P; np_d := np_d P; np_rounds_f_beginning := r; np_rounds_p := rp; np_rounds_f_end := r; np_rounds := rounds;
       np_rc := np_rc P; np_m_e := np_m_e P; np_mu := np_mu P; np_abc := np_abc P; np_a_ := np_a_ P |}.
  Lemma np_new_wrap fuel (rng : nat -> F) t d rf rp :
    (usize_mod <= N.of_nat rf + N.of_nat rp < 2 * usize_mod)%N -> rf mod 2 = 0 ->
    let R := N.to_nat (N.of_nat rf + N.of_nat rp - usize_mod) in
    np_new false fuel rng t d rf rp = (P <- np_new false fuel rng t d 0 R ;; Ok (set_rounds (rf / 2) rp R P)).
  Proof.
    intros H Hev R. unfold np_new. rewrite Hev. destruct ((d =? 3) || (d =? 5) || (d =? 7)); [|reflexivity].
    destruct (t mod 2 =? 0) eqn:Et; [|reflexivity].
    cbn [assert bind Nat.eqb Nat.modulo Nat.div]. rewrite uadd_wrap by exact H. fold R. rewrite uadd_ok by (unfold R; lia).
    cbn [bind Nat.add]. destruct (np_instantiate_rc t R rng 0) as [rc pos]. 
    destruct (np_instantiate_external_matrix t rng pos) as [[me pos1]| |]; [|reflexivity|reflexivity]. cbn [bind].
    destruct (np_instantiate_mu fuel t rng pos1) as [[mu pos2]| |]; [|reflexivity|reflexivity]. cbn [bind].
    reflexivity.
  Qed.

  Lemma np_external_round_made P rng t d rf rp r s : np_made rng t d rf rp P -> t mod 2 = 0 -> r < rf + rp -> length s = t ->
    np_external_round P r s = Ok (np_ref_ext t (np_abc P) (entry (np_m_e P)) (nth r (np_rc P) []) s).
  Proof.
    intros HM Hev Hr Hs. pose proof HM as (Et & Ed & Eb & Ep & Ee & Er & Erc & Em & Lm & Hm & [ka Ea] & _).
    unfold np_external_round. rewrite (np_sbox_layer HF P _ s t Ea Hs Hev). cbn [bind].
    rewrite (np_ext_ok HP P rng t d rf rp _ HM Hev (np_ref_sbox_length _ _ _)). cbn [bind].
    rewrite (idx_ok []) by (rewrite Erc, mk_mat_length; exact Hr). cbn [bind]. unfold np_ref_ext. f_equal. rewrite Em, mat_apply_mk.
    apply add_rc_ok; [apply mat_apply_length|]. rewrite Erc, mk_mat_row by exact Hr. rewrite map_length, seq_length. lia.
  Qed.

  Theorem np_overflow_release fuel rng t d rf rp :
    (N.of_nat rf < usize_mod)%N -> (N.of_nat rp < usize_mod)%N -> (usize_mod <= N.of_nat rf + N.of_nat rp)%N ->
    forall P, np_new false fuel rng t d rf rp = Ok P -> forall x,
    let k := N.to_nat (N.of_nat (rf / 2) + N.of_nat rp - usize_mod) in
    let external s r := np_ref_ext t (np_abc P) (entry (np_m_e P)) (nth r (np_rc P) []) s in
    ((usize_mod <= N.of_nat (rf / 2) + N.of_nat rp)%N -> length x = t ->
       k < rf / 2 /\ length (np_rc P) = k + rf / 2 /\
       np_permutation false P x =
         Ok (fold_left external (seq k (rf / 2)) (fold_left external (seq 0 (rf / 2)) (mat_apply t t (entry (np_m_e P)) x)))) /\
    ((N.of_nat (rf / 2) + N.of_nat rp < usize_mod)%N -> np_permutation false P x = Panic) /\
    (length x <> t -> np_permutation false P x = Panic).
  Proof.
    intros H1 H2 H3 P HN x k external.
    assert (A : rf mod 2 = 0). { unfold np_new in HN. inv_ok HN. inv_ok HN. destruct a0. apply assert_ok in E0. apply Nat.eqb_eq in E0. exact E0. }
    assert (Hh : rf = 2 * (rf / 2)) by (apply Nat.div_exact; [discriminate|exact A]).
    rewrite np_new_wrap in HN by (assumption || lia). cbn zeta in HN. set (R := N.to_nat (N.of_nat rf + N.of_nat rp - usize_mod)) in *.
    inv_ok HN. rename a into P0. apply ok_inj in HN. subst P.
    destruct (np_new_ok HF _ _ _ _ _ _ _ _ E) as [[Hd [_ Ht]] HM]; [unfold R; lia|].
    pose proof HM as (Et & Ed & Eb & Ep & Ee & Er & Erc & Em & Lm & Hm & [ka Ea] & _). cbn [Nat.add] in Er, Erc, Em.
    assert (LR : length (np_rc P0) = R) by (rewrite Erc; apply mk_mat_length).
    assert (RD : forall r s, r < R -> length s = t -> np_external_round (set_rounds (rf / 2) rp R P0) r s = Ok (external s r)).
    { intros r s Hr Hs. change (np_external_round P0 r s = Ok (external s r)). apply (np_external_round_made P0 rng t d 0 R r s HM Ht Hr Hs). }
    assert (EL : forall s r, length (external s r) = t) by (intros s r; unfold external; apply np_ref_ext_length).
    assert (X : length x = t -> np_external_matmul (set_rounds (rf / 2) rp R P0) x = Ok (mat_apply t t (entry (np_m_e P0)) x)).
    { intros Hx. change (np_external_matmul P0 x = Ok (mat_apply t t (entry (np_m_e P0)) x)).
      rewrite (np_ext_ok HP P0 rng t d 0 R x HM Ht Hx), Em, mat_apply_mk. reflexivity. }
    assert (T1 : np_t (set_rounds (rf / 2) rp R P0) = t) by exact Et.
    assert (T2 : np_rounds_f_beginning (set_rounds (rf / 2) rp R P0) = rf / 2) by reflexivity.
    assert (T3 : np_rounds_p (set_rounds (rf / 2) rp R P0) = rp) by reflexivity.
    assert (T4 : np_rounds (set_rounds (rf / 2) rp R P0) = R) by reflexivity.
    assert (NL : length x <> t -> np_permutation false (set_rounds (rf / 2) rp R P0) x = Panic).
    { intros N. apply np_permutation_length_panic. rewrite T1. exact N. }
    split; [|split; [|exact NL]].
    - intros C Hx. assert (EK : N.of_nat k = (N.of_nat (rf / 2) + N.of_nat rp - usize_mod)%N) by (unfold k; rewrite N2Nat.id; reflexivity).
      assert (EQR : R = k + rf / 2) by (unfold R; lia).
      split; [lia|]. split; [cbn [np_rc set_rounds]; lia|].
      unfold np_permutation. rewrite T1, T2, T3, T4, Hx, Nat.eqb_refl. cbn [assert bind]. rewrite (X Hx). cbn [bind].
      destruct (for_range_fold external (fun s => length s = t) 0 (rf / 2) (np_external_round (set_rounds (rf / 2) rp R P0))
        (mat_apply t t (entry (np_m_e P0)) x)) as [E1 L1]; [apply mat_apply_length| |].
      { intros i s Hi Hs. split; [apply RD; [lia|exact Hs]|apply EL]. }
      rewrite E1. cbn [bind]. rewrite Nat.sub_0_r in *. rewrite uadd_wrap by lia. cbn [bind]. fold k.
      rewrite for_range_empty by lia. cbn [bind].
      destruct (for_range_fold external (fun s => length s = t) k R (np_external_round (set_rounds (rf / 2) rp R P0)) _ L1) as [E2 L2].
      { intros i s Hi Hs. split; [apply RD; [lia|exact Hs]|apply EL]. }
      rewrite E2. replace (R - k) with (rf / 2) by lia. reflexivity.
    - intros C. destruct (Nat.eq_dec (length x) t) as [Hx|N]; [|exact (NL N)].
      assert (EQR : R < rf / 2) by (unfold R; lia).
      unfold np_permutation. rewrite T1, T2, T3, T4, Hx, Nat.eqb_refl. cbn [assert bind]. rewrite (X Hx). cbn [bind].
      destruct (for_range_fold external (fun s => length s = t) 0 R (np_external_round (set_rounds (rf / 2) rp R P0))
        (mat_apply t t (entry (np_m_e P0)) x)) as [E1 L1]; [apply mat_apply_length| |].
      { intros i s Hi Hs. split; [apply RD; [lia|exact Hs]|apply EL]. }
      rewrite (for_range_panic 0 R (rf / 2) _ _ _ (conj (Nat.le_0_l R) EQR) E1); [reflexivity|].
      set (s1 := fold_left _ _ _) in *. change (np_external_round P0 R s1 = Panic). unfold np_external_round.
      rewrite (np_sbox_layer HF P0 _ s1 t Ea L1 Ht). cbn [bind].
      rewrite (np_ext_ok HP P0 rng t d 0 R _ HM Ht (np_ref_sbox_length _ _ _)). cbn [bind]. rewrite idx_panic by lia. reflexivity.
  Qed.
  Theorem np_overflow_accepted fuel (rng : nat -> F) t d rf rp :
    (N.of_nat rf < usize_mod)%N -> (N.of_nat rp < usize_mod)%N -> (usize_mod <= N.of_nat rf + N.of_nat rp)%N ->
    In d [3; 5; 7] /\ rf mod 2 = 0 /\ t mod 2 = 0 -> (forall q, exists k, k < fuel /\ rng (q + k) <> (f0 : F)) ->
    exists P, np_new false fuel rng t d rf rp = Ok P.
  Proof.
    intros H1 H2 H3 [Hd [Hr Ht]] HR. rewrite np_new_wrap by (assumption || lia). cbn zeta. set (R := N.to_nat _).
    destruct (np_new_returns HF false fuel rng t d 0 R) as [P E]; [split; [exact Hd|split; [reflexivity|exact Ht]]|unfold R; lia|exact HR|].
    rewrite E. eexists. reflexivity.
  Qed.
End OverflowNp.
