(** * Neptune: fixed external matrices, permutation, bijection (C28-C30) *)
From Coq Require Import ZifyNat Zify.
From Verif Require Import Base Field Spec LinAlg LoopLemmas MatLoops FieldPow Bij ModelPoseidon2 ModelRandom ModelNeptune SpecNeptune
  SpecPoseidon2 ProofPoseidon2 ProofPoseidon2Lin ProofPoseidon2Bij ProofNeptuneParams ProofNeptune.
Ltac Zify.zify_post_hook ::= Z.to_euclidean_division_equations.

Section NpB.
  Context {F : Type} {Fo : FOps F} {p : Z} (HP : is_prime_field Fo p).
  Let HF := prime_field_is_field HP.
  Add Ring FringNpB : (ff_ring _ HF).

  Lemma ofZ1 : f_of_Z 1 = (f1 : F). Proof. apply (f_of_Z_1 HP). Qed.
  Lemma ofZ2 : f_of_Z 2 = fadd f1 (f1 : F).
  Proof. change 2%Z with (1 + 1)%Z. rewrite (f_of_Z_add HP), ofZ1. reflexivity. Qed.
  Lemma ofZ3 : f_of_Z 3 = fadd f1 (fadd f1 (f1 : F)).
  Proof. change 3%Z with (1 + 2)%Z. rewrite (f_of_Z_add HP), ofZ1, ofZ2. reflexivity. Qed.

  (** rows of the two fixed matrices *)
  Definition row4 (i : nat) (x : nat -> F) : F :=
    match i with
    | 0 => fadd (fadd (x 0) (x 0)) (x 2) | 1 => fadd (x 1) (fadd (x 3) (x 3))
    | 2 => fadd (x 0) (fadd (x 2) (x 2)) | _ => fadd (fadd (x 1) (x 1)) (x 3) end.
  Definition lin4 (a b c d : F) : F := fadd (fadd (fadd (fadd (fadd (fadd a a) a) b) b) c) d.
  Definition row8 (i : nat) (x : nat -> F) : F :=
    match i with
    | 0 => lin4 (x 0) (x 2) (x 4) (x 6) | 1 => lin4 (x 7) (x 5) (x 1) (x 3)
    | 2 => lin4 (x 2) (x 4) (x 6) (x 0) | 3 => lin4 (x 1) (x 7) (x 3) (x 5)
    | 4 => lin4 (x 4) (x 6) (x 0) (x 2) | 5 => lin4 (x 3) (x 1) (x 5) (x 7)
    | 6 => lin4 (x 6) (x 0) (x 2) (x 4) | _ => lin4 (x 5) (x 3) (x 7) (x 1) end.
  Lemma row4_ok n rng i x : i < 4 -> sumn 4 (fun j => fmul (np_ext_entry 4 n rng i j) (x j)) = row4 i x.
  Proof.
    intros Hi. do 4 (destruct i as [|i]; [unfold np_ext_entry, np_even_block, np_odd_block, circ;
      cbn -[fadd fmul f_of_Z f0 f1]; rewrite ?ofZ3, ?ofZ2, ?ofZ1; ring|]). lia.
  Qed.
  Lemma row8_ok n rng i x : i < 8 -> sumn 8 (fun j => fmul (np_ext_entry 8 n rng i j) (x j)) = row8 i x.
  Proof.
    intros Hi. do 8 (destruct i as [|i]; [unfold np_ext_entry, np_even_block, np_odd_block, circ;
      cbn -[fadd fmul f_of_Z f0 f1 lin4]; unfold lin4; rewrite ?ofZ3, ?ofZ2, ?ofZ1; ring|]). lia.
  Qed.

  Lemma np_ext_4 n rng x : length x = 4 -> np_external_matmul_4 x = Ok (mat_apply 4 4 (np_ext_entry 4 n rng) x).
  Proof.
    intros Hx. unfold mat_apply. rewrite (map_seq_ext _ (fun i => row4 i (fun j => nth j x f0))) by (intros i Hi; apply row4_ok; exact Hi).
    destruct x as [|x0 [|x1 [|x2 [|x3 [|? x]]]]]; try discriminate Hx.
    cbn -[fadd fmul f0 f1]. f_equal. repeat (apply (f_equal2 cons); [ring|]). reflexivity.
  Qed.
  Lemma np_ext_8 n rng x : length x = 8 -> np_external_matmul_8 x = Ok (mat_apply 8 8 (np_ext_entry 8 n rng) x).
  Proof.
    intros Hx. unfold mat_apply. rewrite (map_seq_ext _ (fun i => row8 i (fun j => nth j x f0))) by (intros i Hi; apply row8_ok; exact Hi).
    destruct x as [|x0 [|x1 [|x2 [|x3 [|x4 [|x5 [|x6 [|x7 [|? x]]]]]]]]]; try discriminate Hx.
    cbn -[fadd fmul f0 f1 lin4 fdouble]. unfold lin4, fdouble. f_equal. repeat (apply (f_equal2 cons); [ring|]). reflexivity.
  Qed.

  Lemma checker t n rng i j : i mod 2 <> j mod 2 -> np_ext_entry t n rng i j = (f0 : F).
  Proof.
    intros H. unfold np_ext_entry. destruct (Nat.eqb_spec (i mod 2) 1), (Nat.eqb_spec (j mod 2) 1), (Nat.eqb_spec (i mod 2) 0), (Nat.eqb_spec (j mod 2) 0); cbn [andb]; try reflexivity; exfalso; lia.
  Qed.

  Lemma np_ext_ok P rng t d rf rp x : np_made rng t d rf rp P -> t mod 2 = 0 -> length x = t ->
    np_external_matmul P x = Ok (mat_apply t t (np_ext_entry t (rf + rp) rng) x).
  Proof.
    intros HM Hev Hx. destruct HM as (Et & _ & _ & _ & _ & _ & _ & Em & _).
    destruct (Nat.eq_dec t 4) as [->|N4].
    - unfold np_external_matmul. rewrite Et. cbn [Nat.eqb]. apply np_ext_4. exact Hx.
    - destruct (Nat.eq_dec t 8) as [->|N8].
      + unfold np_external_matmul. rewrite Et. cbn [Nat.eqb]. apply np_ext_8. exact Hx.
      + apply (np_ext_generic HF); try assumption. intros i j Hij. apply checker. exact Hij.
  Qed.

  Lemma mat_apply_mk t (E : mat) (x : list F) : mat_apply t t (entry (mk_mat t t E)) x = mat_apply t t E x.
  Proof. apply mat_apply_ext; [|reflexivity]. intros i j Hi Hj. apply mk_mat_entry; assumption. Qed.

  Theorem np_external_matmul_ok dbg fuel rng t d rf rp P x : np_new dbg fuel rng t d rf rp = Ok P ->
    (N.of_nat rf + N.of_nat rp < usize_mod)%N -> length x = t ->
    np_external_matmul P x = Ok (mat_apply t t (entry (np_m_e P)) x).
  Proof.
    intros H Hov Hx. destruct (np_new_ok HF _ _ _ _ _ _ _ _ H Hov) as [[_ [_ Hev]] HM].
    rewrite (np_ext_ok P rng t d rf rp x HM Hev Hx). destruct HM as (_ & _ & _ & _ & _ & _ & _ & -> & _).
    rewrite mat_apply_mk. reflexivity.
  Qed.
  Theorem np_internal_matmul_ok dbg fuel rng t d rf rp P x : np_new dbg fuel rng t d rf rp = Ok P ->
    (N.of_nat rf + N.of_nat rp < usize_mod)%N -> length x = t -> 1 <= t -> exists mu,
    (forall i, i < t -> mu i <> f0 /\ (exists k, mu i = rng k) /\ nth i (np_mu P) f0 = fsub (mu i) f1) /\
    np_internal_matmul P x = Ok (mat_apply t t (np_int_matrix mu) x).
  Proof.
    intros H Hov Hx Ht. destruct (np_new_ok HF _ _ _ _ _ _ _ _ H Hov) as [_ (_ & _ & _ & _ & _ & _ & _ & _ & Lm & Hm & _)].
    exists (fun i => fadd (nth i (np_mu P) f0) f1). split.
    - intros i Hi. destruct (Hm i Hi) as [k [_ [Nk Ek]]]. rewrite Ek.
      assert (E : fadd (fsub (rng k) f1) f1 = rng k) by ring. rewrite E. repeat split; [exact Nk|exists k; reflexivity].
    - apply (np_int_ok HF); assumption.
  Qed.

  (** the matrices a parameter object stands for *)
  Definition np_mu_of (P : NeptuneParams F) (i : nat) : F := fadd (nth i (np_mu P) f0) f1.

  Lemma np_ref_ext_length t abc ME (c x : list F) : length (np_ref_ext t abc ME c x) = t.
  Proof. unfold np_ref_ext. rewrite map_length, seq_length. reflexivity. Qed.
  Lemma np_ref_int_length t d MI (c x : list F) : length (np_ref_int t d MI c x) = t.
  Proof. unfold np_ref_int. rewrite map_length, seq_length. reflexivity. Qed.

  Lemma np_permutation_made dbg P rng t d rf rp x : np_made rng t d rf rp P -> np_args t d rf ->
    (N.of_nat rf + N.of_nat rp < usize_mod)%N -> length x = t -> 1 <= t \/ rp = 0 ->
    np_permutation dbg P x = Ok (np_ref t d rf rp (np_abc P) (entry (np_m_e P)) (np_int_matrix (np_mu_of P)) (np_rc P) x).
  Proof.
    intros HM [Hd [Hrf Hev]] Hov Hx Ht. pose proof HM as (Et & Ed & Eb & Ep & Ee & Er & Erc & Em & Lm & Hm & [ka Ea] & _).
    unfold np_permutation, np_ref. rewrite Et, Hx, Nat.eqb_refl. cbn [assert bind].
    rewrite (np_ext_ok P rng t d rf rp x HM Hev Hx). cbn [bind]. rewrite Eb, Ep, Er.
    assert (Rc : forall r, r < rf + rp -> idx (np_rc P) r = Ok (nth r (np_rc P) []) /\ length (nth r (np_rc P) []) = t).
    { intros r Hr. assert (L : length (np_rc P) = rf + rp) by (rewrite Erc; apply mk_mat_length). split; [apply idx_ok; lia|].
      rewrite Erc, mk_mat_row by exact Hr. rewrite map_length, seq_length. reflexivity. }
    assert (HE : forall r s, r < rf + rp -> length s = t ->
      np_external_round P r s = Ok (np_ref_ext t (np_abc P) (entry (np_m_e P)) (nth r (np_rc P) []) s)).
    { intros r s Hr Hs. unfold np_external_round. rewrite (np_sbox_layer HF P _ s t Ea Hs Hev). cbn [bind].
      rewrite (np_ext_ok P rng t d rf rp _ HM Hev (np_ref_sbox_length _ _ _)). cbn [bind].
      destruct (Rc r Hr) as [-> L]. cbn [bind]. unfold np_ref_ext. f_equal. rewrite Em, mat_apply_mk.
      apply add_rc_ok; [apply mat_apply_length|lia]. }
    rewrite Em, mat_apply_mk. rewrite <- (mat_apply_mk t (np_ext_entry t (rf + rp) rng)). rewrite <- Em.
    destruct (for_range_fold (fun s r => np_ref_ext t (np_abc P) (entry (np_m_e P)) (nth r (np_rc P) []) s) (fun s => length s = t)
      0 (rf / 2) (np_external_round P) (mat_apply t t (entry (np_m_e P)) x)) as [E1 L1].
    { apply mat_apply_length. } { intros i s Hi Hs. split; [apply HE; [lia|exact Hs]|apply np_ref_ext_length]. }
    rewrite E1. cbn [bind]. rewrite Nat.sub_0_r in *.
    set (s1 := fold_left _ (seq 0 (rf / 2)) _) in *.
    rewrite uadd_ok by lia. cbn [bind].
    destruct (for_range_fold (fun s r => np_ref_int t d (np_int_matrix (np_mu_of P)) (nth r (np_rc P) []) s) (fun s => length s = t)
      (rf / 2) (rf / 2 + rp) (np_internal_round P) s1) as [E2 L2].
    { exact L1. }
    { intros i s Hi Hs. split; [|apply np_ref_int_length]. assert (T : 1 <= t) by lia. unfold np_internal_round.
      rewrite (np_isbox_ok HF P s t Hs T) by (rewrite Ed; exact Hd). cbn [bind]. rewrite Ed.
      rewrite (np_int_ok HF P _ t) by (rewrite ?map_length, ?seq_length; (reflexivity || assumption)). cbn [bind].
      destruct (Rc i ltac:(lia)) as [-> L]. cbn [bind]. unfold np_ref_int. f_equal. apply add_rc_ok; [apply mat_apply_length|lia]. }
    rewrite E2. cbn [bind]. replace (rf / 2 + rp - rf / 2) with rp in * by lia.
    set (s2 := fold_left _ (seq (rf / 2) rp) _) in *.
    destruct (for_range_fold (fun s r => np_ref_ext t (np_abc P) (entry (np_m_e P)) (nth r (np_rc P) []) s) (fun s => length s = t)
      (rf / 2 + rp) (rf + rp) (np_external_round P) s2) as [E3 L3].
    { exact L2. } { intros i s Hi Hs. split; [apply HE; [lia|exact Hs]|apply np_ref_ext_length]. }
    rewrite E3. replace (rf + rp - (rf / 2 + rp)) with (rf / 2) by lia. reflexivity.
  Qed.

  Lemma np_permutation_length_panic dbg (P : NeptuneParams F) x : length x <> np_t P -> np_permutation dbg P x = Panic.
  Proof. intros N. unfold np_permutation. destruct (Nat.eqb_spec (length x) (np_t P)); [contradiction|reflexivity]. Qed.
  Lemma np_permutation_zero_panic dbg P rng d rf rp : np_made rng 0 d rf rp P -> rf mod 2 = 0 ->
    (N.of_nat rf + N.of_nat rp < usize_mod)%N -> 1 <= rp -> np_permutation dbg P ([] : list F) = Panic.
  Proof.
    intros HM Hrf Hov Hp. pose proof HM as (Et & Ed & Eb & Ep & Ee & Er & Erc & Em & Lm & Hm & [ka Ea] & _).
    unfold np_permutation. rewrite Et. cbn [length Nat.eqb assert bind].
    rewrite (np_ext_ok P rng 0 d rf rp [] HM eq_refl eq_refl). cbn [bind]. rewrite Eb, Ep.
    destruct (for_range_fold (fun s (r : nat) => s) (fun s => s = ([] : list F)) 0 (rf / 2) (np_external_round P) (mat_apply 0 0 (np_ext_entry 0 (rf + rp) rng) [])) as [E1 L1].
    { reflexivity. }
    { intros i s Hi ->. split; [|reflexivity]. unfold np_external_round. rewrite (np_sbox_layer HF P _ [] 0 Ea eq_refl eq_refl). cbn [bind].
      rewrite (np_ext_ok P rng 0 d rf rp _ HM eq_refl (np_ref_sbox_length _ _ _)). cbn [bind].
      rewrite (idx_ok []) by (rewrite Erc, mk_mat_length; lia). reflexivity. }
    rewrite E1. cbn [bind]. set (s1 := fold_left _ _ _) in *. rewrite L1. rewrite uadd_ok by lia. cbn [bind].
    rewrite (for_range_panic (rf / 2) (rf / 2) (rf / 2 + rp) (np_internal_round P) [] []); [reflexivity|lia|apply for_range_empty; lia|reflexivity].
  Qed.

  (** C29 *)
  Theorem np_permutation_reference dbg fuel rng t d rf rp P x : np_new dbg fuel rng t d rf rp = Ok P ->
    (N.of_nat rf + N.of_nat rp < usize_mod)%N ->
    (length x = t -> 1 <= t \/ rp = 0 -> np_permutation dbg P x = Ok (np_ref t d rf rp (np_abc P) (entry (np_m_e P))
       (np_int_matrix (fun i => fadd (nth i (np_mu P) f0) f1)) (np_rc P) x)) /\
    (length x <> t \/ (t = 0 /\ 1 <= rp) -> np_permutation dbg P x = Panic).
  Proof.
    intros H Hov. destruct (np_new_ok HF _ _ _ _ _ _ _ _ H Hov) as [HA HM]. split.
    - intros Hx Ht. exact (np_permutation_made dbg P rng t d rf rp x HM HA Hov Hx Ht).
    - destruct (Nat.eq_dec (length x) t) as [Hx|N]; intros HC.
      + destruct HC as [N|[-> Hp]]; [contradiction|]. destruct x; [|discriminate]. destruct HA as [_ [Hrf _]].
        eapply np_permutation_zero_panic; eassumption.
      + apply np_permutation_length_panic. destruct HM as [-> _]. exact N.
  Qed.

  Theorem np_profiles fuel rng t d rf rp : (N.of_nat rf + N.of_nat rp < usize_mod)%N ->
    np_new true fuel rng t d rf rp = np_new false fuel rng t d rf rp /\
    forall P x, np_new true fuel rng t d rf rp = Ok P -> np_permutation true P x = np_permutation false P x.
  Proof.
    intros Hov. assert (E : np_new true fuel rng t d rf rp = np_new false fuel rng t d rf rp) by (unfold np_new; rewrite !uadd_ok by exact Hov; reflexivity).
    split; [exact E|]. intros P x H. destruct (np_new_ok HF _ _ _ _ _ _ _ _ H Hov) as [HA (_ & _ & Eb & Ep & _)].
    unfold np_permutation. rewrite Eb, Ep, !uadd_ok by lia. reflexivity.
  Qed.

  (** ** bijectivity *)
  Definition addc (t : nat) (c x : list F) : list F := map (fun i => fadd (nth i x f0) (nth i c f0)) (seq 0 t).
  Lemma addc_lbij t c : lbij t (addc t c).
  Proof.
    apply (lbij_pointwise t f0 (fun i a => fadd a (nth i c f0)) (fun i a => fsub a (nth i c f0))). intros; split; ring.
  Qed.
  Definition isb t d (x : list F) : list F := map (fun i => if i =? 0 then fpow (nth 0 x f0) d else nth i x f0) (seq 0 t).
  Lemma isb_part t d x : isb t d x = part_sb t d (repeat f0 t) x.
  Proof.
    unfold isb, part_sb. apply map_seq_ext. intros i Hi. destruct (i =? 0); [|reflexivity]. f_equal. rewrite nth_repeat_same. ring.
  Qed.
  Lemma isb_lbij t d : d <> 0 -> Z.gcd (Z.of_nat d) (p - 1) = 1%Z -> lbij t (isb t d).
  Proof. intros Hd Hg. eapply lbij_ext; [apply (part_sb_lbij HP t d (repeat f0 t)); assumption|]. intros x Hx. symmetry. apply isb_part. Qed.
  Lemma isb_inj t d : 1 <= t -> d <> 0 -> linj t (isb t d) -> Z.gcd (Z.of_nat d) (p - 1) = 1%Z.
  Proof.
    intros Ht Hd H. apply (part_sb_inj HP t d (repeat f0 t) Ht Hd). intros x y Hx Hy E. rewrite <- !isb_part in E. apply H; assumption.
  Qed.

  Lemma fnat5 : p <> 5%Z -> exists i5 : F, fmul i5 (fnat 5) = f1.
  Proof.
    intros N. assert (H : fnat 5 <> (f0 : F)) by (apply (fnat_prime_neq HP 5); [exact prime5|exact N]).
    exists (finv (fnat 5)). apply (ff_inv _ HF). exact H.
  Qed.

  Definition sb_inv (t : nat) (i5 ga : F) (y : list F) : list F :=
    map (fun i => if Nat.even i then fst (pair_inv i5 ga (nth i y f0) (nth (S i) y f0))
                  else snd (pair_inv i5 ga (nth (i - 1) y f0) (nth i y f0))) (seq 0 t).
  Lemma pairs_compose t (f g : F -> F -> F * F) (x : list F) : t mod 2 = 0 -> length x = t ->
    (forall a b, g (fst (f a b)) (snd (f a b)) = (a, b)) ->
    let lay h (y : list F) := map (fun i => if Nat.even i then fst (h (nth i y f0) (nth (S i) y f0)) else snd (h (nth (i - 1) y f0) (nth i y f0) : F * F)) (seq 0 t) in
    lay g (lay f x) = x.
  Proof.
    intros Hev Hx H lay. unfold lay. etransitivity; [|symmetry; apply (list_as_map f0)]. rewrite Hx. apply map_seq_ext. intros i Hi.
    destruct (Nat.even i) eqn:Ei.
    - assert (O : i mod 2 = 0) by (apply Nat.even_spec in Ei; destruct Ei; lia). assert (Hs : S i < t) by lia.
      rewrite !nth_map_seq by lia. rewrite Nat.even_succ, <- Nat.negb_even, Ei. cbn [negb]. replace (S i - 1) with i by lia. rewrite H. reflexivity.
    - assert (O : i mod 2 = 1). { assert (Od : Nat.odd i = true) by (rewrite <- Nat.negb_even, Ei; reflexivity). apply Nat.odd_spec in Od. destruct Od. lia. }
      rewrite !nth_map_seq by lia. rewrite Ei. assert (Ej : Nat.even (i - 1) = true) by (apply Nat.even_spec; exists (i / 2); lia).
      rewrite Ej. replace (S (i - 1)) with i by lia. rewrite H. reflexivity.
  Qed.
  Lemma sb_lbij t ga : t mod 2 = 0 -> p <> 5%Z -> lbij t (np_ref_sbox t (f1, f1, ga)).
  Proof.
    intros Hev N. destruct (fnat5 N) as [i5 H5]. split; [intros; apply np_ref_sbox_length|].
    exists (sb_inv t i5 ga). intros x Hx. split; [unfold sb_inv; rewrite map_length, seq_length; reflexivity|]. split.
    - apply (pairs_compose t (pair_inv i5 ga) (np_pair f1 f1 ga) x Hev Hx). intros a b. apply (pair_inv_r HF). exact H5.
    - apply (pairs_compose t (np_pair f1 f1 ga) (pair_inv i5 ga) x Hev Hx). intros a b. apply (pair_inv_l HF). exact H5.
  Qed.
  Lemma sb_inj t ga : 2 <= t -> linj t (np_ref_sbox t (f1, f1, ga)) -> p <> 5%Z.
  Proof.
    intros Ht H E. pose proof (fnat_self HP 5 E) as H5. pose proof (pair_collision HF ga H5) as C.
    assert (Q : repeat f0 t = f1 :: repeat f0 (t - 1)).
    { apply H; [apply repeat_length|cbn; rewrite repeat_length; lia|]. unfold np_ref_sbox. apply map_seq_ext. intros i Hi.
      rewrite !nth_repeat_same. destruct i as [|[|i]].
      - cbn [Nat.even nth]. rewrite nth_repeat_same. rewrite C. reflexivity.
      - cbn [Nat.even nth Nat.sub]. rewrite nth_repeat_same. rewrite C. reflexivity.
      - cbn [nth]. replace (S (S i) - 1) with (S i) by lia. cbn [nth]. rewrite !nth_repeat_same. reflexivity. }
    destruct t as [|t]; [lia|]. cbn in Q. injection Q as Q _. symmetry in Q. exact (ff_one_neq_zero _ HF Q).
  Qed.

  Definition np_layers t d rf rp abc (ME MI : mat) (rc : list (list F)) : list (list F -> list F) :=
    [mat_apply t t ME] ++
    flat_map (fun r => [np_ref_sbox t abc; mat_apply t t ME; addc t (nth r rc [])]) (seq 0 (rf / 2)) ++
    flat_map (fun r => [isb t d; mat_apply t t MI; addc t (nth r rc [])]) (seq (rf / 2) rp) ++
    flat_map (fun r => [np_ref_sbox t abc; mat_apply t t ME; addc t (nth r rc [])]) (seq (rf / 2 + rp) (rf / 2)).
  Lemma np_layers_ref t d rf rp abc ME MI (rc : list (list F)) x :
    run_layers (np_layers t d rf rp abc ME MI rc) x = np_ref t d rf rp abc ME MI rc x.
  Proof. unfold np_layers. rewrite !run_layers_app, !run_layers_flat. reflexivity. Qed.

  Lemma np_ref_lbij t d rf rp ga ME MI (rc : list (list F)) : t mod 2 = 0 -> d <> 0 ->
    nonsingular t ME -> (rf / 2 = 0 \/ p <> 5%Z) -> (rp = 0 \/ (nonsingular t MI /\ Z.gcd (Z.of_nat d) (p - 1) = 1%Z)) ->
    lbij t (np_ref t d rf rp (f1, f1, ga) ME MI rc).
  Proof.
    intros Hev Hd HE H5 HI. apply (lbij_ext t (run_layers (np_layers t d rf rp (f1, f1, ga) ME MI rc))); [|intros x _; apply np_layers_ref].
    apply run_layers_lbij. apply Forall_forall. intros f Hf. unfold np_layers in Hf.
    repeat (apply in_app_or in Hf; destruct Hf as [Hf|Hf]);
      try (apply in_flat_map in Hf; destruct Hf as [r [Hr Hf]]; apply in_seq in Hr);
      repeat (destruct Hf as [<-|Hf]); try contradiction; try (apply (lbij_mat HF); exact HE); try apply addc_lbij.
    - apply sb_lbij; [exact Hev|]. destruct H5; [lia|assumption].
    - apply isb_lbij; [exact Hd|]. destruct HI as [|HI]; [lia|apply HI].
    - apply (lbij_mat HF). destruct HI as [|HI]; [lia|apply HI].
    - apply sb_lbij; [exact Hev|]. destruct H5; [lia|assumption].
  Qed.
  Lemma np_ref_inj t d rf rp ga ME MI (rc : list (list F)) : 2 <= t -> t mod 2 = 0 -> d <> 0 ->
    linj t (np_ref t d rf rp (f1, f1, ga) ME MI rc) ->
    nonsingular t ME /\ (rf / 2 = 0 \/ p <> 5%Z) /\ (rp = 0 \/ (nonsingular t MI /\ Z.gcd (Z.of_nat d) (p - 1) = 1%Z)).
  Proof.
    intros Ht Hev Hd Hi. assert (Ht1 : 1 <= t) by lia.
    assert (Hall : Forall (lbij t) (np_layers t d rf rp (f1, f1, ga) ME MI rc)).
    { apply peel.
      - assert (Hm : forall A, linj t (mat_apply t t A) -> lbij t (@mat_apply F Fo t t A)).
        { intros A HA. apply (lbij_mat HF). apply (linj_mat HF). exact HA. }
        apply Forall_forall. intros f Hf. unfold np_layers in Hf.
        repeat (apply in_app_or in Hf; destruct Hf as [Hf|Hf]);
          try (apply in_flat_map in Hf; destruct Hf as [r [_ Hf]]);
          repeat (destruct Hf as [<-|Hf]); try contradiction; try (apply Hm); try (intros _; apply addc_lbij).
        + intros H. apply sb_lbij; [exact Hev|]. apply (sb_inj t ga Ht H).
        + intros H. apply isb_lbij; [exact Hd|]. apply (isb_inj t d Ht1 Hd H).
        + intros H. apply sb_lbij; [exact Hev|]. apply (sb_inj t ga Ht H).
      - intros x y Hx Hy E. rewrite !np_layers_ref in E. apply Hi; assumption. }
    rewrite Forall_forall in Hall. unfold np_layers in Hall. repeat split.
    - apply (linj_mat HF). apply lbij_inj. apply Hall. left. reflexivity.
    - destruct (Nat.eq_dec (rf / 2) 0) as [|N]; [left; assumption|right]. apply (sb_inj t ga Ht). apply lbij_inj. apply Hall.
      apply in_or_app; right. apply in_or_app; left. apply in_flat_map. exists 0. split; [apply in_seq; lia|left; reflexivity].
    - destruct (Nat.eq_dec rp 0) as [|N]; [left; assumption|right]. split.
      + apply (linj_mat HF). apply lbij_inj. apply Hall.
        apply in_or_app; right. apply in_or_app; right. apply in_or_app; left. apply in_flat_map. exists (rf / 2). split; [apply in_seq; lia|right; left; reflexivity].
      + apply (isb_inj t d Ht1 Hd). apply lbij_inj. apply Hall.
        apply in_or_app; right. apply in_or_app; right. apply in_or_app; left. apply in_flat_map. exists (rf / 2). split; [apply in_seq; lia|left; reflexivity].
  Qed.

  (** C30: exact condition *)
  Theorem np_bijective_iff dbg fuel rng t d rf rp P : np_new dbg fuel rng t d rf rp = Ok P ->
    (N.of_nat rf + N.of_nat rp < usize_mod)%N -> 2 <= t ->
    (bijective_on t (np_permutation dbg P) <->
     invertible t (entry (np_m_e P)) /\ (rf = 0 \/ p <> 5%Z) /\
     (rp = 0 \/ (invertible t (np_int_matrix (fun i => fadd (nth i (np_mu P) f0) f1)) /\ Z.gcd (Z.of_nat d) (p - 1) = 1%Z))).
  Proof.
    intros H Hov Ht. destruct (np_new_ok HF _ _ _ _ _ _ _ _ H Hov) as [HA HM].
    pose proof HM as (_ & _ & _ & _ & _ & _ & _ & _ & _ & _ & [ka Ea] & _). pose proof HA as [Hs [Hrf Hev]].
    assert (Hd0 : d <> 0) by (unfold sbox_degree in Hs; simpl in Hs; intros ->; intuition discriminate).
    assert (Href : forall x, length x = t -> np_permutation dbg P x = Ok (np_ref t d rf rp (f1, f1, rng ka) (entry (np_m_e P)) (np_int_matrix (np_mu_of P)) (np_rc P) x)).
    { intros x Hx. rewrite <- Ea. apply (np_permutation_made dbg P rng); (assumption || lia). }
    split.
    - intros HB. pose proof (bijective_inj t _ _ HB Href) as Hi.
      destruct (np_ref_inj t d rf rp (rng ka) _ _ _ Ht Hev Hd0 Hi) as [A [B C]]. split; [apply (nonsingular_invertible HF); exact A|]. split.
      + destruct B; [left; lia|right; assumption].
      + destruct C as [|[C D]]; [left; assumption|right; split; [apply (nonsingular_invertible HF); exact C|exact D]].
    - intros [A [B C]]. eapply lbij_bijective; [|exact Href]. apply np_ref_lbij; try assumption.
      + apply (invertible_nonsingular HF). exact A.
      + destruct B as [->|]; [left; reflexivity|right; assumption].
      + destruct C as [|[C D]]; [left; assumption|right; split; [apply (invertible_nonsingular HF); exact C|exact D]].
  Qed.

  (** the fixed external matrices *)
  Lemma sum_kernel n (A : mat) (v : nat -> F) : (forall i, i < n -> sumn n (fun j => fmul (A i j) (v j)) = f0) ->
    (exists j, j < n /\ v j = f1) -> ~ nonsingular n A.
  Proof. intros H [j [Hj E]] HN. apply (ff_one_neq_zero _ HF). rewrite <- E. apply (HN v H j Hj). Qed.

  Lemma np_ext4_iff n rng : invertible 4 (np_ext_entry 4 n rng) <-> p <> 3%Z.
  Proof.
    split.
    - intros HI E. apply (invertible_nonsingular HF) in HI. revert HI.
      pose proof (fnat_self HP 3 E) as H3. unfold fnat in H3. cbn [sumn] in H3.
      apply (sum_kernel 4 _ (fun j => match j with 0 | 2 => f1 | _ => f0 end)); [|exists 0; split; [lia|reflexivity]].
      intros i Hi. rewrite row4_ok by exact Hi. do 4 (destruct i as [|i]; [cbn [row4]; (ring || (etransitivity; [|exact H3]; ring))|]). lia.
    - intros N. apply (nonsingular_invertible HF). intros x H.
      assert (H3 : fnat 3 <> (f0 : F)) by (apply (fnat3_neq HP); exact N).
      pose proof (H 0 ltac:(lia)) as E0. pose proof (H 1 ltac:(lia)) as E1. pose proof (H 2 ltac:(lia)) as E2. pose proof (H 3 ltac:(lia)) as E3.
      rewrite row4_ok in E0, E1, E2, E3 by lia. clear H. cbn [row4] in *.
      assert (Z : forall k a b, fmul (fnat 3) (x k) = fsub (fadd a a) b -> a = f0 -> b = f0 -> x k = f0).
      { intros k a b E -> ->. match type of E with ?l = ?r => assert (E2' : l = f0) by (etransitivity; [exact E|ring]) end. destruct (fmul_integral HF _ _ E2') as [C|C]; [contradiction|exact C]. }
      intros j Hj. destruct j as [|[|[|[|j]]]]; [| | | |lia].
      + apply (Z 0 _ _) with (2 := E0) (3 := E2). unfold fnat; cbn [sumn]; ring.
      + apply (Z 1 _ _) with (2 := E3) (3 := E1). unfold fnat; cbn [sumn]; ring.
      + apply (Z 2 _ _) with (2 := E2) (3 := E0). unfold fnat; cbn [sumn]; ring.
      + apply (Z 3 _ _) with (2 := E1) (3 := E3). unfold fnat; cbn [sumn]; ring.
  Qed.

  Lemma np_ext8_iff n rng : invertible 8 (np_ext_entry 8 n rng) <-> p <> 5%Z /\ p <> 7%Z.
  Proof.
    split.
    - intros HI. apply (invertible_nonsingular HF) in HI. split; intros E; revert HI.
      + pose proof (fnat_self HP 5 E) as H5. unfold fnat in H5. cbn [sumn] in H5.
        assert (H5' : fadd (fadd (fadd (fadd f1 f1) f1) f1) f1 = (f0 : F)) by (etransitivity; [|exact H5]; ring).
        apply (sum_kernel 8 _ (fun j => match j with 0 => f1 | 2 => fadd (fadd f1 f1) f1 | 4 => fadd (fadd f1 f1) (fadd f1 f1) | 6 => fadd f1 f1 | _ => f0 end));
          [|exists 0; split; [lia|reflexivity]].
        intros i Hi. rewrite row8_ok by exact Hi. unfold row8, lin4.
        do 8 (destruct i as [|i]; [first [ring|
          transitivity (fmul (fadd (fadd f1 f1) f1) (fadd (fadd (fadd (fadd f1 f1) f1) f1) (f1 : F))); [ring|rewrite H5'; ring] |
          transitivity (fmul (fadd f1 f1) (fadd (fadd (fadd (fadd f1 f1) f1) f1) (f1 : F))); [ring|rewrite H5'; ring] |
          transitivity (fmul (fadd (fadd f1 f1) (fadd f1 f1)) (fadd (fadd (fadd (fadd f1 f1) f1) f1) (f1 : F))); [ring|rewrite H5'; ring] |
          transitivity (fmul (fadd f1 f0) (fadd (fadd (fadd (fadd f1 f1) f1) f1) (f1 : F))); [ring|rewrite H5'; ring] ]|]). lia.
      + pose proof (fnat_self HP 7 E) as H7. unfold fnat in H7. cbn [sumn] in H7.
        apply (sum_kernel 8 _ (fun j => match j with 0 | 2 | 4 | 6 => f1 | _ => f0 end)); [|exists 0; split; [lia|reflexivity]].
        intros i Hi. rewrite row8_ok by exact Hi. unfold row8, lin4.
        do 8 (destruct i as [|i]; [(ring || (etransitivity; [|exact H7]; ring))|]). lia.
    - intros [N5 N7]. apply (nonsingular_invertible HF). intros x H.
      assert (P5 : fnat 5 <> (f0 : F)) by (apply (fnat_prime_neq HP 5); [exact prime5|exact N5]).
      assert (P7 : fnat 7 <> (f0 : F)) by (apply (fnat_prime_neq HP 7); [exact prime7|exact N7]).
      assert (H35 : fmul (fnat 5) (fnat 7) <> (f0 : F)) by (apply (fmul_neq_0 HF); assumption).
      pose proof (H 0 ltac:(lia)) as E0. pose proof (H 1 ltac:(lia)) as E1. pose proof (H 2 ltac:(lia)) as E2. pose proof (H 3 ltac:(lia)) as E3.
      pose proof (H 4 ltac:(lia)) as E4. pose proof (H 5 ltac:(lia)) as E5. pose proof (H 6 ltac:(lia)) as E6. pose proof (H 7 ltac:(lia)) as E7.
      rewrite row8_ok in E0, E1, E2, E3, E4, E5, E6, E7 by lia. clear H. unfold row8, lin4 in *.
      assert (Z : forall k a b c d, fmul (fmul (fnat 5) (fnat 7)) (x k) = fsub (fsub (fadd (fmul (fnat 17) a) (fmul (fnat 3) b)) (fmul (fnat 11) c)) (fmul (fnat 4) d) ->
        a = f0 -> b = f0 -> c = f0 -> d = f0 -> x k = f0).
      { intros k a b c d E -> -> -> ->. match type of E with ?l = ?r => assert (E2' : l = f0) by (etransitivity; [exact E|ring]) end. destruct (fmul_integral HF _ _ E2') as [C|C]; [contradiction|exact C]. }
      intros j Hj. destruct j as [|[|[|[|[|[|[|[|j]]]]]]]]; [| | | | | | | |lia].
      + apply (Z 0) with (2 := E0) (3 := E4) (4 := E2) (5 := E6). unfold fnat; cbn [sumn]; ring.
      + apply (Z 1) with (2 := E3) (3 := E7) (4 := E1) (5 := E5). unfold fnat; cbn [sumn]; ring.
      + apply (Z 2) with (2 := E2) (3 := E6) (4 := E4) (5 := E0). unfold fnat; cbn [sumn]; ring.
      + apply (Z 3) with (2 := E5) (3 := E1) (4 := E3) (5 := E7). unfold fnat; cbn [sumn]; ring.
      + apply (Z 4) with (2 := E4) (3 := E0) (4 := E6) (5 := E2). unfold fnat; cbn [sumn]; ring.
      + apply (Z 5) with (2 := E7) (3 := E3) (4 := E5) (5 := E1). unfold fnat; cbn [sumn]; ring.
      + apply (Z 6) with (2 := E6) (3 := E2) (4 := E0) (5 := E4). unfold fnat; cbn [sumn]; ring.
      + apply (Z 7) with (2 := E1) (3 := E5) (4 := E7) (5 := E3). unfold fnat; cbn [sumn]; ring.
  Qed.
  Lemma invertible_ext t (A B : mat) : mat_eq t A B -> invertible t A -> @invertible F Fo t B.
  Proof.
    intros E H. apply (nonsingular_invertible HF). apply (nonsingular_ext t A B E). apply (invertible_nonsingular HF). exact H.
  Qed.
  Theorem np_fixed_matrices dbg fuel rng t d rf rp P : np_new dbg fuel rng t d rf rp = Ok P ->
    (N.of_nat rf + N.of_nat rp < usize_mod)%N ->
    (t = 4 -> (invertible t (entry (np_m_e P)) <-> p <> 3%Z)) /\
    (t = 8 -> (invertible t (entry (np_m_e P)) <-> p <> 5%Z /\ p <> 7%Z)).
  Proof.
    intros H Hov. destruct (np_new_ok HF _ _ _ _ _ _ _ _ H Hov) as [_ (_ & _ & _ & _ & _ & _ & _ & Em & _)].
    assert (Q : forall t, invertible t (entry (mk_mat t t (np_ext_entry t (rf + rp) rng))) <-> invertible t (np_ext_entry t (rf + rp) rng)).
    { intros t'. split; apply invertible_ext; intros i j Hi Hj; [|symmetry]; apply mk_mat_entry; assumption. }
    rewrite Em. split; intros ->; rewrite Q; [apply np_ext4_iff|apply np_ext8_iff].
  Qed.

  (** refutation: constant draws *)
  Theorem np_singular_mu dbg fuel t d rf rp : np_args t d rf -> 2 <= t -> 1 <= rp ->
    (N.of_nat rf + N.of_nat rp < usize_mod)%N -> 1 <= fuel ->
    exists P, np_new dbg fuel (fun _ => f1) t d rf rp = Ok P /\ ~ bijective_on t (np_permutation dbg P).
  Proof.
    intros HA Ht Hp Hov Hf.
    destruct (np_new_returns HF dbg fuel (fun _ => f1) t d rf rp HA Hov) as [P HPn].
    { intros q. exists 0. split; [lia|apply (ff_one_neq_zero _ HF)]. }
    exists P. split; [exact HPn|]. intros HB. apply (np_bijective_iff _ _ _ _ _ _ _ _ HPn Hov Ht) in HB.
    destruct HB as [_ [_ [|[HI _]]]]; [lia|]. apply (invertible_nonsingular HF) in HI.
    destruct (np_new_ok HF _ _ _ _ _ _ _ _ HPn Hov) as [_ (_ & _ & _ & _ & _ & _ & _ & _ & _ & Hm & _)].
    revert HI. apply (sum_kernel t _ (fun j => if j =? 0 then f1 else if j =? 1 then fsub f0 f1 else f0)); [|exists 0; split; [lia|reflexivity]].
    intros i Hi. rewrite (sumn_ext t _ (fun j => if j =? 0 then f1 else if j =? 1 then fsub f0 f1 else f0)).
    - destruct t as [|[|t]]; [lia|lia|]. rewrite (sumn_first HF), (sumn_first HF). cbn [Nat.eqb]. rewrite (sumn_zero HF); [ring|]. intros; reflexivity.
    - intros j Hj. unfold np_int_matrix. destruct (Hm i Hi) as [k [_ [_ ->]]]. destruct (i =? j); ring.
  Qed.
  Theorem np_no_returns_zero dbg fuel t d rf rp : np_args t d rf -> 1 <= t -> (N.of_nat rf + N.of_nat rp < usize_mod)%N ->
    np_new dbg fuel (fun _ => (f0 : F)) t d rf rp = Fuel.
  Proof.
    intros HA Ht Hov. destruct (np_new_good dbg fuel (fun _ => (f0 : F)) t d rf rp HA Hov) as [E|[P E]]; [exact E|].
    destruct (np_new_ok HF _ _ _ _ _ _ _ _ E Hov) as [_ (_ & _ & _ & _ & _ & _ & _ & _ & _ & Hm & _)].
    destruct (Hm 0 Ht) as [k [_ [N _]]]. contradiction N. reflexivity.
  Qed.
End NpB.
