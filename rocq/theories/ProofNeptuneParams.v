(** * NeptuneParams::new and the sampling functions (C32, C45) *)
From Coq Require Import ZifyNat Zify.
From Verif Require Import Base Field Spec LinAlg LoopLemmas MatLoops ModelPoseidon2 ModelRandom ModelNeptune SpecNeptune SpecPoseidon2 ProofPoseidon2 ProofGmimc.
Ltac Zify.zify_post_hook ::= Z.to_euclidean_division_equations.

Section NpParams.
  Context {F : Type} {Fo : FOps F}.

  Lemma random_vec_ok n (rng : nat -> F) pos : random_vec n rng pos = (map (fun i => rng (pos + i)) (seq 0 n), pos + n).
  Proof.
    revert pos. induction n as [|n IH]; intros pos; [cbn; f_equal; lia|].
    cbn [random_vec random_scalar seq map]. rewrite IH. f_equal; [|lia]. f_equal; [f_equal; lia|].
    rewrite <- seq_shift, map_map. apply map_ext. intros i. f_equal. lia.
  Qed.
  Lemma random_rows_ok n m (rng : nat -> F) pos :
    random_rows n m rng pos = (mk_mat n m (fun i j => rng (pos + i * m + j)), pos + n * m).
  Proof.
    revert pos. induction n as [|n IH]; intros pos; [cbn; f_equal; lia|].
    cbn [random_rows]. rewrite random_vec_ok, IH. f_equal; [|nia]. unfold mk_mat. cbn [seq map]. f_equal.
    - apply map_ext. intros i. f_equal. lia.
    - rewrite <- seq_shift, map_map. apply map_ext. intros i. apply map_ext. intros j. f_equal. nia.
  Qed.

  (** random_scalar_without_0 returns the first non-zero draw, and nothing else *)
  Lemma without_0_ok (HF : is_field Fo) fuel rng pos a pos' :
    random_scalar_without_0 fuel rng pos = Ok (a, pos') <->
    exists k, k < fuel /\ (forall i, i < k -> rng (pos + i) = (f0 : F)) /\ rng (pos + k) <> f0 /\ a = rng (pos + k) /\ pos' = pos + k + 1.
  Proof.
    assert (Z : forall x : F, fis_zero x = true <-> x = f0) by (intros x; apply (ff_eqb _ HF)).
    revert pos. induction fuel as [|fuel IH]; intros pos; cbn [random_scalar_without_0 random_scalar].
    - split; [discriminate|]. intros [k [Hk _]]. lia.
    - destruct (fis_zero (rng pos)) eqn:E; cbn [negb].
      + apply Z in E. rewrite IH. split; intros [k [Hk [H1 [H2 [H3 H4]]]]].
        * exists (S k). repeat split.
          -- lia.
          -- intros i Hi. destruct i as [|i]; [rewrite Nat.add_0_r; exact E|]. rewrite <- Nat.add_succ_comm. apply H1. lia.
          -- rewrite <- Nat.add_succ_comm. exact H2.
          -- rewrite <- Nat.add_succ_comm. exact H3.
          -- lia.
        * destruct k as [|k]; [rewrite Nat.add_0_r in H2; contradiction|]. exists k. rewrite <- Nat.add_succ_comm in H2, H3.
          repeat split; try assumption; try lia. intros i Hi. rewrite Nat.add_succ_comm. apply H1. lia.
      + assert (N : rng pos <> f0) by (intros C; apply Z in C; congruence). split.
        * intros H. injection H as <- <-. exists 0. rewrite Nat.add_0_r. repeat split; try assumption; try lia.
        * intros [k [Hk [H1 [H2 [-> ->]]]]]. destruct k as [|k].
          -- rewrite Nat.add_0_r. f_equal. f_equal. lia.
          -- exfalso. apply N. rewrite <- (Nat.add_0_r pos). apply H1. lia.
  Qed.
  Lemma without_0_not_panic fuel (rng : nat -> F) pos : random_scalar_without_0 fuel rng pos <> Panic.
  Proof.
    revert pos. induction fuel as [|fuel IH]; intros pos; cbn; [discriminate|].
    destruct (fis_zero _); cbn [negb]; [apply IH|discriminate].
  Qed.
  Lemma without_0_fuel (HF : is_field Fo) fuel (rng : nat -> F) pos :
    random_scalar_without_0 fuel rng pos = Fuel <-> forall i, i < fuel -> rng (pos + i) = (f0 : F).
  Proof.
    assert (Z : forall x : F, fis_zero x = true <-> x = f0) by (intros x; apply (ff_eqb _ HF)).
    revert pos. induction fuel as [|fuel IH]; intros pos; cbn [random_scalar_without_0 random_scalar].
    - split; [intros _ i Hi; lia|reflexivity].
    - destruct (fis_zero (rng pos)) eqn:E; cbn [negb].
      + apply Z in E. rewrite IH. split; intros H i Hi.
        * destruct i as [|i]; [rewrite Nat.add_0_r; exact E|]. rewrite <- Nat.add_succ_comm. apply H. lia.
        * rewrite Nat.add_succ_comm. apply H. lia.
      + split; [discriminate|]. intros H. exfalso. specialize (H 0 ltac:(lia)). rewrite Nat.add_0_r in H. apply Z in H. congruence.
  Qed.

  Lemma mu_ok (HF : is_field Fo) fuel t (rng : nat -> F) pos l pos' : np_instantiate_mu fuel t rng pos = Ok (l, pos') ->
    length l = t /\ forall i, i < t -> exists k, pos <= k /\ rng k <> f0 /\ nth i l f0 = fsub (rng k) f1.
  Proof.
    revert pos l. induction t as [|t IH]; intros pos l H; cbn [np_instantiate_mu] in H.
    - injection H as <- <-. split; [reflexivity|]. intros i Hi; lia.
    - inv_ok H. destruct a as [a p1]. inv_ok H. destruct a0 as [l' p2]. injection H as <- <-.
      apply (without_0_ok HF) in E. destruct E as [k [Hk [_ [Nz [Ea Ep]]]]].
      apply IH in E0. destruct E0 as [L HL]. split; [cbn; congruence|]. intros [|i] Hi.
      + exists (pos + k). subst a. repeat split; [lia|exact Nz].
      + destruct (HL i ltac:(lia)) as [k' [A [B C]]]. exists k'. repeat split; [lia|exact B|exact C].
  Qed.
  Lemma mu_not_panic fuel t (rng : nat -> F) pos : np_instantiate_mu fuel t rng pos <> Panic.
  Proof.
    revert pos. induction t as [|t IH]; intros pos; cbn [np_instantiate_mu]; [discriminate|].
    destruct (random_scalar_without_0 fuel rng pos) as [[a p1]| |] eqn:E; cbn [bind]; [|exfalso; exact (without_0_not_panic _ _ _ E)|discriminate].
    destruct (np_instantiate_mu fuel t rng p1) as [[l p2]| |] eqn:E'; cbn [bind]; [discriminate|exfalso; exact (IH _ E')|discriminate].
  Qed.
  Lemma mu_returns (HF : is_field Fo) fuel t (rng : nat -> F) pos :
    (forall q, exists k, k < fuel /\ rng (q + k) <> f0) -> exists r, np_instantiate_mu fuel t rng pos = Ok r.
  Proof.
    intros Hr. revert pos. induction t as [|t IH]; intros pos; cbn [np_instantiate_mu]; [eexists; reflexivity|].
    destruct (random_scalar_without_0 fuel rng pos) as [[a p1]| |] eqn:E; cbn [bind]; [|exfalso; exact (without_0_not_panic _ _ _ E)|].
    - destruct (IH p1) as [[l p2] ->]. cbn [bind]. eexists. reflexivity.
    - exfalso. rewrite (without_0_fuel HF) in E. destruct (Hr pos) as [k [Hk N]]. apply N. apply E. exact Hk.
  Qed.

  Lemma circ_mat_2 (a b : F) : np_circ_mat [a; b] = Ok (mk_mat 2 2 (circ [a; b])).
  Proof. reflexivity. Qed.
  Lemma circ_mat_4 (a b c d : F) : np_circ_mat [a; b; c; d] = Ok (mk_mat 4 4 (circ [a; b; c; d])).
  Proof. reflexivity. Qed.

  Lemma blocks_ok t rounds (rng : nat -> F) : exists pos,
    np_blocks t rng (rounds * t) = Ok (mk_mat (t / 2) (t / 2) (np_even_block t rounds rng), mk_mat (t / 2) (t / 2) (np_odd_block t rounds rng), pos).
  Proof.
    unfold np_blocks, np_even_block, np_odd_block. destruct (Nat.eqb_spec t 4) as [->|N4].
    - rewrite !circ_mat_2. cbn [bind]. eexists. reflexivity.
    - destruct (Nat.eqb_spec t 8) as [->|N8].
      + rewrite !circ_mat_4. cbn [bind]. eexists. reflexivity.
      + rewrite random_rows_ok. rewrite random_rows_ok. eexists. reflexivity.
  Qed.

  (** writing a block to the positions of parity e *)
  Lemma grid_write (pr : nat -> nat) e n (M f : nat -> nat -> F) :
    (forall a, pr a = 2 * a + e) -> e < 2 ->
    for_range 0 n (fun row mat => for_range 0 n (fun col mat =>
      v <- idx2 (mk_mat n n M) row col ;; upd2 mat (pr row) (pr col) v) mat) (mk_mat (2 * n) (2 * n) f) =
    Ok (mk_mat (2 * n) (2 * n) (fun i j => if (i mod 2 =? e) && (j mod 2 =? e) then M (i / 2) (j / 2) else f i j)).
  Proof.
    intros Hpr He.
    destruct (for_range_inv (fun r s => s = mk_mat (2 * n) (2 * n) (fun i j => if (i mod 2 =? e) && (j mod 2 =? e) && (i / 2 <? r) then M (i / 2) (j / 2) else f i j))
      0 n (fun row mat => for_range 0 n (fun col mat => v <- idx2 (mk_mat n n M) row col ;; upd2 mat (pr row) (pr col) v) mat) (mk_mat (2 * n) (2 * n) f)) as [s [E ->]].
    - lia.
    - apply mk_mat_ext. intros i j Hi Hj. rewrite andb_false_r. reflexivity.
    - intros row s Hrow ->. set (g := fun i j => if (i mod 2 =? e) && (j mod 2 =? e) && (i / 2 <? row) then M (i / 2) (j / 2) else f i j).
      destruct (for_range_inv (fun c s => s = mk_mat (2 * n) (2 * n) (fun i j => if (i =? 2 * row + e) && (j mod 2 =? e) && (j / 2 <? c) then M row (j / 2) else g i j))
        0 n (fun col mat => v <- idx2 (mk_mat n n M) row col ;; upd2 mat (pr row) (pr col) v) (mk_mat (2 * n) (2 * n) g)) as [s [E ->]].
      + lia.
      + apply mk_mat_ext. intros i j Hi Hj. rewrite andb_false_r. reflexivity.
      + intros col s Hcol ->. rewrite idx2_mk by lia. cbn [bind]. rewrite !Hpr, upd2_mk by lia. eexists. split; [reflexivity|].
        apply mk_mat_ext. intros i j Hi Hj. unfold fupd.
        destruct (Nat.eqb_spec i (2 * row + e)) as [->|]; cbn [andb]; [|reflexivity].
        destruct (Nat.eqb_spec j (2 * col + e)) as [->|Nj].
        * replace ((2 * col + e) mod 2) with e by lia. replace ((2 * col + e) / 2) with col by lia. rewrite Nat.eqb_refl.
          destruct (Nat.ltb_spec col (S col)); [reflexivity|lia].
        * destruct (Nat.eqb_spec (j mod 2) e) as [Ej|]; [|reflexivity]. cbn [andb].
          destruct (Nat.ltb_spec (j / 2) col), (Nat.ltb_spec (j / 2) (S col)); try reflexivity; exfalso; clear - Nj Ej H H0; lia.
      + eexists. split; [exact E|]. apply mk_mat_ext. intros i j Hi Hj. unfold g.
        destruct (Nat.eqb_spec i (2 * row + e)) as [->|Ni]; cbn [andb].
        * replace ((2 * row + e) mod 2) with e by lia. replace ((2 * row + e) / 2) with row by lia. rewrite Nat.eqb_refl. cbn [andb].
          destruct (Nat.ltb_spec row (S row)); [|lia]. destruct (Nat.ltb_spec row row); [lia|].
          destruct (Nat.ltb_spec (j / 2) n) as [L|L]; [|clear - Hj L; lia]. rewrite !andb_true_r, andb_false_r. reflexivity.
        * destruct (Nat.eqb_spec (i mod 2) e) as [Ei|]; [|reflexivity]. cbn [andb]. f_equal. f_equal.
          destruct (Nat.ltb_spec (i / 2) row), (Nat.ltb_spec (i / 2) (S row)); try reflexivity; exfalso; clear - Ni Ei H H0; lia.
    - rewrite E. f_equal. apply mk_mat_ext. intros i j Hi Hj.
      destruct (Nat.ltb_spec (i / 2) n) as [L|L]; [|clear - Hi L; lia]. rewrite andb_true_r. reflexivity.
  Qed.

  Lemma external_matrix_ok t rounds (rng : nat -> F) : t mod 2 = 0 -> exists pos,
    np_instantiate_external_matrix t rng (rounds * t) = Ok (mk_mat t t (np_ext_entry t rounds rng), pos).
  Proof.
    intros He. destruct (blocks_ok t rounds rng) as [pos E]. exists pos. unfold np_instantiate_external_matrix.
    rewrite E. cbn [bind]. rewrite zero_mat. assert (T : t = 2 * (t / 2)) by lia. set (n := t / 2) in *.
    rewrite T at 1 2.
    rewrite (grid_write (fun a => 2 * a) 0 n (np_even_block t rounds rng) (fun _ _ => f0)) by (intros; lia). cbn [bind].
    rewrite (grid_write (fun a => 2 * a + 1) 1 n (np_odd_block t rounds rng) _) by (intros; lia). cbn [bind].
    rewrite <- T. reflexivity.
  Qed.

  (** everything the constructor guarantees *)
  Definition np_made (rng : nat -> F) (t d rf rp : nat) (P : NeptuneParams F) : Prop :=
    np_t P = t /\ np_d P = d /\ np_rounds_f_beginning P = rf / 2 /\ np_rounds_p P = rp /\
    np_rounds_f_end P = rf / 2 /\ np_rounds P = rf + rp /\
    np_rc P = mk_mat (rf + rp) t (fun i j => rng (i * t + j)) /\
    np_m_e P = mk_mat t t (np_ext_entry t (rf + rp) rng) /\
    length (np_mu P) = t /\
    (forall i, i < t -> exists k, (rf + rp) * t <= k /\ rng k <> f0 /\ nth i (np_mu P) f0 = fsub (rng k) f1) /\
    (exists k, np_abc P = (f1, f1, rng k)) /\
    np_a_ P = (fmul f1 f1, fadd (fadd f1 f1) f1, fadd (fadd f1 f1) (fadd f1 f1)).

  Definition np_args (t d rf : nat) : Prop := sbox_degree d /\ rf mod 2 = 0 /\ t mod 2 = 0.

  Lemma np_new_bad dbg fuel rng t d rf rp : ~ np_args t d rf -> np_new dbg fuel rng t d rf rp = Panic.
  Proof.
    intros HN. unfold np_new. destruct ((d =? 3) || (d =? 5) || (d =? 7)) eqn:Ed; [|reflexivity]. cbn [assert bind].
    destruct (Nat.eqb_spec (rf mod 2) 0) as [E1|]; [|reflexivity]. cbn [assert bind].
    destruct (Nat.eqb_spec (t mod 2) 0) as [E2|]; [|reflexivity]. exfalso. apply HN. split; [apply degree_bool; exact Ed|]. split; assumption.
  Qed.

  Lemma ext_pos t rounds (rng : nat -> F) m pos : t mod 2 = 0 -> np_instantiate_external_matrix t rng (rounds * t) = Ok (m, pos) -> rounds * t <= pos.
  Proof.
    intros He H. unfold np_instantiate_external_matrix in H. inv_ok H. destruct a as [[m1 m2] p].
    assert (L : rounds * t <= p).
    { unfold np_blocks in E. destruct (t =? 4); [|destruct (t =? 8)].
      - rewrite !circ_mat_2 in E. cbn [bind] in E. injection E as _ _ <-. lia.
      - rewrite !circ_mat_4 in E. cbn [bind] in E. injection E as _ _ <-. lia.
      - rewrite random_rows_ok in E. rewrite random_rows_ok in E. injection E as _ _ <-. lia. }
    inv_ok H. inv_ok H. injection H as _ <-. exact L.
  Qed.

  Lemma np_new_ok (HF : is_field Fo) dbg fuel rng t d rf rp P : np_new dbg fuel rng t d rf rp = Ok P ->
    (N.of_nat rf + N.of_nat rp < usize_mod)%N -> np_args t d rf /\ np_made rng t d rf rp P.
  Proof.
    intros H Hov. unfold np_new in H. inv_ok H. destruct a. apply assert_ok in E. apply degree_bool in E.
    inv_ok H. destruct a. apply assert_ok in E0. apply Nat.eqb_eq in E0.
    inv_ok H. destruct a. apply assert_ok in E1. apply Nat.eqb_eq in E1.
    rewrite uadd_ok in H by exact Hov. cbn [bind] in H. unfold np_instantiate_rc in H. rewrite random_rows_ok in H.
    rewrite Nat.add_0_l in H. destruct (external_matrix_ok t (rf + rp) rng E1) as [p1 E2].
    pose proof (ext_pos _ _ _ _ _ E1 E2) as Lp. rewrite E2 in H. cbn [bind] in H.
    inv_ok H. destruct a as [mu p2]. cbn [np_instantiate_abc random_scalar] in H. injection H as <-.
    split; [split; [exact E|split; assumption]|].
    apply (mu_ok HF) in E3. destruct E3 as [L HL].
    unfold np_made. cbn. repeat (split; [reflexivity|]). split; [exact L|]. split.
    - intros i Hi. destruct (HL i Hi) as [k [A B]]. exists k. split; [lia|exact B].
    - split; [eexists; reflexivity|reflexivity].
  Qed.

  Lemma np_new_good dbg fuel rng t d rf rp : np_args t d rf -> (N.of_nat rf + N.of_nat rp < usize_mod)%N ->
    np_new dbg fuel rng t d rf rp = Fuel \/ exists P, np_new dbg fuel rng t d rf rp = Ok P.
  Proof.
    intros [Hd [Hr Ht]] Hov. unfold np_new. rewrite (proj2 (degree_bool d) Hd), Hr, Ht. cbn [Nat.eqb assert bind].
    rewrite uadd_ok by exact Hov. cbn [bind]. unfold np_instantiate_rc. rewrite random_rows_ok. rewrite Nat.add_0_l.
    destruct (external_matrix_ok t (rf + rp) rng Ht) as [p1 E2]. rewrite E2. cbn [bind].
    destruct (np_instantiate_mu fuel t rng p1) as [[mu p2]| |] eqn:E; cbn [bind]; [right; eexists; reflexivity|exfalso; exact (mu_not_panic _ _ _ _ E)|left; reflexivity].
  Qed.
  Lemma np_new_returns (HF : is_field Fo) dbg fuel rng t d rf rp : np_args t d rf -> (N.of_nat rf + N.of_nat rp < usize_mod)%N ->
    (forall q, exists k, k < fuel /\ rng (q + k) <> f0) -> exists P, np_new dbg fuel rng t d rf rp = Ok P.
  Proof.
    intros [Hd [Hr Ht]] Hov HR. unfold np_new. rewrite (proj2 (degree_bool d) Hd), Hr, Ht. cbn [Nat.eqb assert bind].
    rewrite uadd_ok by exact Hov. cbn [bind]. unfold np_instantiate_rc. rewrite random_rows_ok. rewrite Nat.add_0_l.
    destruct (external_matrix_ok t (rf + rp) rng Ht) as [p1 E2]. rewrite E2. cbn [bind].
    destruct (mu_returns HF fuel t rng p1 HR) as [[mu p2] E]. rewrite E. cbn [bind]. eexists. reflexivity.
  Qed.

  (** which draws are used: after the constants and the matrices, mu is made of the non-zero draws in order, gamma is the next one *)
  Lemma ext_pos_eq t rounds (rng : nat -> F) m pos : t mod 2 = 0 -> np_instantiate_external_matrix t rng (rounds * t) = Ok (m, pos) ->
    pos = rounds * t + np_mat_draws t.
  Proof.
    intros He H. unfold np_instantiate_external_matrix in H. inv_ok H. destruct a as [[m1 m2] q].
    assert (L : q = rounds * t + np_mat_draws t).
    { unfold np_blocks, np_mat_draws in *. destruct (t =? 4); [|destruct (t =? 8)].
      - rewrite !circ_mat_2 in E. cbn [bind orb] in *. injection E as _ _ <-. lia.
      - rewrite !circ_mat_4 in E. cbn [bind orb] in *. injection E as _ _ <-. lia.
      - cbn [orb] in *. rewrite random_rows_ok in E. rewrite random_rows_ok in E. set (h := t / 2) in *. clearbody h. injection E as _ _ <-. lia. }
    inv_ok H. inv_ok H. injection H as _ <-. exact L.
  Qed.
  Lemma mu_draws (HF : is_field Fo) fuel t (rng : nat -> F) pos l pos' : np_instantiate_mu fuel t rng pos = Ok (l, pos') ->
    pos <= pos' /\ length l = t /\ l = map (fun k => fsub (rng k) f1) (filter (fun k => negb (feqb (rng k) f0)) (seq pos (pos' - pos))).
  Proof.
    revert pos l. induction t as [|t IH]; intros pos l H; cbn [np_instantiate_mu] in H.
    - injection H as <- <-. rewrite Nat.sub_diag. repeat split. lia.
    - inv_ok H. destruct a as [a p1]. inv_ok H. destruct a0 as [l' p2]. injection H as <- <-.
      apply (without_0_ok HF) in E. destruct E as [k [Hk [Hz [Nz [Ea Ep]]]]].
      apply IH in E0. destruct E0 as [Hp [L HL]]. split; [lia|]. split; [cbn; congruence|].
      replace (p2 - pos) with (k + (1 + (p2 - p1))) by lia. rewrite !seq_app, !filter_app, !map_app.
      replace (filter _ (seq pos k)) with (@nil nat).
      2:{ symmetry. clear - Hz HF. revert pos Hz. induction k as [|k IH]; intros pos Hz; [reflexivity|]. cbn [seq filter].
          pose proof (Hz 0 ltac:(lia)) as Z0. rewrite Nat.add_0_r in Z0. rewrite (proj2 (ff_eqb _ HF _ _) Z0). cbn [negb].
          apply IH. intros i Hi. rewrite Nat.add_succ_comm. apply Hz. lia. }
      cbn [seq filter map app]. destruct (feqb (rng (pos + k)) f0) eqn:C; [apply (ff_eqb _ HF) in C; contradiction|]. cbn [negb map app].
      rewrite <- Ea. f_equal. replace (pos + k + 1) with p1 by lia. exact HL.
  Qed.
  Theorem np_new_draws (HF : is_field Fo) dbg fuel rng t d rf rp P : np_new dbg fuel rng t d rf rp = Ok P ->
    (N.of_nat rf + N.of_nat rp < usize_mod)%N -> exists q,
    (rf + rp) * t + np_mat_draws t <= q /\ length (np_mu P) = t /\ np_mu P = map (fun k => fsub (rng k) f1) (filter (fun k => negb (feqb (rng k) f0)) (seq ((rf + rp) * t + np_mat_draws t) (q - ((rf + rp) * t + np_mat_draws t)))) /\ np_abc P = (f1, f1, rng q).
  Proof.
    intros H Hov. unfold np_new in H. inv_ok H. inv_ok H. inv_ok H. destruct a1. apply assert_ok in E1. apply Nat.eqb_eq in E1.
    rewrite uadd_ok in H by exact Hov. cbn [bind] in H. unfold np_instantiate_rc in H. rewrite random_rows_ok in H.
    rewrite Nat.add_0_l in H. inv_ok H. destruct a1 as [m p1]. apply ext_pos_eq in E2; [|exact E1]. subst p1.
    inv_ok H. destruct a1 as [mu p2]. cbn [np_instantiate_abc random_scalar] in H. injection H as <-. cbn [np_mu np_abc].
    apply (mu_draws HF) in E2. destruct E2 as [A [B C]]. exists p2. repeat split; assumption.
  Qed.
End NpParams.
