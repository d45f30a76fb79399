(** * Merkle accumulators: trees and the four models (C33-C42) *)
From Coq Require Import ZifyNat Zify.
From Verif Require Import Base LoopLemmas ModelMerkle SpecMerkle.
Ltac Zify.zify_post_hook ::= Z.to_euclidean_division_equations.

(** ** sizes *)
Lemma tree_depth_pos n : 1 <= tree_depth n.
Proof. unfold tree_depth. lia. Qed.
Lemma tree_depth_le n : n <= 2 ^ tree_depth n.
Proof.
  destruct n as [|n]; [lia|]. apply Nat.log2_up_le_pow2; [lia|]. unfold tree_depth. lia.
Qed.
Lemma tree_depth_least n k : 1 <= k -> n <= 2 ^ k -> tree_depth n <= k.
Proof.
  intros Hk H. unfold tree_depth. destruct n as [|n]; [cbn; lia|]. apply Nat.log2_up_le_pow2 in H; lia.
Qed.
Lemma tree_depth_lt n k : 1 <= k < tree_depth n -> 2 ^ k < n.
Proof. intros H. destruct (Nat.le_gt_cases n (2 ^ k)) as [L|L]; [|exact L]. apply tree_depth_least in L; lia. Qed.
Lemma tree_depth_unique n k : 1 <= k -> n <= 2 ^ k -> (forall j, 1 <= j < k -> 2 ^ j < n) -> tree_depth n = k.
Proof.
  intros Hk H Hj. pose proof (tree_depth_least n k Hk H). pose proof (tree_depth_pos n).
  destruct (Nat.eq_dec (tree_depth n) k); [assumption|]. specialize (Hj (tree_depth n) ltac:(lia)). pose proof (tree_depth_le n). lia.
Qed.
Lemma N_pow2 k : N.of_nat (2 ^ k) = (2 ^ N.of_nat k)%N.
Proof. rewrite Nat2N.inj_pow. reflexivity. Qed.
Lemma tree_depth_63 n : (N.of_nat n <= 2 ^ 63)%N -> tree_depth n <= 63.
Proof.
  intros H. destruct (Nat.le_gt_cases (tree_depth n) 63) as [L|L]; [exact L|].
  assert (G : 2 ^ 63 < n) by (apply tree_depth_lt; lia).
  assert (G' : (N.of_nat (2 ^ 63) < N.of_nat n)%N) by lia. rewrite N_pow2 in G'. change (N.of_nat 63) with 63%N in G'. lia.
Qed.
Lemma padded_size_pos n : 2 <= padded_size n.
Proof. unfold padded_size. pose proof (tree_depth_pos n). change 2 with (2 ^ 1) at 1. apply Nat.pow_le_mono_r; lia. Qed.

(** ** the size loops *)
Lemma pow_loop_ok dbg n k : k <= 63 -> n <= 2 ^ k -> (forall i, 1 <= i < k -> 2 ^ i < n) ->
  forall fuel j, j < k -> k - j <= fuel ->
  fp_pow_loop dbg fuel (N.of_nat n) 2 (2 ^ N.of_nat j) = Ok (2 ^ N.of_nat k)%N.
Proof.
  intros Hk Hle Hlt. induction fuel as [|fuel IH]; intros j Hj Hf; [lia|]. cbn [fp_pow_loop].
  assert (E : (2 ^ N.of_nat j * 2 = 2 ^ N.of_nat (S j))%N) by (rewrite Nat2N.inj_succ, N.pow_succ_r'; lia).
  unfold umulN. rewrite E.
  assert (B : (2 ^ N.of_nat (S j) <? usize_mod = true)%N).
  { apply N.ltb_lt. unfold usize_mod. apply N.pow_lt_mono_r; lia. }
  rewrite B. cbn [bind].
  destruct (N.leb_spec (N.of_nat n) (2 ^ N.of_nat (S j))) as [L|L]; rewrite <- N_pow2 in L.
  - assert (S j = k) as ->; [|reflexivity]. destruct (Nat.eq_dec (S j) k); [assumption|]. specialize (Hlt (S j) ltac:(lia)). lia.
  - apply IH; [|lia]. destruct (Nat.eq_dec (S j) k) as [Ek|Nk]; [|lia]. rewrite Ek in L. clear - L Hle. generalize dependent (2 ^ k). intros; lia.
Qed.
Lemma round_up_ok dbg fuel n : (N.of_nat n <= 2 ^ 63)%N -> 64 <= fuel ->
  fp_round_up_pow_n dbg fuel (N.of_nat n) 2 = Ok (N.of_nat (padded_size n)).
Proof.
  intros Hn Hf. unfold fp_round_up_pow_n. replace (debug_assert dbg (1 <=? 2)%N) with (Ok tt) by (destruct dbg; reflexivity). cbn [bind].
  change 1%N with (2 ^ N.of_nat 0)%N. unfold padded_size. rewrite N_pow2. pose proof (tree_depth_63 n Hn). pose proof (tree_depth_pos n).
  apply pow_loop_ok; [assumption|apply tree_depth_le|intros i Hi; apply tree_depth_lt; exact Hi|lia|lia].
Qed.
Lemma bound_ok dbg fuel n : 1 <= fuel -> fp_bound_loop dbg fuel (N.of_nat (padded_size n)) = Ok (N.of_nat (padded_size n)).
Proof.
  intros Hf. destruct fuel as [|fuel]; [lia|]. cbn [fp_bound_loop]. pose proof (padded_size_pos n).
  destruct (N.leb_spec 2 (N.of_nat (padded_size n))); [reflexivity|lia].
Qed.

(** sizes beyond 2^63 *)
Lemma pow_loop_big dbg n : (2 ^ 63 < n)%N -> (n < usize_mod)%N -> forall fuel,
  fp_pow_loop dbg fuel n 2 1 = Fuel \/ (dbg = true /\ fp_pow_loop dbg fuel n 2 1 = Panic).
Proof.
  intros Hn Hu.
  assert (Z : forall fuel, fp_pow_loop false fuel n 2 0 = Fuel).
  { induction fuel as [|fuel IH]; [reflexivity|]. cbn [fp_pow_loop]. unfold umulN.
    change (0 * 2)%N with 0%N. change (0 <? usize_mod)%N with true. cbn [bind]. destruct (N.leb_spec n 0); [lia|exact IH]. }
  assert (G : forall fuel j, j <= 63 -> fp_pow_loop dbg fuel n 2 (2 ^ N.of_nat j) = Fuel \/ (dbg = true /\ fp_pow_loop dbg fuel n 2 (2 ^ N.of_nat j) = Panic)).
  { induction fuel as [|fuel IH]; intros j Hj; [left; reflexivity|]. cbn [fp_pow_loop].
    assert (E : (2 ^ N.of_nat j * 2 = 2 ^ N.of_nat (S j))%N) by (rewrite Nat2N.inj_succ, N.pow_succ_r'; lia).
    unfold umulN. rewrite E. destruct (Nat.eq_dec j 63) as [->|N].
    - change (2 ^ N.of_nat 64 <? usize_mod)%N with false. destruct dbg; [right; split; reflexivity|].
      change (2 ^ N.of_nat 64 mod usize_mod)%N with 0%N. cbn [bind]. destruct (N.leb_spec n 0); [lia|]. left. apply Z.
    - assert (B : (2 ^ N.of_nat (S j) <? usize_mod = true)%N) by (apply N.ltb_lt; unfold usize_mod; apply N.pow_lt_mono_r; lia).
      rewrite B. cbn [bind]. assert (2 ^ N.of_nat (S j) <= 2 ^ 63)%N by (apply N.pow_le_mono_r; lia).
      destruct (N.leb_spec n (2 ^ N.of_nat (S j))); [lia|]. apply IH. lia. }
  intros fuel. apply (G fuel 0). lia.
Qed.
Lemma round_up_big n : (2 ^ 63 < n)%N -> (n < usize_mod)%N ->
  (forall fuel, fp_round_up_pow_n false fuel n 2 = Fuel) /\ (forall fuel, 64 <= fuel -> fp_round_up_pow_n true fuel n 2 = Panic).
Proof.
  intros Hn Hu. split.
  - intros fuel. unfold fp_round_up_pow_n. cbn [debug_assert bind]. destruct (pow_loop_big false n Hn Hu fuel) as [E|[E _]]; [exact E|discriminate].
  - assert (G : forall fuel j, j <= 63 -> 64 - j <= fuel -> fp_pow_loop true fuel n 2 (2 ^ N.of_nat j) = Panic).
    { induction fuel as [|fuel IH]; intros j Hj Hf; [lia|]. cbn [fp_pow_loop].
      assert (E : (2 ^ N.of_nat j * 2 = 2 ^ N.of_nat (S j))%N) by (rewrite Nat2N.inj_succ, N.pow_succ_r'; lia).
      unfold umulN. rewrite E. destruct (Nat.eq_dec j 63) as [->|N]; [reflexivity|].
      assert (B : (2 ^ N.of_nat (S j) <? usize_mod = true)%N) by (apply N.ltb_lt; unfold usize_mod; apply N.pow_lt_mono_r; lia).
      rewrite B. cbn [bind]. assert (2 ^ N.of_nat (S j) <= 2 ^ 63)%N by (apply N.pow_le_mono_r; lia).
      destruct (N.leb_spec n (2 ^ N.of_nat (S j))); [lia|]. apply IH; lia. }
    intros fuel Hf. unfold fp_round_up_pow_n. cbn [debug_assert bind]. apply (G fuel 0); lia.
Qed.

Lemma usub_total dbg a b : usub dbg a b <> Fuel.
Proof. unfold usub. destruct (b <=? a); [discriminate|]. destruct dbg; discriminate. Qed.

(** ** padding *)
Section Lists.
  Context {A : Type}.

  Lemma padded_last (set : list A) d : set <> [] -> padded set = set ++ repeat (last set d) (padded_size (length set) - length set).
  Proof.
    intros H. destruct (exists_last H) as [l [a ->]]. unfold padded. rewrite rev_app_distr. cbn [rev app]. rewrite last_last. reflexivity.
  Qed.
  Lemma last_nth (l : list A) d : last l d = nth (length l - 1) l d.
  Proof.
    destruct l as [|a l]; [reflexivity|]. assert (H : a :: l <> []) by discriminate.
    destruct (exists_last H) as [l' [b ->]]. rewrite last_last, app_length. cbn. rewrite app_nth2 by lia.
    replace (length l' + 1 - 1 - length l') with 0 by lia. reflexivity.
  Qed.
  Lemma pad_ok dbg (set : list A) m d : set <> [] -> length set <= m ->
    fp_pad dbg set (N.of_nat m) = Ok (set ++ repeat (last set d) (m - length set)).
  Proof.
    intros Hs Hm. assert (L : 1 <= length set) by (destruct set; [contradiction|cbn; lia]).
    unfold fp_pad. rewrite Nat2N.id.
    destruct (for_range_inv (fun i s => s = set ++ repeat (last set d) (i - length set)) (length set) m
      (fun _ nodes => k <- usub dbg (length set) 1 ;; a <- idx nodes k ;; Ok (nodes ++ [a])) set) as [s [E ->]].
    - exact Hm.
    - rewrite Nat.sub_diag. cbn. rewrite app_nil_r. reflexivity.
    - intros i s Hi ->. rewrite usub_ok by lia. cbn [bind]. rewrite (idx_ok d) by (rewrite app_length; lia). cbn [bind].
      eexists. split; [reflexivity|]. rewrite app_nth1 by lia. rewrite <- last_nth.
      replace (S i - length set) with (S (i - length set)) by lia. rewrite <- app_assoc. f_equal.
      rewrite <- (repeat_cons (i - length set)). reflexivity.
    - exact E.
  Qed.
  Lemma padded_length (set : list A) : set <> [] -> length (padded set) = 2 ^ tree_depth (length set).
  Proof.
    intros H. destruct set as [|a s]; [contradiction|]. rewrite (padded_last _ a H), app_length, repeat_length.
    pose proof (tree_depth_le (length (a :: s))). unfold padded_size. lia.
  Qed.
  Lemma pad_padded dbg (set : list A) : set <> [] -> fp_pad dbg set (N.of_nat (padded_size (length set))) = Ok (padded set).
  Proof.
    intros H. destruct set as [|a s]; [contradiction|]. rewrite (pad_ok dbg (a :: s) _ a H), (padded_last _ a H); [reflexivity|].
    apply tree_depth_le.
  Qed.
  Lemma pad_empty dbg m : 1 <= m -> fp_pad dbg ([] : list A) (N.of_nat m) = Panic.
  Proof.
    intros Hm. unfold fp_pad. rewrite Nat2N.id. cbn [length].
    apply (for_range_panic 0 0 m _ [] []); [lia|apply for_range_empty; lia|].
    pose proof (usub_total dbg 0 1) as Hu. destruct (usub dbg 0 1) as [k| |]; cbn [bind]; [|reflexivity|contradiction].
    rewrite idx_panic by (cbn [length]; lia). reflexivity.
  Qed.

  (** ** trees *)
  Lemma pairs_map (c : A -> A -> A) d m : forall l, length l = 2 * m ->
    pairs c l = map (fun k => c (nth (2 * k) l d) (nth (2 * k + 1) l d)) (seq 0 m).
  Proof.
    induction m as [|m IH]; intros l Hl; [destruct l; [reflexivity|discriminate]|].
    destruct l as [|a [|b l]]; [discriminate|cbn in Hl; lia|]. cbn [pairs]. rewrite IH by (cbn in Hl; lia).
    cbn [seq map]. f_equal. rewrite <- seq_shift, map_map. apply map_ext. intros k.
    replace (2 * S k) with (S (S (2 * k))) by lia. replace (S (S (2 * k)) + 1) with (S (S (2 * k + 1))) by lia. reflexivity.
  Qed.
  Lemma pairs_length (c : A -> A -> A) m : forall l, length l = 2 * m -> length (pairs c l) = m.
  Proof.
    induction m as [|m IH]; intros l Hl; [destruct l; [reflexivity|discriminate]|].
    destruct l as [|a [|b l]]; [discriminate|cbn in Hl; lia|]. cbn [pairs length]. rewrite IH by (cbn in Hl; lia). reflexivity.
  Qed.
  Lemma pairs_firstn (c : A -> A -> A) m : forall l, pairs c (firstn (2 * m) l) = firstn m (pairs c l).
  Proof.
    induction m as [|m IH]; intros l; [reflexivity|]. replace (2 * S m) with (S (S (2 * m))) by lia.
    destruct l as [|a [|b l]]; [reflexivity|reflexivity|]. cbn [firstn pairs]. rewrite IH. reflexivity.
  Qed.
  Lemma pairs_skipn (c : A -> A -> A) m : forall l, pairs c (skipn (2 * m) l) = skipn m (pairs c l).
  Proof.
    induction m as [|m IH]; intros l; [reflexivity|]. replace (2 * S m) with (S (S (2 * m))) by lia.
    destruct l as [|a [|b l]]; [reflexivity|reflexivity|]. cbn [skipn pairs]. rewrite IH. reflexivity.
  Qed.
  Lemma half_lengths k (l : list A) : length l = 2 ^ S k -> length (firstn (2 ^ k) l) = 2 ^ k /\ length (skipn (2 ^ k) l) = 2 ^ k.
  Proof. intros H. rewrite firstn_length, skipn_length. cbn [Nat.pow] in H. lia. Qed.
  Lemma tree_root_pairs (c : nat -> A -> A -> A) d k : forall l, length l = 2 ^ S k ->
    tree_root c d (S k) l = tree_root (fun h => c (S h)) d k (pairs (c 0) l).
  Proof.
    induction k as [|k IH]; intros l Hl.
    - destruct l as [|a [|b [|? ?]]]; try (cbn in Hl; lia). reflexivity.
    - destruct (half_lengths (S k) l Hl) as [L1 L2].
      change (tree_root c d (S (S k)) l) with (c (S k) (tree_root c d (S k) (firstn (2 ^ S k) l)) (tree_root c d (S k) (skipn (2 ^ S k) l))).
      rewrite (IH _ L1), (IH _ L2). cbn [tree_root].
      rewrite <- pairs_firstn, <- pairs_skipn. change (2 * 2 ^ k) with (2 ^ S k). reflexivity.
  Qed.
  Lemma tree_root_ext c c' d k : forall l, (forall h a b, h < k -> c h a b = c' h a b) ->
    tree_root c d k l = (tree_root c' d k l : A).
  Proof.
    induction k as [|k IH]; intros l H; [reflexivity|]. cbn [tree_root]. rewrite !IH by (intros; apply H; lia). apply H. lia.
  Qed.
  Lemma tree_root_default c d d' k : forall l : list A, length l = 2 ^ k -> tree_root c d k l = tree_root c d' k l.
  Proof.
    induction k as [|k IH]; intros l Hl; [destruct l; [discriminate|reflexivity]|].
    destruct (half_lengths k l Hl) as [L1 L2]. cbn [tree_root]. rewrite (IH _ L1), (IH _ L2). reflexivity.
  Qed.
  Lemma tree_nodes_length (c : nat -> A -> A -> A) d k : forall l, length (tree_nodes c d k l) = 2 ^ k - 1.
  Proof.
    induction k as [|k IH]; intros l; [reflexivity|]. cbn [tree_nodes length]. rewrite app_length, !IH.
    pose proof (Nat.pow_nonzero 2 k ltac:(lia)). cbn [Nat.pow]. lia.
  Qed.

  (** same root, different leaves *)
  Section Dec.
    Context (eq_dec : forall a b : A, {a = b} + {a <> b}).
    Lemma tree_collision (c : nat -> A -> A -> A) d k : forall l l', length l = 2 ^ k -> length l' = 2 ^ k -> l <> l' ->
      tree_root c d k l = tree_root c d k l' ->
      exists h a b a' b', In (h, a, b) (tree_nodes c d k l) /\ In (h, a', b') (tree_nodes c d k l') /\ (a, b) <> (a', b') /\ c h a b = c h a' b'.
    Proof.
      induction k as [|k IH]; intros l l' Hl Hl' N E.
      - destruct l as [|a [|? ?]]; try (cbn in Hl; lia). destruct l' as [|a' [|? ?]]; try (cbn in Hl'; lia). cbn in E. congruence.
      - destruct (half_lengths k l Hl) as [L1 L2], (half_lengths k l' Hl') as [L1' L2']. cbn [tree_root tree_nodes] in *.
        set (ll := firstn (2 ^ k) l) in *. set (lr := skipn (2 ^ k) l) in *. set (ll' := firstn (2 ^ k) l') in *. set (lr' := skipn (2 ^ k) l') in *.
        destruct (eq_dec (tree_root c d k ll) (tree_root c d k ll')) as [E1|N1]; [destruct (eq_dec (tree_root c d k lr) (tree_root c d k lr')) as [E2|N2]|].
        + destruct (list_eq_dec eq_dec ll ll') as [El|Nl].
          * assert (Nr : lr <> lr'). { intros Er. apply N. rewrite <- (firstn_skipn (2 ^ k) l), <- (firstn_skipn (2 ^ k) l'). fold ll lr ll' lr'. congruence. }
            destruct (IH lr lr' L2 L2' Nr E2) as (h & a & b & a' & b' & I1 & I2 & R). exists h, a, b, a', b'.
            split; [right; apply in_or_app; right; exact I1|]. split; [right; apply in_or_app; right; exact I2|]. exact R.
          * destruct (IH ll ll' L1 L1' Nl E1) as (h & a & b & a' & b' & I1 & I2 & R). exists h, a, b, a', b'.
            split; [right; apply in_or_app; left; exact I1|]. split; [right; apply in_or_app; left; exact I2|]. exact R.
        + exists k, (tree_root c d k ll), (tree_root c d k lr), (tree_root c d k ll'), (tree_root c d k lr').
          split; [left; reflexivity|]. split; [left; reflexivity|]. split; [congruence|exact E].
        + exists k, (tree_root c d k ll), (tree_root c d k lr), (tree_root c d k ll'), (tree_root c d k lr').
          split; [left; reflexivity|]. split; [left; reflexivity|]. split; [congruence|exact E].
    Qed.
  End Dec.

  (** authentication paths *)
  Lemma path_root_app (c : nat -> A -> A -> A) p : forall h i v s,
    path_root c h i v (p ++ [s]) =
    (let u := path_root c h i v p in let j := i / 2 ^ length p in if j mod 2 =? 0 then c (h + length p) u s else c (h + length p) s u).
  Proof.
    induction p as [|q p IH]; intros h i v s.
    - cbn [app path_root length]. cbn [Nat.pow]. rewrite Nat.div_1_r, Nat.add_0_r. reflexivity.
    - cbn [app path_root length]. rewrite IH. cbv zeta. rewrite Nat.div_div by (try apply Nat.pow_nonzero; lia).
      replace (S h + length p) with (h + S (length p)) by lia. reflexivity.
  Qed.
  Lemma path_root_mod (c : nat -> A -> A -> A) p : forall h i v, path_root c h (i mod 2 ^ length p) v p = path_root c h i v p.
  Proof.
    induction p as [|q p IH]; intros h i v; [reflexivity|]. cbn [path_root length].
    rewrite <- (IH (S h) (i mod 2 ^ S (length p) / 2)), <- (IH (S h) (i / 2)). pose proof (Nat.pow_nonzero 2 (length p) ltac:(lia)) as Nz.
    assert (E : i mod 2 ^ S (length p) = i mod 2 + 2 * ((i / 2) mod 2 ^ length p)) by (cbn [Nat.pow]; apply Nat.mod_mul_r; lia).
    assert (E1 : (i mod 2 ^ S (length p)) mod 2 = i mod 2) by (rewrite E; generalize ((i / 2) mod 2 ^ length p); intros; lia).
    assert (E2 : i mod 2 ^ S (length p) / 2 = (i / 2) mod 2 ^ length p) by (rewrite E; generalize ((i / 2) mod 2 ^ length p); intros; lia).
    rewrite E1, E2, Nat.mod_mod by exact Nz. reflexivity.
  Qed.
  Lemma nth_halves (l : list A) d k i : length l = 2 ^ S k -> i < 2 ^ S k ->
    nth i l d = if i / 2 ^ k mod 2 =? 0 then nth (i mod 2 ^ k) (firstn (2 ^ k) l) d else nth (i mod 2 ^ k) (skipn (2 ^ k) l) d.
  Proof.
    intros Hl Hi. destruct (half_lengths k l Hl) as [L1 L2]. rewrite <- (firstn_skipn (2 ^ k) l) at 1.
    pose proof (Nat.pow_nonzero 2 k ltac:(lia)) as Nz. cbn [Nat.pow] in Hi.
    destruct (Nat.lt_ge_cases i (2 ^ k)) as [L|L].
    - rewrite app_nth1 by lia. rewrite (Nat.div_small i (2 ^ k) L), (Nat.mod_small i (2 ^ k) L). reflexivity.
    - rewrite app_nth2 by lia. rewrite L1. assert (Q : i / 2 ^ k = 1) by (symmetry; apply (Nat.div_unique i (2 ^ k) 1 (i - 2 ^ k)); lia).
      assert (M : i mod 2 ^ k = i - 2 ^ k) by (symmetry; apply (Nat.mod_unique i (2 ^ k) 1 (i - 2 ^ k)); lia). rewrite Q, M. reflexivity.
  Qed.
  Lemma path_exists (c : nat -> A -> A -> A) d k : forall l i, length l = 2 ^ k -> i < 2 ^ k ->
    exists path, length path = k /\ path_root c 0 i (nth i l d) path = tree_root c d k l.
  Proof.
    induction k as [|k IH]; intros l i Hl Hi.
    - exists []. split; [reflexivity|]. destruct l as [|a [|? ?]]; try (cbn in Hl; lia). cbn in Hi. replace i with 0 by lia. reflexivity.
    - destruct (half_lengths k l Hl) as [L1 L2]. pose proof (Nat.pow_nonzero 2 k ltac:(lia)) as Nz.
      assert (Hm : i mod 2 ^ k < 2 ^ k) by (apply Nat.mod_upper_bound; exact Nz).
      rewrite (nth_halves l d k i Hl Hi). cbn [tree_root]. destruct (i / 2 ^ k mod 2 =? 0) eqn:B.
      + destruct (IH _ (i mod 2 ^ k) L1 Hm) as [p [Lp Ep]]. exists (p ++ [tree_root c d k (skipn (2 ^ k) l)]).
        split; [rewrite app_length; cbn; lia|]. rewrite path_root_app. cbv zeta. rewrite Lp, B, <- (path_root_mod c p), Lp, Ep. reflexivity.
      + destruct (IH _ (i mod 2 ^ k) L2 Hm) as [p [Lp Ep]]. exists (p ++ [tree_root c d k (firstn (2 ^ k) l)]).
        split; [rewrite app_length; cbn; lia|]. rewrite path_root_app. cbv zeta. rewrite Lp, B, <- (path_root_mod c p), Lp, Ep. reflexivity.
  Qed.
  Lemma path_binding (eq_dec : forall a b : A, {a = b} + {a <> b}) (c : nat -> A -> A -> A) d k : forall l i v path,
    length l = 2 ^ k -> i < 2 ^ k -> length path = k -> path_root c 0 i v path = tree_root c d k l -> v <> nth i l d ->
    exists h a b a' b', In (h, a, b) (tree_nodes c d k l) /\ (a, b) <> (a', b') /\ c h a b = c h a' b'.
  Proof.
    induction k as [|k IH]; intros l i v path Hl Hi Lp E N.
    - destruct path; [|discriminate]. destruct l as [|a [|? ?]]; try (cbn in Hl; lia). cbn in *. assert (i = 0) as -> by lia. contradiction.
    - destruct (half_lengths k l Hl) as [L1 L2]. pose proof (Nat.pow_nonzero 2 k ltac:(lia)) as Nz.
      assert (Hm : i mod 2 ^ k < 2 ^ k) by (apply Nat.mod_upper_bound; exact Nz).
      assert (Np : path <> []) by (intros ->; discriminate). destruct (exists_last Np) as [p [s ->]].
      rewrite app_length in Lp. cbn in Lp. assert (Lp' : length p = k) by lia. rewrite path_root_app in E. cbv zeta in E. rewrite Lp' in E.
      rewrite (nth_halves l d k i Hl Hi) in N. cbn [tree_root tree_nodes] in *. cbn [Nat.add] in E.
      set (u := path_root c 0 i v p) in *. set (ll := firstn (2 ^ k) l) in *. set (lr := skipn (2 ^ k) l) in *.
      assert (U : path_root c 0 (i mod 2 ^ k) v p = u) by (unfold u; rewrite <- (path_root_mod c p), Lp', Nat.mod_mod by exact Nz; rewrite <- Lp'; apply path_root_mod).
      destruct (i / 2 ^ k mod 2 =? 0).
      + destruct (eq_dec u (tree_root c d k ll)) as [Eu|Nu].
        * destruct (IH ll (i mod 2 ^ k) v p L1 Hm Lp' (eq_trans U Eu) N) as (h & a & b & a' & b' & I1 & R).
          exists h, a, b, a', b'. split; [right; apply in_or_app; left; exact I1|exact R].
        * exists k, (tree_root c d k ll), (tree_root c d k lr), u, s. split; [left; reflexivity|]. split; [congruence|symmetry; exact E].
      + destruct (eq_dec u (tree_root c d k lr)) as [Eu|Nu].
        * destruct (IH lr (i mod 2 ^ k) v p L2 Hm Lp' (eq_trans U Eu) N) as (h & a & b & a' & b' & I1 & R).
          exists h, a, b, a', b'. split; [right; apply in_or_app; right; exact I1|exact R].
        * exists k, (tree_root c d k ll), (tree_root c d k lr), s, u. split; [left; reflexivity|]. split; [congruence|symmetry; exact E].
  Qed.
End Lists.
