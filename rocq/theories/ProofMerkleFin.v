(** * Merkle accumulators: final statements *)
From Coq Require Import ZifyNat Zify Permutation.
From Verif Require Import Base LoopLemmas ModelMerkle SpecMerkle SpecMerkleVariants ProofMerkle ProofMerkleAcc.
Ltac Zify.zify_post_hook ::= Z.to_euclidean_division_equations.

Section Fin.
  Context {A : Type}.

  Lemma accumulator_root dbg fuel (c : nat -> A -> A -> A) acc set : accumulator dbg fuel A c acc ->
    set <> [] -> (N.of_nat (length set) <= 2 ^ 63)%N -> 64 <= fuel -> exists r, merkle_root c set = Some r /\ acc set = Ok r.
  Proof.
    intros HA Hs Hn Hf. destruct HA as [A c comp Hc|A c comp Hc|A c comp Hc|B H new upd fin hash ab D hist].
    - apply fp_acc_root; assumption.
    - apply orchard_acc_root; assumption.
    - rewrite sapling_orchard. apply orchard_acc_root; assumption.
    - rewrite (f2_history new upd fin hash ab D dbg fuel hist (f2_new new) set (dc_new _ _ _ _ _ D)).
      apply fp_acc_root; try assumption. intros a b. reflexivity.
  Qed.
  Lemma accumulator_empty dbg fuel (c : nat -> A -> A -> A) acc : accumulator dbg fuel A c acc -> 64 <= fuel -> acc [] = Panic.
  Proof.
    intros HA Hf. destruct HA as [A c comp Hc|A c comp Hc|A c comp Hc|B H new upd fin hash ab D hist].
    - apply fp_acc_empty; assumption.
    - apply orchard_acc_empty; assumption.
    - rewrite sapling_orchard. apply orchard_acc_empty; assumption.
    - rewrite (f2_history new upd fin hash ab D dbg fuel hist (f2_new new) [] (dc_new _ _ _ _ _ D)). apply fp_acc_empty; assumption.
  Qed.
  Lemma accumulator_panics_iff dbg fuel (c : nat -> A -> A -> A) acc set : accumulator dbg fuel A c acc ->
    (N.of_nat (length set) <= 2 ^ 63)%N -> 64 <= fuel ->
    (acc set = Panic <-> set = []) /\ (set <> [] -> exists r, acc set = Ok r).
  Proof.
    intros HA Hn Hf. assert (G : set <> [] -> exists r, acc set = Ok r).
    { intros Hs. destruct (accumulator_root dbg fuel c acc set HA Hs Hn Hf) as [r [_ E]]. exists r. exact E. }
    split; [|exact G]. split.
    - intros E. destruct set as [|a s]; [reflexivity|]. destruct (G ltac:(discriminate)) as [r E']. congruence.
    - intros ->. apply (accumulator_empty dbg fuel c acc HA Hf).
  Qed.

  (** C37 *)
  Lemma last_app_repeat (s : list A) d j : last (s ++ repeat (last s d) j) d = last s d.
  Proof.
    destruct j as [|j]; [cbn; rewrite app_nil_r; reflexivity|]. cbn [repeat]. rewrite (repeat_cons j (last s d)), app_assoc, last_last. reflexivity.
  Qed.
  Lemma padded_repeat (s : list A) d j : s <> [] -> length s + j <= padded_size (length s) ->
    padded (s ++ repeat (last s d) j) = padded s.
  Proof.
    intros Hs Hj.
    assert (Hs' : s ++ repeat (last s d) j <> []) by (destruct s; [contradiction|discriminate]).
    assert (Hd : tree_depth (length s + j) = tree_depth (length s)).
    { apply tree_depth_unique; [apply tree_depth_pos|exact Hj|]. intros i Hi. pose proof (tree_depth_lt (length s) i Hi). lia. }
    rewrite (padded_last _ d Hs'), (padded_last s d Hs), last_app_repeat, app_length, repeat_length. unfold padded_size in *. rewrite Hd.
    rewrite <- app_assoc, <- repeat_app. do 2 f_equal. lia.
  Qed.
  Lemma not_pow2_room n : n = 1 \/ 2 <= n /\ (forall k, n <> 2 ^ k) -> n + 1 <= padded_size n.
  Proof.
    intros [->|[Hn H]]; [apply (padded_size_pos 1)|]. pose proof (tree_depth_le n). specialize (H (tree_depth n)). unfold padded_size. lia.
  Qed.
  Lemma padded_small (s : list A) : (N.of_nat (length s) <= 2 ^ 63)%N -> (N.of_nat (padded_size (length s)) <= 2 ^ 63)%N.
  Proof.
    intros Hn. unfold padded_size. rewrite N_pow2. apply N.pow_le_mono_r; [lia|]. pose proof (tree_depth_63 _ Hn). lia.
  Qed.
  Lemma acc_repeat dbg fuel s d j : s <> [] -> (N.of_nat (length s) <= 2 ^ 63)%N -> 64 <= fuel -> length s + j <= padded_size (length s) ->
    (forall comp, fp_accumulate dbg fuel comp (s ++ repeat (last s d) j) = fp_accumulate dbg fuel comp (s : list A)) /\
    (forall comp, orchard_accumulate dbg fuel comp (s ++ repeat (last s d) j) = orchard_accumulate dbg fuel comp s) /\
    (forall comp, sapling_accumulate dbg fuel comp (s ++ repeat (last s d) j) = sapling_accumulate dbg fuel comp s).
  Proof.
    intros Hs Hn Hf Hj. pose proof (padded_small s Hn) as Hp.
    assert (Hs' : s ++ repeat (last s d) j <> []) by (destruct s; [contradiction|discriminate]).
    assert (Hn' : (N.of_nat (length (s ++ repeat (last s d) j)) <= 2 ^ 63)%N) by (rewrite app_length, repeat_length; lia).
    split; [|split]; intros comp; [| |change (@sapling_accumulate A) with (@orchard_accumulate A)]; rewrite ?fp_acc_padded, ?orchard_acc_padded by assumption; rewrite padded_repeat by assumption; reflexivity.
  Qed.

  (** C38 *)
  Lemma merkle_collision (eq_dec : forall a b : A, {a = b} + {a <> b}) (c : nat -> A -> A -> A) s s' r :
    length s = length s' -> s <> s' -> merkle_root c s = Some r -> merkle_root c s' = Some r ->
    exists h a b a' b', In (h, a, b) (merkle_nodes c s) /\ In (h, a', b') (merkle_nodes c s') /\ (a, b) <> (a', b') /\ c h a b = c h a' b'.
  Proof.
    intros Hl N E E'. destruct s as [|d s1]; [discriminate|]. destruct s' as [|d' s1']; [discriminate|].
    unfold merkle_root, merkle_nodes in *. set (s := d :: s1) in *. set (s' := d' :: s1') in *.
    assert (P1 : length (padded s) = 2 ^ tree_depth (length s)) by (apply padded_length; discriminate).
    assert (P2 : length (padded s') = 2 ^ tree_depth (length s')) by (apply padded_length; discriminate).
    rewrite <- Hl in E', P2 |- *.
    assert (E2 : tree_root c d (tree_depth (length s)) (padded s) = tree_root c d (tree_depth (length s)) (padded s')).
    { rewrite (tree_root_default c d d' _ (padded s') P2). congruence. }
    destruct (tree_collision eq_dec c d _ _ _ P1 P2) with (2 := E2) as (h & a & b & a' & b' & I1 & I2 & R).
    - intros E3. apply N. rewrite (padded_last s d), (padded_last s' d) in E3 by discriminate.
      apply (f_equal (firstn (length s))) in E3. rewrite !firstn_app in E3. rewrite <- Hl in E3. rewrite Nat.sub_diag in E3.
      rewrite firstn_all, Hl, firstn_all in E3. cbn [firstn] in E3. rewrite !app_nil_r in E3. exact E3.
    - exists h, a, b, a', b'. split; [exact I1|]. split; [|exact R].
      replace (tree_nodes c d' (tree_depth (length s)) (padded s')) with (tree_nodes c d (tree_depth (length s)) (padded s')); [exact I2|].
      generalize (tree_depth (length s)) as k, (padded s') as l, P2. clear. induction k as [|k IH]; intros l Hl; [reflexivity|].
      destruct (half_lengths k l Hl) as [L1 L2]. cbn [tree_nodes]. rewrite (IH _ L1), (IH _ L2), (tree_root_default c d d' k _ L1), (tree_root_default c d d' k _ L2). reflexivity.
  Qed.
  Lemma acc_collision dbg fuel (eq_dec : forall a b : A, {a = b} + {a <> b}) (c : nat -> A -> A -> A) acc s s' :
    accumulator dbg fuel A c acc -> (N.of_nat (length s) <= 2 ^ 63)%N -> 64 <= fuel ->
    length s = length s' -> s <> s' -> acc s = acc s' ->
    exists h a b a' b', In (h, a, b) (merkle_nodes c s) /\ In (h, a', b') (merkle_nodes c s') /\ (a, b) <> (a', b') /\ c h a b = c h a' b'.
  Proof.
    intros HA Hn Hf Hl N E. assert (Hs : s <> []) by (intros ->; destruct s'; [apply N; reflexivity|discriminate]).
    assert (Hs' : s' <> []) by (intros ->; destruct s; [apply N; reflexivity|discriminate]).
    destruct (accumulator_root dbg fuel c acc s HA Hs Hn Hf) as [r [R1 R2]].
    destruct (accumulator_root dbg fuel c acc s' HA Hs' ltac:(rewrite <- Hl; exact Hn) Hf) as [r' [R1' R2']].
    apply (merkle_collision eq_dec c s s' r Hl N R1). congruence.
  Qed.

  (** C39 *)
  Lemma padded_nth (s : list A) d i : i < length s -> nth i (padded s) d = nth i s d.
  Proof. intros Hi. rewrite (padded_last s d) by (intros ->; cbn in Hi; lia). apply app_nth1. exact Hi. Qed.
  Lemma acc_path dbg fuel (c : nat -> A -> A -> A) acc s d i : accumulator dbg fuel A c acc ->
    (N.of_nat (length s) <= 2 ^ 63)%N -> 64 <= fuel -> i < length s ->
    exists path, length path = tree_depth (length s) /\ acc s = Ok (path_root c 0 i (nth i s d) path).
  Proof.
    intros HA Hn Hf Hi. assert (Hs : s <> []) by (intros ->; cbn in Hi; lia).
    destruct (accumulator_root dbg fuel c acc s HA Hs Hn Hf) as [r [R1 R2]]. rewrite R2. destruct s as [|e s1]; [contradiction|].
    set (s := e :: s1) in *. injection R1 as <-. pose proof (tree_depth_le (length s)).
    destruct (path_exists c d (tree_depth (length s)) (padded s) i (padded_length s Hs) ltac:(lia)) as [path [Lp Ep]].
    exists path. split; [exact Lp|]. rewrite padded_nth in Ep by exact Hi. rewrite Ep. f_equal. fold s.
    apply tree_root_default. apply padded_length; exact Hs.
  Qed.
  Lemma tree_nodes_default c d d' k : forall l : list A, length l = 2 ^ k -> tree_nodes c d k l = tree_nodes c d' k l.
  Proof.
    induction k as [|k IH]; intros l Hl; [reflexivity|].
    destruct (half_lengths k l Hl) as [L1 L2]. cbn [tree_nodes]. rewrite (IH _ L1), (IH _ L2), (tree_root_default c d d' k _ L1), (tree_root_default c d d' k _ L2). reflexivity.
  Qed.
  Lemma acc_path_binding dbg fuel (eq_dec : forall a b : A, {a = b} + {a <> b}) (c : nat -> A -> A -> A) acc s d i v path :
    accumulator dbg fuel A c acc -> (N.of_nat (length s) <= 2 ^ 63)%N -> 64 <= fuel -> i < length s ->
    length path = tree_depth (length s) -> acc s = Ok (path_root c 0 i v path) -> v <> nth i s d ->
    exists h a b a' b', In (h, a, b) (merkle_nodes c s) /\ (a, b) <> (a', b') /\ c h a b = c h a' b'.
  Proof.
    intros HA Hn Hf Hi Lp E N. assert (Hs : s <> []) by (intros ->; cbn in Hi; lia).
    destruct (accumulator_root dbg fuel c acc s HA Hs Hn Hf) as [r [R1 R2]]. rewrite R2 in E. destruct s as [|e s1]; [contradiction|].
    set (s := e :: s1) in *. change (merkle_nodes c s) with (tree_nodes c e (tree_depth (length s)) (padded s)). injection R1 as <-. injection E as E. fold s in E. pose proof (tree_depth_le (length s)).
    rewrite (tree_nodes_default c e d _ _ (padded_length s Hs)).
    apply (path_binding eq_dec c d (tree_depth (length s)) (padded s) i v path); [apply padded_length; exact Hs|lia|exact Lp| |rewrite padded_nth by exact Hi; exact N].
    rewrite <- E. apply tree_root_default. apply padded_length; exact Hs.
  Qed.

  (** C40 *)
  Lemma depth_ge_2 (s : list A) : 3 <= length s -> exists k, tree_depth (length s) = S (S k).
  Proof.
    intros H. pose proof (tree_depth_le (length s)). pose proof (tree_depth_pos (length s)). destruct (tree_depth (length s)) as [|[|k]]; [lia|cbn in *; lia|]. exists k. reflexivity.
  Qed.
  Lemma padded_pow2 (s : list A) k : length s = 2 ^ S k -> padded s = s /\ tree_depth (length s) = S k.
  Proof.
    intros Hl. assert (Hd : tree_depth (length s) = S k).
    { apply tree_depth_unique; [lia|lia|]. intros j Hj. rewrite Hl. apply Nat.pow_lt_mono_r; lia. }
    split; [|exact Hd]. pose proof (Nat.pow_nonzero 2 (S k) ltac:(lia)). destruct s as [|a s]; [cbn [length] in Hl; lia|].
    rewrite (padded_last _ a) by discriminate. unfold padded_size. rewrite Hd, <- Hl, Nat.sub_diag. cbn [repeat]. apply app_nil_r.
  Qed.
  Lemma merkle_root_up (c : nat -> A -> A -> A) s : 3 <= length s ->
    merkle_root (fun h => c (S h)) (pairs (c 0) (padded s)) = merkle_root c s.
  Proof.
    intros Hl. destruct (depth_ge_2 s Hl) as [k Hk]. assert (Hs : s <> []) by (intros ->; cbn in Hl; lia).
    pose proof (padded_length s Hs) as Lp. rewrite Hk in Lp.
    assert (Lq : length (pairs (c 0) (padded s)) = 2 ^ S k) by (apply pairs_length; exact Lp).
    destruct (padded_pow2 _ k Lq) as [P1 P2]. destruct s as [|d s1]; [contradiction|]. set (s := d :: s1) in *.
    unfold merkle_root. destruct (pairs (c 0) (padded s)) as [|e q] eqn:Eq; [cbn [length] in Lq; pose proof (Nat.pow_nonzero 2 (S k)); lia|].
    rewrite P1, P2. unfold s. fold s. rewrite Hk, <- Eq. rewrite (tree_root_pairs c d (S k) (padded s) Lp). f_equal. symmetry. apply tree_root_default. rewrite Eq. exact Lq.
  Qed.
  Lemma acc_up dbg fuel (c c' : nat -> A -> A -> A) acc acc' s : accumulator dbg fuel A c acc -> accumulator dbg fuel A c' acc' ->
    (forall h a b, c' h a b = c (S h) a b) ->
    3 <= length s -> (N.of_nat (length s) <= 2 ^ 63)%N -> 64 <= fuel -> acc' (pairs (c 0) (padded s)) = acc s.
  Proof.
    intros HA HA' Hc Hl Hn Hf. assert (Hs : s <> []) by (intros ->; cbn in Hl; lia).
    destruct (depth_ge_2 s Hl) as [k Hk].
    pose proof (padded_length s Hs) as Lp. rewrite Hk in Lp.
    assert (Lq : length (pairs (c 0) (padded s)) = 2 ^ S k) by (apply pairs_length; exact Lp).
    assert (Hn' : (N.of_nat (length (pairs (c 0%nat) (padded s))) <= 2 ^ 63)%N).
    { rewrite Lq, N_pow2. apply N.pow_le_mono_r; [lia|]. pose proof (tree_depth_63 _ Hn). lia. }
    assert (Hs' : pairs (c 0) (padded s) <> []) by (intros E; rewrite E in Lq; cbn [length] in Lq; pose proof (Nat.pow_nonzero 2 (S k)); lia).
    destruct (accumulator_root dbg fuel c acc s HA Hs Hn Hf) as [r [R1 R2]].
    destruct (accumulator_root dbg fuel c' acc' _ HA' Hs' Hn' Hf) as [r' [R1' R2']]. rewrite R2, R2'.
    rewrite <- merkle_root_up in R1 by exact Hl. unfold merkle_root in R1, R1'. destruct (pairs (c 0) (padded s)) as [|e q]; [contradiction|].
    rewrite (tree_root_ext c' (fun h => c (S h))) in R1' by (intros; apply Hc). congruence.
  Qed.
End Fin.

(** C42: the messages hashed, in order, for the digest tree *)
Section Log.
  Context {B H : Type} (new : H) (upd : H -> list B -> H) (fin : H -> list B * H) (hash : list B -> list B) (absorbed : H -> list B).
  Context (D : digest_contract new upd fin hash absorbed).
  Notation A := (list B).

  (** the same digest, also recording what was hashed *)
  Definition log_update (s : H * list A) (x : A) : H * list A := (upd (fst s) x, snd s).
  Definition log_finalize_reset (s : H * list A) : A * (H * list A) :=
    let '(d, h) := fin (fst s) in (d, (h, snd s ++ [absorbed (fst s)])).

  Let c (l r : A) : A := hash (l ++ r).
  Definition cats (l : list A) : list A := pairs (fun a b => a ++ b) l.

  Lemma log_compress a b h g : absorbed h = [] -> exists h', absorbed h' = [] /\
    f2_compress log_update log_finalize_reset a b (h, g) = (Ok (c a b), (h', g ++ [a ++ b])).
  Proof.
    intros Hh. unfold f2_compress, log_update, log_finalize_reset. cbn [fst snd].
    pose proof (dc_digest _ _ _ _ _ D (upd (upd h a) b)) as E1. pose proof (dc_reset _ _ _ _ _ D (upd (upd h a) b)) as E2.
    rewrite !(dc_update _ _ _ _ _ D), Hh in *. cbn [app] in *. destruct (fin (upd (upd h a) b)) as [x h']. cbn [fst snd] in *. subst x.
    exists h'. split; [exact E2|reflexivity].
  Qed.
  Lemma log_level m nodes h g : absorbed h = [] -> length nodes = 2 * m -> exists h', absorbed h' = [] /\
    f2_level log_update log_finalize_reset nodes (h, g) = (Ok (pairs c nodes), (h', g ++ cats nodes)).
  Proof.
    intros Hh Hl. unfold f2_level. rewrite Hl, range_step_2_even.
    assert (G : forall k j acc h g, absorbed h = [] -> j + k = m -> exists h', absorbed h' = [] /\
      sfor_list (map (fun k => 2 * k) (seq j k)) (fun i new_nodes => sbind (slift (idx nodes i)) (fun a => sbind (slift (idx nodes (i + 1))) (fun b =>
         sbind (f2_compress log_update log_finalize_reset a b) (fun dig => sret (new_nodes ++ [dig]))))) acc (h, g) =
      (Ok (acc ++ map (fun k => c (nth (2 * k) nodes []) (nth (2 * k + 1) nodes [])) (seq j k)),
       (h', g ++ map (fun k => nth (2 * k) nodes [] ++ nth (2 * k + 1) nodes []) (seq j k)))).
    { clear Hh h g. induction k as [|k IH]; intros j acc h g Hh Hj.
      - exists h. split; [exact Hh|]. cbn. rewrite !app_nil_r. reflexivity.
      - cbn [seq map sfor_list]. unfold sbind at 1 2 3 4, slift. rewrite !(idx_ok []) by lia.
        destruct (log_compress (nth (2 * j) nodes []) (nth (2 * j + 1) nodes []) h g Hh) as [h1 [Hh1 E1]]. rewrite E1.
        unfold sret at 1. destruct (IH (S j) (acc ++ [c (nth (2 * j) nodes []) (nth (2 * j + 1) nodes [])]) h1 (g ++ [nth (2 * j) nodes [] ++ nth (2 * j + 1) nodes []]) Hh1 ltac:(lia)) as [h2 [Hh2 E2]].
        exists h2. split; [exact Hh2|]. etransitivity; [exact E2|]. rewrite <- !app_assoc. reflexivity. }
    destruct (G m 0 [] h g Hh eq_refl) as [h' [Hh' E]]. exists h'. split; [exact Hh'|]. etransitivity; [exact E|].
    unfold cats. rewrite !(pairs_map _ [] m nodes Hl). reflexivity.
  Qed.

  Fixpoint level_log (k : nat) (nodes : list A) : list A :=
    match k with O => [] | S k' => cats nodes ++ level_log k' (pairs c nodes) end.
  Lemma log_levels k : forall fuel nodes h g, absorbed h = [] -> length nodes = 2 ^ k -> k < fuel -> exists h', absorbed h' = [] /\
    f2_levels log_update log_finalize_reset fuel nodes (h, g) = (Ok [tree_root (fun _ => c) [] k nodes], (h', g ++ level_log k nodes)).
  Proof.
    induction k as [|k IH]; intros [|fuel] nodes h g Hh Hl Hf; try lia; cbn [f2_levels level_log].
    - destruct nodes as [|a [|? ?]]; try (cbn in Hl; lia). exists h. split; [exact Hh|]. cbn. rewrite app_nil_r. reflexivity.
    - pose proof (Nat.pow_nonzero 2 k ltac:(lia)). assert (L : 1 <? length nodes = true) by (apply Nat.ltb_lt; rewrite Hl; cbn [Nat.pow]; lia). rewrite L.
      destruct (log_level (2 ^ k) nodes h g Hh Hl) as [h1 [Hh1 E1]]. unfold sbind. rewrite E1.
      destruct (IH fuel (pairs c nodes) h1 (g ++ cats nodes) Hh1 (pairs_length c (2 ^ k) nodes Hl) ltac:(lia)) as [h2 [Hh2 E2]].
      exists h2. split; [exact Hh2|]. etransitivity; [exact E2|]. rewrite (tree_root_pairs (fun _ => c) [] k nodes Hl), app_assoc. reflexivity.
  Qed.

  Definition node_msg (n : nat * A * A) : A := let '(_, a, b) := n in a ++ b.
  Lemma cats_firstn m l : cats (firstn (2 * m) l) = firstn m (cats l). Proof. apply pairs_firstn. Qed.
  Lemma cats_skipn m l : cats (skipn (2 * m) l) = skipn m (cats l). Proof. apply pairs_skipn. Qed.
  Lemma level_log_split k : forall l, length l = 2 ^ S k -> Permutation (level_log (S k) l)
    ((tree_root (fun _ => c) [] k (firstn (2 ^ k) l) ++ tree_root (fun _ => c) [] k (skipn (2 ^ k) l)) ::
     level_log k (firstn (2 ^ k) l) ++ level_log k (skipn (2 ^ k) l)).
  Proof.
    induction k as [|k IH]; intros l Hl.
    - destruct l as [|a [|b [|? ?]]]; try (cbn in Hl; lia). cbn. apply Permutation_refl.
    - destruct (half_lengths (S k) l Hl) as [L1 L2].
      change (level_log (S (S k)) l) with (cats l ++ level_log (S k) (pairs c l)).
      rewrite (IH (pairs c l)) by (apply pairs_length; exact Hl).
      rewrite (tree_root_pairs (fun _ => c) [] k _ L1), (tree_root_pairs (fun _ => c) [] k _ L2).
      change (level_log (S k) (firstn (2 ^ S k) l)) with (cats (firstn (2 ^ S k) l) ++ level_log k (pairs c (firstn (2 ^ S k) l))).
      change (level_log (S k) (skipn (2 ^ S k) l)) with (cats (skipn (2 ^ S k) l) ++ level_log k (pairs c (skipn (2 ^ S k) l))).
      change (2 ^ S k) with (2 * 2 ^ k). rewrite !pairs_firstn, !pairs_skipn, cats_firstn, cats_skipn.
      rewrite <- (firstn_skipn (2 ^ k) (cats l)) at 1.
      generalize (firstn (2 ^ k) (cats l)) as x, (skipn (2 ^ k) (cats l)) as y, (level_log k (firstn (2 ^ k) (pairs c l))) as u, (level_log k (skipn (2 ^ k) (pairs c l))) as w.
      intros x y u w. generalize (tree_root (fun _ : nat => c) [] k (firstn (2 ^ k) (pairs c l)) ++ tree_root (fun _ : nat => c) [] k (skipn (2 ^ k) (pairs c l))) as z. intros z.
      symmetry. transitivity (z :: (x ++ y) ++ u ++ w).
      + apply perm_skip. rewrite <- !app_assoc. apply Permutation_app_head. rewrite !app_assoc. apply Permutation_app_tail. apply Permutation_app_comm.
      + apply Permutation_middle.
  Qed.
  Lemma level_log_nodes k : forall l, length l = 2 ^ k -> Permutation (level_log k l) (map node_msg (tree_nodes (fun _ => c) [] k l)).
  Proof.
    induction k as [|k IH]; intros l Hl; [apply Permutation_refl|]. destruct (half_lengths k l Hl) as [L1 L2].
    rewrite (level_log_split k l Hl). cbn [tree_nodes map node_msg]. apply perm_skip. rewrite map_app. apply Permutation_app; apply IH; assumption.
  Qed.

  Lemma f2_log dbg fuel set : set <> [] -> (N.of_nat (length set) <= 2 ^ 63)%N -> 64 <= fuel ->
    exists r h log, merkle_root (fun _ => c) set = Some r /\
      f2_accumulate log_update log_finalize_reset dbg fuel set (new, []) = (Ok r, (h, log)) /\
      Permutation log (map node_msg (merkle_nodes (fun _ => c) set)) /\ length log = padded_size (length set) - 1.
  Proof.
    intros Hs Hn Hf. unfold f2_accumulate. change f2_round_up_pow_n with fp_round_up_pow_n. change f2_bound_loop with fp_bound_loop. change (@f2_pad B) with (@fp_pad A).
    rewrite (round_up_ok dbg fuel _ Hn Hf). unfold sbind, slift. rewrite bound_ok by lia. rewrite pad_padded by exact Hs.
    pose proof (tree_depth_63 _ Hn).
    destruct (log_levels (tree_depth (length set)) fuel (padded set) new [] (dc_new _ _ _ _ _ D) (padded_length set Hs) ltac:(lia)) as [h [Hh E]].
    rewrite E. cbn [app]. destruct set as [|d s]; [contradiction|]. set (set := d :: s) in *.
    exists (tree_root (fun _ => c) [] (tree_depth (length set)) (padded set)), h, (level_log (tree_depth (length set)) (padded set)).
    assert (P : Permutation (level_log (tree_depth (length set)) (padded set)) (map node_msg (merkle_nodes (fun _ => c) set))).
    { unfold merkle_nodes, set. fold set. rewrite (tree_nodes_default (fun _ => c) d [] _ _ (padded_length set Hs)). apply level_log_nodes. apply padded_length; exact Hs. }
    split; [|split; [reflexivity|split; [exact P|]]].
    - unfold merkle_root, set. fold set. f_equal. apply tree_root_default. apply padded_length; exact Hs.
    - rewrite (Permutation_length P), map_length. apply tree_nodes_length.
  Qed.
End Log.

(** counting: give leaves weight 0 and a node the weights of its children plus one *)
Lemma weight_root k : forall l, Forall (eq 0) l -> tree_root (fun _ a b => S (a + b)) 0 k l = 2 ^ k - 1.
Proof.
  induction k as [|k IH]; intros l Hl; cbn [tree_root].
  - destruct Hl as [|x l Hx Hl]; [reflexivity|]. subst x. reflexivity.
  - pose proof (Nat.pow_nonzero 2 k ltac:(lia)). rewrite <- (firstn_skipn (2 ^ k) l) in Hl. apply Forall_app in Hl.
    rewrite !IH by apply Hl. cbn [Nat.pow]. lia.
Qed.
Lemma padded_zero s : Forall (eq 0) s -> Forall (eq 0) (padded s).
Proof.
  intros H. destruct s as [|a s]; [constructor|]. rewrite (padded_last _ 0) by discriminate. apply Forall_app. split; [exact H|].
  apply Forall_forall. intros x Hx. apply repeat_spec in Hx. subst x.
  assert (I : In (last (a :: s) 0) (a :: s)).
  { rewrite last_nth. apply nth_In. cbn. lia. }
  rewrite Forall_forall in H. apply H. exact I.
Qed.
Lemma acc_weight dbg fuel acc n : accumulator dbg fuel nat (fun _ a b => S (a + b)) acc -> 1 <= n -> (N.of_nat n <= 2 ^ 63)%N -> 64 <= fuel ->
  acc (repeat 0 n) = Ok (padded_size n - 1).
Proof.
  intros HA Hn Hb Hf. destruct (accumulator_root dbg fuel _ acc (repeat 0 n) HA) as [r [R1 R2]].
  - destruct n; [lia|discriminate].
  - rewrite repeat_length. exact Hb.
  - exact Hf.
  - rewrite R2. destruct n as [|n]; [lia|]. cbn [repeat merkle_root] in R1. injection R1 as <-. f_equal.
    change (0 :: repeat 0 n) with (repeat 0 (S n)). rewrite weight_root; [cbn [length]; rewrite repeat_length; reflexivity|].
    apply padded_zero. apply Forall_forall. intros x Hx. apply repeat_spec in Hx. symmetry. exact Hx.
Qed.

(** ** the forms used by Props_Merkle *)
Lemma f2_history_root {B H} (new : H) upd fin (hash : list B -> list B) absorbed : digest_contract new upd fin hash absorbed ->
  forall dbg fuel history set start, start = f2_new new \/ start = f2_default new ->
    let after := fold_left (fun h s => snd (f2_accumulate upd fin dbg fuel s h)) history start in
    fst (f2_accumulate upd fin dbg fuel set after) = fst (f2_accumulate upd fin dbg fuel set start) /\
    (set <> [] -> (N.of_nat (length set) <= 2 ^ 63)%N -> 64 <= fuel ->
     exists root, merkle_root (fun _ l r => hash (l ++ r)) set = Some root /\ fst (f2_accumulate upd fin dbg fuel set after) = Ok root).
Proof.
  intros D dbg fuel history set start Hst after.
  assert (Hs : absorbed start = []) by (destruct Hst as [->| ->]; apply (dc_new _ _ _ _ _ D)).
  pose proof (f2_history new upd fin hash absorbed D dbg fuel history start set Hs) as E. fold after in E.
  split.
  - rewrite E. symmetry. apply (f2_history new upd fin hash absorbed D dbg fuel [] start set Hs).
  - intros Hn Hb Hf. rewrite E. apply fp_acc_root; try assumption. reflexivity.
Qed.
Lemma acc_repeat_one {A} dbg fuel (set : list A) d : set <> [] -> (N.of_nat (length set) <= 2 ^ 63)%N -> 64 <= fuel ->
    (length set = 1 \/ 2 <= length set /\ forall k, length set <> 2 ^ k) ->
    (forall compress, fp_accumulate dbg fuel compress (set ++ [last set d]) = fp_accumulate dbg fuel compress set) /\
    (forall compress, orchard_accumulate dbg fuel compress (set ++ [last set d]) = orchard_accumulate dbg fuel compress set) /\
    (forall compress, sapling_accumulate dbg fuel compress (set ++ [last set d]) = sapling_accumulate dbg fuel compress set).
Proof. intros Hs Hn Hf Hp. apply (acc_repeat dbg fuel set d 1 Hs Hn Hf). apply not_pow2_room. exact Hp. Qed.
Lemma accumulator_repeat {A} dbg fuel (c : nat -> A -> A -> A) acc set d j : accumulator dbg fuel A c acc ->
    set <> [] -> (N.of_nat (length set) <= 2 ^ 63)%N -> 64 <= fuel -> length set + j <= padded_size (length set) ->
    acc (set ++ repeat (last set d) j) = acc set.
Proof.
  intros HA Hs Hn Hf Hj. destruct HA as [A c comp Hc|A c comp Hc|A c comp Hc|B H new upd fin hash ab D hist];
    try (apply (acc_repeat dbg fuel set d j Hs Hn Hf Hj)).
  rewrite !(f2_history new upd fin hash ab D dbg fuel hist (f2_new new) _ (dc_new _ _ _ _ _ D)). apply (acc_repeat dbg fuel set d j Hs Hn Hf Hj).
Qed.
Lemma fp_cross_level {A} dbg fuel (compress : list A -> res A) (c : A -> A -> A) set :
    (forall a b, compress [a; b] = Ok (c a b)) -> 3 <= length set -> (N.of_nat (length set) <= 2 ^ 63)%N -> 64 <= fuel ->
    fp_accumulate dbg fuel compress (pairs c (padded set)) = fp_accumulate dbg fuel compress set /\
    length (pairs c (padded set)) < length (padded set).
Proof.
  intros Hc Hl Hn Hf. split.
  - apply (acc_up dbg fuel (fun _ => c) (fun _ => c)); try assumption; try (apply acc_fp; exact Hc). reflexivity.
  - destruct (depth_ge_2 set Hl) as [k Hk]. assert (Hs : set <> []) by (intros ->; cbn in Hl; lia).
    pose proof (padded_length set Hs) as Lp. rewrite Hk in Lp. rewrite (pairs_length c (2 ^ S k)) by exact Lp. rewrite Lp.
    pose proof (Nat.pow_nonzero 2 (S k) ltac:(lia)). change (2 ^ S (S k)) with (2 * 2 ^ S k). lia.
Qed.
Lemma f2_cross_level {B H} (new : H) upd fin (hash : list B -> list B) absorbed : digest_contract new upd fin hash absorbed ->
  forall dbg fuel set, 3 <= length set -> (N.of_nat (length set) <= 2 ^ 63)%N -> 64 <= fuel ->
    fst (f2_accumulate upd fin dbg fuel (pairs (fun l r => hash (l ++ r)) (padded set)) new) = fst (f2_accumulate upd fin dbg fuel set new).
Proof.
  intros D dbg fuel set Hl Hn Hf. pose proof (acc_f2 dbg fuel B H new upd fin hash absorbed D []) as HA.
  exact (acc_up dbg fuel _ _ _ _ set HA HA (fun _ _ _ => eq_refl) Hl Hn Hf).
Qed.
Lemma padded_size_least n : 2 <= padded_size n /\ n <= padded_size n /\ (exists k, padded_size n = 2 ^ k) /\
    forall k, 2 <= 2 ^ k -> n <= 2 ^ k -> padded_size n <= 2 ^ k.
Proof.
  split; [apply padded_size_pos|]. split; [apply tree_depth_le|]. split; [exists (tree_depth n); reflexivity|].
  intros k Hk H. destruct k as [|k]; [cbn in Hk; lia|]. unfold padded_size. apply Nat.pow_le_mono_r; [lia|]. apply tree_depth_least; [lia|exact H].
Qed.
Lemma size_search n dbg fuel : (N.of_nat n <= 2 ^ 63)%N -> 64 <= fuel ->
    fp_round_up_pow_n dbg fuel (N.of_nat n) 2 = Ok (N.of_nat (padded_size n)) /\
    f2_round_up_pow_n dbg fuel (N.of_nat n) 2 = Ok (N.of_nat (padded_size n)) /\
    orchard_round_up_pow_n dbg fuel (N.of_nat n) 2 = Ok (N.of_nat (padded_size n)) /\
    sapling_round_up_pow_n dbg fuel (N.of_nat n) 2 = Ok (N.of_nat (padded_size n)).
Proof. intros Hn Hf. pose proof (round_up_ok dbg fuel n Hn Hf) as E. repeat split; exact E. Qed.
Lemma size_search_steps n dbg : (N.of_nat n <= 2 ^ 63)%N ->
    fp_round_up_pow_n dbg (tree_depth n) (N.of_nat n) 2 = Ok (N.of_nat (padded_size n)) /\
    (forall fuel, fuel < tree_depth n -> fp_round_up_pow_n dbg fuel (N.of_nat n) 2 = Fuel).
Proof.
  intros Hn. pose proof (tree_depth_63 n Hn) as H63. pose proof (tree_depth_pos n). unfold fp_round_up_pow_n.
  replace (debug_assert dbg (1 <=? 2)%N) with (Ok tt) by (destruct dbg; reflexivity). cbn [bind]. change 1%N with (2 ^ N.of_nat 0)%N. split.
  - unfold padded_size. rewrite N_pow2. apply pow_loop_ok; [assumption|apply tree_depth_le|intros i Hi; apply tree_depth_lt; exact Hi|lia|lia].
  - assert (G : forall fuel j, j + fuel < tree_depth n -> fp_pow_loop dbg fuel (N.of_nat n) 2 (2 ^ N.of_nat j) = Fuel).
    { induction fuel as [|fuel IH]; intros j Hj; [reflexivity|]. cbn [fp_pow_loop].
      assert (E : (2 ^ N.of_nat j * 2 = 2 ^ N.of_nat (S j))%N) by (rewrite Nat2N.inj_succ, N.pow_succ_r'; lia).
      unfold umulN. rewrite E.
      assert (Bd : (2 ^ N.of_nat (S j) <? usize_mod = true)%N) by (apply N.ltb_lt; unfold usize_mod; apply N.pow_lt_mono_r; lia).
      rewrite Bd. cbn [bind]. pose proof (tree_depth_lt n (S j) ltac:(lia)) as L.
      assert (L' : (2 ^ N.of_nat (S j) < N.of_nat n)%N) by (rewrite <- N_pow2; generalize dependent (2 ^ S j); intros; lia).
      destruct (N.leb_spec (N.of_nat n) (2 ^ N.of_nat (S j))); [exfalso; apply (N.lt_irrefl (N.of_nat n)); eapply N.le_lt_trans; eassumption|]. apply IH. lia. }
    intros fuel Hf. apply (G fuel 0). exact Hf.
Qed.
Lemma acc_profiles {A} fuel (set : list A) : (N.of_nat (length set) <= 2 ^ 63)%N -> 64 <= fuel ->
    (forall compress, fp_accumulate true fuel compress set = fp_accumulate false fuel compress set) /\
    (forall compress, orchard_accumulate true fuel compress set = orchard_accumulate false fuel compress set) /\
    (forall compress, sapling_accumulate true fuel compress set = sapling_accumulate false fuel compress set).
Proof.
  intros Hn Hf. split; [|split]; intros compress; [apply fp_acc_profiles|apply orchard_acc_profiles|apply (orchard_acc_profiles fuel compress)]; assumption.
Qed.
Lemma f2_profiles {B H} (new : H) upd fin (hash : list B -> list B) absorbed : digest_contract new upd fin hash absorbed ->
  forall fuel set h, absorbed h = [] -> (N.of_nat (length set) <= 2 ^ 63)%N -> 64 <= fuel ->
    fst (f2_accumulate upd fin true fuel set h) = fst (f2_accumulate upd fin false fuel set h).
Proof.
  intros D fuel set h Hh Hn Hf. destruct (sims_accumulate new upd fin hash absorbed D true fuel set h Hh) as [E1 _].
  destruct (sims_accumulate new upd fin hash absorbed D false fuel set h Hh) as [E2 _]. rewrite E1, E2. apply fp_acc_profiles; assumption.
Qed.
