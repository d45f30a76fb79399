(** * Merkle accumulators: the four models compute padded tree roots *)
From Coq Require Import ZifyNat Zify Permutation.
From Verif Require Import Base LoopLemmas ModelMerkle SpecMerkle ProofMerkle.
Ltac Zify.zify_post_hook ::= Z.to_euclidean_division_equations.

Lemma range_step_2_even m : range_step_2 (2 * m) = map (fun k => 2 * k) (seq 0 m).
Proof. unfold range_step_2. replace ((2 * m + 1) / 2) with m by lia. reflexivity. Qed.
Lemma seq_for_range {S} m (body : nat -> S -> res S) s : for_list (seq 0 m) body s = for_range 0 m body s.
Proof. unfold for_range. rewrite Nat.sub_0_r. reflexivity. Qed.
Lemma pow2_lt_self k : k < 2 ^ k.
Proof. apply Nat.pow_gt_lin_r. lia. Qed.

(** ** fp *)
Section FpAcc.
  Context {A : Type}.

  Lemma fp_acc_padded dbg fuel (comp : list A -> res A) set : set <> [] -> (N.of_nat (length set) <= 2 ^ 63)%N -> 64 <= fuel ->
    fp_accumulate dbg fuel comp set = (nodes <- fp_levels fuel comp (padded set) ;; idx nodes 0).
  Proof.
    intros Hs Hn Hf. unfold fp_accumulate. rewrite (round_up_ok dbg fuel _ Hn Hf). cbn [bind].
    rewrite bound_ok by lia. cbn [bind]. rewrite pad_padded by exact Hs. reflexivity.
  Qed.
  Lemma fp_acc_empty dbg fuel (comp : list A -> res A) : 64 <= fuel -> fp_accumulate dbg fuel comp [] = Panic.
  Proof.
    intros Hf. unfold fp_accumulate. change (N.of_nat (length (@nil A))) with (N.of_nat 0).
    rewrite (round_up_ok dbg fuel 0) by lia. cbn [bind]. rewrite bound_ok by lia. cbn [bind].
    pose proof (padded_size_pos 0). rewrite pad_empty by lia. reflexivity.
  Qed.

  Lemma fp_level_ok (comp : list A -> res A) c m nodes : (forall a b, comp [a; b] = Ok (c a b)) -> length nodes = 2 * m ->
    fp_level comp nodes = Ok (pairs c nodes).
  Proof.
    intros Hc Hl. unfold fp_level. rewrite Hl, range_step_2_even, for_list_map, seq_for_range.
    destruct nodes as [|d nodes']; [cbn in Hl; replace m with 0 by lia; reflexivity|]. set (nodes := d :: nodes') in *.
    rewrite (pairs_map c d m nodes Hl).
    destruct (for_range_inv (fun i s => s = map (fun k => c (nth (2 * k) nodes d) (nth (2 * k + 1) nodes d)) (seq 0 i)) 0 m
      (fun k new_nodes => a <- idx nodes (2 * k) ;; b <- idx nodes (2 * k + 1) ;; dig <- comp [a; b] ;; Ok (new_nodes ++ [dig])) []) as [s [E ->]].
    - lia.
    - reflexivity.
    - intros i s Hi ->. rewrite !(idx_ok d) by lia. cbn [bind]. rewrite Hc. cbn [bind]. eexists. split; [reflexivity|].
      rewrite seq_S, map_app. reflexivity.
    - exact E.
  Qed.
  Lemma fp_level_panic (comp : list A -> res A) nodes : (forall a b, comp [a; b] = Panic) -> 2 <= length nodes ->
    fp_level comp nodes = Panic.
  Proof.
    intros Hc Hl. unfold fp_level, range_step_2. destruct ((length nodes + 1) / 2) as [|m] eqn:E; [lia|].
    destruct nodes as [|a [|b nodes]]; [cbn in Hl; lia|cbn in Hl; lia|]. cbn [seq map for_list]. rewrite !(idx_ok a) by (cbn [length]; lia).
    cbn [bind]. rewrite Hc. reflexivity.
  Qed.

  Lemma fp_levels_ok (comp : list A -> res A) c d : (forall a b, comp [a; b] = Ok (c a b)) ->
    forall k fuel nodes, length nodes = 2 ^ k -> k < fuel -> fp_levels fuel comp nodes = Ok [tree_root (fun _ => c) d k nodes].
  Proof.
    intros Hc. induction k as [|k IH]; intros [|fuel] nodes Hl Hf; try lia; cbn [fp_levels].
    - destruct nodes as [|a [|? ?]]; try (cbn in Hl; lia). reflexivity.
    - pose proof (Nat.pow_nonzero 2 k ltac:(lia)). assert (L : 1 <? length nodes = true) by (apply Nat.ltb_lt; rewrite Hl; cbn [Nat.pow]; lia).
      rewrite L, (fp_level_ok comp c (2 ^ k) nodes Hc Hl). cbn [bind]. rewrite IH; [|apply pairs_length; exact Hl|lia].
      rewrite (tree_root_pairs (fun _ => c) d k nodes Hl). reflexivity.
  Qed.

  Lemma fp_acc_root dbg fuel comp (c : A -> A -> A) set : (forall a b, comp [a; b] = Ok (c a b)) ->
    set <> [] -> (N.of_nat (length set) <= 2 ^ 63)%N -> 64 <= fuel ->
    exists r, merkle_root (fun _ => c) set = Some r /\ fp_accumulate dbg fuel comp set = Ok r.
  Proof.
    intros Hc Hs Hn Hf. rewrite fp_acc_padded by assumption. destruct set as [|d s]; [contradiction|]. set (set := d :: s) in *.
    exists (tree_root (fun _ => c) d (tree_depth (length set)) (padded set)). split; [reflexivity|].
    rewrite (fp_levels_ok comp c d Hc (tree_depth (length set))); [reflexivity|apply padded_length; exact Hs|].
    pose proof (tree_depth_63 _ Hn). lia.
  Qed.
  Lemma fp_acc_panic dbg fuel (comp : list A -> res A) set : (forall a b, comp [a; b] = Panic) ->
    (N.of_nat (length set) <= 2 ^ 63)%N -> 64 <= fuel -> fp_accumulate dbg fuel comp set = Panic.
  Proof.
    intros Hc Hn Hf. destruct set as [|d s]; [apply fp_acc_empty; exact Hf|]. rewrite fp_acc_padded by (try discriminate; assumption).
    destruct fuel as [|fuel]; [lia|]. cbn [fp_levels].
    assert (L : 2 <= length (padded (d :: s))).
    { rewrite padded_length by discriminate. apply (padded_size_pos (length (d :: s))). }
    assert (L' : 1 <? length (padded (d :: s)) = true) by (apply Nat.ltb_lt; lia). rewrite L', fp_level_panic by assumption. reflexivity.
  Qed.
  Lemma fp_acc_profiles fuel (comp : list A -> res A) set : (N.of_nat (length set) <= 2 ^ 63)%N -> 64 <= fuel ->
    fp_accumulate true fuel comp set = fp_accumulate false fuel comp set.
  Proof.
    intros Hn Hf. destruct set as [|d s]; [rewrite !fp_acc_empty by exact Hf; reflexivity|].
    rewrite !fp_acc_padded by (try discriminate; assumption). reflexivity.
  Qed.
End FpAcc.

(** ** orchard and sapling: the same code *)
Section OrchardAcc.
  Context {A : Type}.

  Lemma orchard_pow_loop_eq : orchard_pow_loop = fp_pow_loop. Proof. reflexivity. Qed.
  Lemma sapling_orchard : @sapling_accumulate A = @orchard_accumulate A. Proof. reflexivity. Qed.

  Lemma orchard_acc_padded dbg fuel (comp : nat -> A -> A -> res A) set : set <> [] -> (N.of_nat (length set) <= 2 ^ 63)%N -> 64 <= fuel ->
    orchard_accumulate dbg fuel comp set = (nodes <- orchard_levels dbg fuel comp 0 (padded set) ;; idx nodes 0).
  Proof.
    intros Hs Hn Hf. unfold orchard_accumulate. change orchard_round_up_pow_n with fp_round_up_pow_n. rewrite (round_up_ok dbg fuel _ Hn Hf). cbn [bind].
    change orchard_bound_loop with fp_bound_loop. rewrite bound_ok by lia. cbn [bind]. change (@orchard_pad A) with (@fp_pad A). rewrite pad_padded by exact Hs. reflexivity.
  Qed.
  Lemma orchard_acc_empty dbg fuel (comp : nat -> A -> A -> res A) : 64 <= fuel -> orchard_accumulate dbg fuel comp [] = Panic.
  Proof.
    intros Hf. unfold orchard_accumulate. change (N.of_nat (length (@nil A))) with (N.of_nat 0). change orchard_round_up_pow_n with fp_round_up_pow_n.
    rewrite (round_up_ok dbg fuel 0) by lia. cbn [bind]. change orchard_bound_loop with fp_bound_loop. rewrite bound_ok by lia. cbn [bind].
    pose proof (padded_size_pos 0). change (@orchard_pad A) with (@fp_pad A). rewrite pad_empty by lia. reflexivity.
  Qed.
  Lemma orchard_level_fp (comp : nat -> A -> A -> res A) lv (d : A) nodes :
    orchard_level comp lv nodes = fp_level (fun l => comp lv (nth 0 l d) (nth 1 l d)) nodes.
  Proof. reflexivity. Qed.

  Lemma orchard_levels_ok dbg (comp : nat -> A -> A -> res A) c d : (forall h a b, comp h a b = Ok (c h a b)) ->
    forall k fuel lv nodes, length nodes = 2 ^ k -> k < fuel -> (N.of_nat (lv + k) < usize_mod)%N ->
    orchard_levels dbg fuel comp lv nodes = Ok [tree_root (fun h => c (lv + h)) d k nodes].
  Proof.
    intros Hc. induction k as [|k IH]; intros [|fuel] lv nodes Hl Hf Hu; try lia; cbn [orchard_levels].
    - destruct nodes as [|a [|? ?]]; try (cbn in Hl; lia). reflexivity.
    - pose proof (Nat.pow_nonzero 2 k ltac:(lia)). assert (L : 1 <? length nodes = true) by (apply Nat.ltb_lt; rewrite Hl; cbn [Nat.pow]; lia).
      rewrite L, (orchard_level_fp comp lv d), (fp_level_ok _ (c lv) (2 ^ k) nodes) by (try (intros; apply Hc); exact Hl). cbn [bind].
      rewrite uadd_ok by lia. cbn [bind]. rewrite IH; [|apply pairs_length; exact Hl|lia|replace (lv + 1 + k) with (lv + S k) by lia; exact Hu].
      rewrite (tree_root_pairs (fun h => c (lv + h)) d k nodes Hl). rewrite Nat.add_0_r. do 2 f_equal.
      apply tree_root_ext. intros h a b _. f_equal. lia.
  Qed.
  Lemma orchard_acc_root dbg fuel comp (c : nat -> A -> A -> A) set : (forall h a b, comp h a b = Ok (c h a b)) ->
    set <> [] -> (N.of_nat (length set) <= 2 ^ 63)%N -> 64 <= fuel ->
    exists r, merkle_root c set = Some r /\ orchard_accumulate dbg fuel comp set = Ok r.
  Proof.
    intros Hc Hs Hn Hf. rewrite orchard_acc_padded by assumption. destruct set as [|d s]; [contradiction|]. set (set := d :: s) in *.
    exists (tree_root c d (tree_depth (length set)) (padded set)). split; [reflexivity|]. pose proof (tree_depth_63 _ Hn).
    rewrite (orchard_levels_ok dbg comp c d Hc (tree_depth (length set))); [reflexivity|apply padded_length; exact Hs|lia|].
    unfold usize_mod. lia.
  Qed.
  Lemma orchard_levels_profiles (comp : nat -> A -> A -> res A) :
    forall k fuel lv nodes, length nodes = 2 ^ k -> k < fuel -> (N.of_nat (lv + k) < usize_mod)%N ->
    orchard_levels true fuel comp lv nodes = orchard_levels false fuel comp lv nodes.
  Proof.
    induction k as [|k IH]; intros [|fuel] lv nodes Hl Hf Hu; try lia; cbn [orchard_levels].
    - destruct nodes as [|a [|? ?]]; try (cbn in Hl; lia). reflexivity.
    - destruct (1 <? length nodes); [|reflexivity]. apply bind_ext. intros new E. rewrite !uadd_ok by lia. cbn [bind].
      apply IH; [|lia|replace (lv + 1 + k) with (lv + S k) by lia; exact Hu].
      unfold orchard_level in E. rewrite Hl in E. cbn [Nat.pow] in E. rewrite range_step_2_even, for_list_map in E.
      assert (G : forall l acc new, for_list l (fun x new_nodes => a <- idx nodes (2 * x) ;; b <- idx nodes (2 * x + 1) ;; dig <- comp lv a b ;; Ok (new_nodes ++ [dig])) acc = Ok new ->
                length new = length acc + length l).
      { clear. induction l as [|x l IHl]; intros acc new E; cbn [for_list] in E; [inversion E; cbn; lia|].
        inv_ok E. apply IHl in E. inv_ok E0. inv_ok E0. inv_ok E0. inversion E0; subst. rewrite app_length in E. cbn [length] in *. lia. }
      apply G in E. rewrite seq_length in E. exact E.
  Qed.
  Lemma orchard_acc_profiles fuel (comp : nat -> A -> A -> res A) set : (N.of_nat (length set) <= 2 ^ 63)%N -> 64 <= fuel ->
    orchard_accumulate true fuel comp set = orchard_accumulate false fuel comp set.
  Proof.
    intros Hn Hf. destruct set as [|d s]; [rewrite !orchard_acc_empty by exact Hf; reflexivity|].
    rewrite !orchard_acc_padded by (try discriminate; assumption). pose proof (tree_depth_63 _ Hn).
    rewrite (orchard_levels_profiles comp (tree_depth (length (d :: s)))); [reflexivity|apply padded_length; discriminate|lia|].
    unfold usize_mod. lia.
  Qed.
End OrchardAcc.

(** ** f2 *)
Section F2Acc.
  Context {B H : Type} (new : H) (upd : H -> list B -> H) (fin : H -> list B * H) (hash : list B -> list B) (absorbed : H -> list B).
  Context (D : digest_contract new upd fin hash absorbed).

  Definition hcomp (l : list (list B)) : res (list B) := Ok (hash (nth 0 l [] ++ nth 1 l [])).
  (** [m] does what the pure [r] says and leaves the hasher reset *)
  Definition sims {X} (m : st H X) (r : res X) : Prop := forall h, absorbed h = [] -> fst (m h) = r /\ absorbed (snd (m h)) = [].

  Lemma sims_lift {X} (r : res X) : sims (slift r) r.
  Proof. intros h Hh. split; [reflexivity|exact Hh]. Qed.
  Lemma sims_bind {X Y} (m : st H X) r (k : X -> st H Y) k' : sims m r -> (forall a, sims (k a) (k' a)) -> sims (sbind m k) (bind r k').
  Proof.
    intros Hm Hk h Hh. destruct (Hm h Hh) as [E1 E2]. unfold sbind. destruct (m h) as [[a| |] h']; cbn [fst snd] in E1, E2; subst r; cbn [bind fst snd].
    - apply (Hk a h' E2).
    - split; [reflexivity|exact E2].
    - split; [reflexivity|exact E2].
  Qed.
  Lemma sims_for {X Y} (l : list X) (body : X -> Y -> st H Y) body' : (forall x a, sims (body x a) (body' x a)) ->
    forall acc, sims (sfor_list l body acc) (for_list l body' acc).
  Proof.
    intros Hb. induction l as [|x l IH]; intros acc; cbn [sfor_list for_list]; [apply (sims_lift (Ok acc))|].
    apply sims_bind; [apply Hb|exact IH].
  Qed.
  Lemma sims_compress a b : sims (f2_compress upd fin a b) (hcomp [a; b]).
  Proof.
    intros h Hh. unfold f2_compress, hcomp. cbn [nth].
    pose proof (dc_digest _ _ _ _ _ D (upd (upd h a) b)) as E1. pose proof (dc_reset _ _ _ _ _ D (upd (upd h a) b)) as E2.
    rewrite !(dc_update _ _ _ _ _ D), Hh in E1. destruct (fin (upd (upd h a) b)) as [d h']. cbn [fst snd] in *. subst d. split; [reflexivity|exact E2].
  Qed.
  Lemma sims_level nodes : sims (f2_level upd fin nodes) (fp_level hcomp nodes).
  Proof.
    unfold f2_level, fp_level. apply sims_for. intros i acc. apply sims_bind; [apply sims_lift|]. intros a. apply sims_bind; [apply sims_lift|]. intros b.
    apply sims_bind; [apply sims_compress|]. intros dig. apply (sims_lift (Ok (acc ++ [dig]))).
  Qed.
  Lemma sims_levels fuel : forall nodes, sims (f2_levels upd fin fuel nodes) (fp_levels fuel hcomp nodes).
  Proof.
    induction fuel as [|fuel IH]; intros nodes; cbn [f2_levels fp_levels]; [apply sims_lift|].
    destruct (1 <? length nodes); [|apply (sims_lift (Ok nodes))]. apply sims_bind; [apply sims_level|exact IH].
  Qed.
  Lemma sims_accumulate dbg fuel set : sims (f2_accumulate upd fin dbg fuel set) (fp_accumulate dbg fuel hcomp set).
  Proof.
    unfold f2_accumulate, fp_accumulate. apply sims_bind; [apply sims_lift|]. intros b. apply sims_bind; [apply sims_lift|]. intros b'.
    apply sims_bind; [apply sims_lift|]. intros nodes. apply sims_bind; [apply sims_levels|]. intros nodes'. apply sims_lift.
  Qed.
  Lemma history_absorbed (dbg : bool) fuel hist h : absorbed h = [] ->
    absorbed (fold_left (fun h s => snd (f2_accumulate upd fin dbg fuel s h)) hist h) = [].
  Proof.
    revert h. induction hist as [|s hist IH]; intros h Hh; [exact Hh|]. cbn [fold_left]. apply IH. apply (sims_accumulate dbg fuel s h Hh).
  Qed.
  Lemma f2_history dbg fuel hist h set : absorbed h = [] ->
    fst (f2_accumulate upd fin dbg fuel set (fold_left (fun h s => snd (f2_accumulate upd fin dbg fuel s h)) hist h)) = fp_accumulate dbg fuel hcomp set.
  Proof. intros Hh. apply sims_accumulate. apply history_absorbed. exact Hh. Qed.
End F2Acc.
