(** * ProofMerkleBind: exactly which sets share a root (C72) *)
From Verif Require Import Base LoopLemmas ModelMerkle SpecMerkle SpecMerkleVariants SpecBinding ProofMerkle ProofMerkleAcc ProofMerkleFin.

Section Bind.
  Context {A : Type}.

  (** ** padding *)
  Lemma padded_firstn (s : list A) : s <> [] -> firstn (length s) (padded s) = s.
  Proof. intros Hs. destruct s as [|d s1]; [contradiction|]. rewrite (padded_last _ d) by exact Hs. rewrite firstn_app, Nat.sub_diag, firstn_all. cbn [firstn]. apply app_nil_r. Qed.
  Lemma firstn_repeat_le (a : A) j : forall m, j <= m -> firstn j (repeat a m) = repeat a j.
  Proof. induction j as [|j IH]; intros m Hm; [reflexivity|]. destruct m as [|m]; [lia|]. cbn [repeat firstn]. f_equal. apply IH. lia. Qed.
  Lemma same_padding_short (s s' : list A) : s <> [] -> s' <> [] -> length s <= length s' -> padded s = padded s' -> same_up_to_padding s s'.
  Proof.
    intros Hs Hs' Hl E. assert (Hd : tree_depth (length s) = tree_depth (length s')).
    { apply (f_equal (@length A)) in E. rewrite !padded_length in E by assumption. apply Nat.pow_inj_r in E; [exact E|lia]. }
    destruct s as [|d s1]; [contradiction|]. set (s := d :: s1) in *. exists s, d, (length s' - length s). split.
    - unfold padded_size. rewrite Hd. pose proof (tree_depth_le (length s')). lia.
    - left. split; [reflexivity|]. transitivity (firstn (length s') (padded s)); [rewrite E; symmetry; apply padded_firstn; exact Hs'|].
      rewrite (padded_last s d Hs), firstn_app. rewrite firstn_all2 by exact Hl. f_equal. apply firstn_repeat_le.
      unfold padded_size. rewrite Hd. pose proof (tree_depth_le (length s')). lia.
  Qed.
  Lemma same_padding_iff (s s' : list A) : s <> [] -> s' <> [] -> (padded s = padded s' <-> same_up_to_padding s s').
  Proof.
    intros Hs Hs'. split.
    - intros E. destruct (Nat.le_ge_cases (length s) (length s')) as [L|L]; [apply same_padding_short; assumption|].
      destruct (same_padding_short s' s Hs' Hs L (eq_sym E)) as [a [d [j [H1 H2]]]]. exists a, d, j. split; [exact H1|]. tauto.
    - intros [a [d [j [H1 [[-> ->]|[-> ->]]]]]].
      + symmetry. apply padded_repeat; [|exact H1]. intros ->. exact (Hs eq_refl).
      + apply padded_repeat; [|exact H1]. intros ->. exact (Hs' eq_refl).
  Qed.

  Lemma inhabitant (s : list A) : s <> [] -> exists d : A, True.
  Proof. destruct s as [|d s]; [contradiction|]. exists d. exact I. Qed.

  (** ** rows *)
  Lemma row_length (c : A -> A -> A) k : forall m l, length l = 2 ^ (k + m) -> length (row c k l) = 2 ^ m.
  Proof.
    unfold row. induction k as [|k IH]; intros m l Hl; [exact Hl|]. cbn [Nat.iter nat_rect]. apply (pairs_length c (2 ^ m)).
    change (2 * 2 ^ m) with (2 ^ S m). apply IH. rewrite Hl. f_equal. lia.
  Qed.
  Lemma row_root (c : A -> A -> A) d k : forall m l, length l = 2 ^ (k + m) -> tree_root (fun _ => c) d (k + m) l = tree_root (fun _ => c) d m (row c k l).
  Proof.
    induction k as [|k IH]; intros m l Hl; [reflexivity|].
    change (row c (S k) l) with (pairs c (row c k l)).
    rewrite <- (tree_root_pairs (fun _ => c) d m (row c k l)) by (apply row_length; rewrite Hl; f_equal; lia).
    replace (S k + m) with (k + S m) in * by lia. apply IH. exact Hl.
  Qed.
  Lemma nodes_pairs (c : nat -> A -> A -> A) d k : forall l, length l = 2 ^ S k -> forall h a b,
    In (h, a, b) (tree_nodes (fun h => c (S h)) d k (pairs (c 0) l)) -> In (S h, a, b) (tree_nodes c d (S k) l).
  Proof.
    induction k as [|k IH]; intros l Hl h a b Hi; [destruct Hi|].
    destruct (half_lengths (S k) l Hl) as [L1 L2].
    change (tree_nodes c d (S (S k)) l) with ((S k, tree_root c d (S k) (firstn (2 ^ S k) l), tree_root c d (S k) (skipn (2 ^ S k) l)) ::
      tree_nodes c d (S k) (firstn (2 ^ S k) l) ++ tree_nodes c d (S k) (skipn (2 ^ S k) l)).
    cbn [tree_nodes] in Hi. rewrite <- pairs_firstn, <- pairs_skipn in Hi. change (2 * 2 ^ k) with (2 ^ S k) in Hi.
    destruct Hi as [E|Hi].
    - left. rewrite (tree_root_pairs c d k _ L1), (tree_root_pairs c d k _ L2). injection E as <- <- <-. reflexivity.
    - right. apply in_or_app. apply in_app_or in Hi. destruct Hi as [Hi|Hi]; [left|right]; apply IH; assumption.
  Qed.
  Lemma nodes_row (c : A -> A -> A) d k : forall m l, length l = 2 ^ (k + m) -> forall h a b,
    In (h, a, b) (tree_nodes (fun _ => c) d m (row c k l)) -> In (k + h, a, b) (tree_nodes (fun _ => c) d (k + m) l).
  Proof.
    induction k as [|k IH]; intros m l Hl h a b Hi; [exact Hi|].
    change (row c (S k) l) with (pairs c (row c k l)) in Hi.
    apply (nodes_pairs (fun _ => c)) in Hi; [|apply row_length; rewrite Hl; f_equal; lia].
    replace (S k + m) with (k + S m) in * by lia. replace (S k + h) with (k + S h) by lia. apply IH; assumption.
  Qed.

  (** ** one tree against another *)
  Lemma root_of (c : nat -> A -> A -> A) (s : list A) d : s <> [] -> merkle_root c s = Some (tree_root c d (tree_depth (length s)) (padded s)).
  Proof. intros Hs. destruct s as [|e s1]; [contradiction|]. unfold merkle_root. f_equal. apply tree_root_default. apply padded_length. exact Hs. Qed.
  Lemma nodes_of (c : nat -> A -> A -> A) (s : list A) d : s <> [] -> merkle_nodes c s = tree_nodes c d (tree_depth (length s)) (padded s).
  Proof. intros Hs. destruct s as [|e s1]; [contradiction|]. unfold merkle_nodes. apply tree_nodes_default. apply padded_length. exact Hs. Qed.

  Context (eq_dec : forall a b : A, {a = b} + {a <> b}).

  Lemma same_depth (c : nat -> A -> A -> A) s s' : s <> [] -> s' <> [] -> tree_depth (length s) = tree_depth (length s') ->
    merkle_root c s = merkle_root c s' -> padded s <> padded s' ->
    exists h a b a' b', In (h, a, b) (merkle_nodes c s) /\ In (h, a', b') (merkle_nodes c s') /\ (a, b) <> (a', b') /\ c h a b = c h a' b'.
  Proof.
    intros Hs Hs' Hd E N. destruct (inhabitant s Hs) as [d _].
    rewrite (root_of c s d Hs), (root_of c s' d Hs') in E. injection E as E. rewrite (nodes_of c s d Hs), (nodes_of c s' d Hs'). rewrite <- Hd in *.
    apply (tree_collision eq_dec); [apply padded_length; exact Hs|rewrite Hd; apply padded_length; exact Hs'|exact N|exact E].
  Qed.

  Theorem tagged_merkle (c : nat -> A -> A -> A) s s' : s <> [] -> s' <> [] -> merkle_root c s = merkle_root c s' ->
    same_up_to_padding s s' \/
    exists h a b h' a' b', In (h, a, b) (merkle_nodes c s) /\ In (h', a', b') (merkle_nodes c s') /\ (h, a, b) <> (h', a', b') /\ c h a b = c h' a' b'.
  Proof.
    intros Hs Hs' E. destruct (list_eq_dec eq_dec (padded s) (padded s')) as [P|P]; [left; apply same_padding_iff; assumption|right].
    destruct (Nat.eq_dec (tree_depth (length s)) (tree_depth (length s'))) as [D|D].
    - destruct (same_depth c s s' Hs Hs' D E P) as (h & a & b & a' & b' & I1 & I2 & I3 & I4). exists h, a, b, h, a', b'.
      split; [exact I1|]. split; [exact I2|]. split; [|exact I4]. intros C. apply I3. injection C as -> ->. reflexivity.
    - destruct (inhabitant s Hs) as [d _].
      rewrite (root_of c s d Hs), (root_of c s' d Hs') in E. injection E as E. rewrite (nodes_of c s d Hs), (nodes_of c s' d Hs').
      pose proof (tree_depth_pos (length s)). pose proof (tree_depth_pos (length s')).
      destruct (tree_depth (length s)) as [|k]; [lia|]. destruct (tree_depth (length s')) as [|k']; [lia|]. cbn [tree_root tree_nodes] in *.
      do 6 eexists. split; [left; reflexivity|]. split; [left; reflexivity|]. split; [|exact E]. intros C. apply D. injection C as -> _ _. reflexivity.
  Qed.

  Lemma deeper (c : A -> A -> A) s s' k : s <> [] -> s' <> [] -> 1 <= k -> tree_depth (length s) = k + tree_depth (length s') ->
    merkle_root (fun _ => c) s = merkle_root (fun _ => c) s' ->
    row_of c s s' \/ exists h a b h' a' b', In (h, a, b) (merkle_nodes (fun _ => c) s) /\ In (h', a', b') (merkle_nodes (fun _ => c) s') /\ (a, b) <> (a', b') /\ c a b = c a' b'.
  Proof.
    intros Hs Hs' Hk Hd E. destruct (list_eq_dec eq_dec (padded s') (row c k (padded s))) as [P|P]; [left; exists k; auto|right].
    destruct (inhabitant s Hs) as [d _]. pose proof (padded_length s Hs) as L. pose proof (padded_length s' Hs') as L'. rewrite Hd in L.
    rewrite (root_of _ s d Hs), (root_of _ s' d Hs') in E. injection E as E. rewrite (nodes_of _ s d Hs), (nodes_of _ s' d Hs'). rewrite Hd in *.
    rewrite row_root in E by exact L.
    destruct (tree_collision eq_dec (fun _ => c) d (tree_depth (length s')) (row c k (padded s)) (padded s') (row_length c k _ _ L) L') as (h & a & b & a' & b' & I1 & I2 & I3 & I4); [congruence|exact E|].
    exists (k + h), a, b, h, a', b'. split; [apply nodes_row; assumption|]. auto.
  Qed.

  Theorem untagged_merkle (c : A -> A -> A) s s' : s <> [] -> s' <> [] -> merkle_root (fun _ => c) s = merkle_root (fun _ => c) s' ->
    same_up_to_padding s s' \/ row_of c s s' \/ row_of c s' s \/
    exists h a b h' a' b', In (h, a, b) (merkle_nodes (fun _ => c) s) /\ In (h', a', b') (merkle_nodes (fun _ => c) s') /\ (a, b) <> (a', b') /\ c a b = c a' b'.
  Proof.
    intros Hs Hs' E. destruct (Nat.lt_trichotomy (tree_depth (length s)) (tree_depth (length s'))) as [D|[D|D]].
    - destruct (deeper c s' s (tree_depth (length s') - tree_depth (length s)) Hs' Hs) as [R|(h & a & b & h' & a' & b' & I1 & I2 & I3 & I4)]; [lia|lia|congruence|auto|].
      do 3 right. exists h', a', b', h, a, b. repeat split; auto; congruence.
    - destruct (list_eq_dec eq_dec (padded s) (padded s')) as [P|P]; [left; apply same_padding_iff; assumption|do 3 right].
      destruct (same_depth _ s s' Hs Hs' D E P) as (h & a & b & a' & b' & I1 & I2 & I3 & I4). exists h, a, b, h, a', b'. auto.
    - destruct (deeper c s s' (tree_depth (length s) - tree_depth (length s')) Hs Hs') as [R|R]; [lia|lia|congruence|auto|do 3 right; exact R].
  Qed.
End Bind.

Section Acc.
  Context {A : Type}.
  Lemma same_up_root (c : nat -> A -> A -> A) s s' : s <> [] -> s' <> [] -> same_up_to_padding s s' -> merkle_root c s = merkle_root c s'.
  Proof.
    intros Hs Hs' H. apply (same_padding_iff s s' Hs Hs') in H. destruct (inhabitant s Hs) as [d _].
    rewrite (root_of c s d Hs), (root_of c s' d Hs'), H. do 2 f_equal.
    apply (f_equal (@length A)) in H. rewrite !padded_length in H by assumption. apply Nat.pow_inj_r in H; [exact H|lia].
  Qed.
  Lemma row_of_root (c : A -> A -> A) s s' : s <> [] -> s' <> [] -> row_of c s s' -> merkle_root (fun _ => c) s = merkle_root (fun _ => c) s'.
  Proof.
    intros Hs Hs' [k [_ [Hd HR]]]. destruct (inhabitant s Hs) as [d _]. pose proof (padded_length s Hs) as L. rewrite Hd in L.
    rewrite (root_of _ s d Hs), (root_of _ s' d Hs'), Hd, HR. f_equal. apply row_root. exact L.
  Qed.
  Lemma acc_eq_root dbg fuel (c : nat -> A -> A -> A) acc s s' : accumulator dbg fuel A c acc -> s <> [] -> s' <> [] ->
    (N.of_nat (length s) <= 2 ^ 63)%N -> (N.of_nat (length s') <= 2 ^ 63)%N -> 64 <= fuel -> (acc s = acc s' <-> merkle_root c s = merkle_root c s').
  Proof.
    intros HA Hs Hs' Hn Hn' Hf. destruct (accumulator_root dbg fuel c acc s HA Hs Hn Hf) as [r [R1 R2]]. destruct (accumulator_root dbg fuel c acc s' HA Hs' Hn' Hf) as [r' [R1' R2']].
    rewrite R1, R1', R2, R2'. split; congruence.
  Qed.

  Theorem tagged_binding dbg fuel : (forall a b : A, {a = b} + {a <> b}) ->
    forall (c : nat -> A -> A -> A) acc s s', accumulator dbg fuel A c acc -> s <> [] -> s' <> [] ->
    (N.of_nat (length s) <= 2 ^ 63)%N -> (N.of_nat (length s') <= 2 ^ 63)%N -> 64 <= fuel ->
    (same_up_to_padding s s' -> acc s = acc s') /\
    (acc s = acc s' -> same_up_to_padding s s' \/
       exists h a b h' a' b', In (h, a, b) (merkle_nodes c s) /\ In (h', a', b') (merkle_nodes c s') /\ (h, a, b) <> (h', a', b') /\ c h a b = c h' a' b').
  Proof.
    intros eq_dec c acc s s' HA Hs Hs' Hn Hn' Hf. rewrite (acc_eq_root dbg fuel c acc s s') by assumption. split.
    - apply same_up_root; assumption.
    - apply (tagged_merkle eq_dec); assumption.
  Qed.
  Theorem tagged_injective dbg fuel (c : nat -> A -> A -> A) acc s s' : (forall a b : A, {a = b} + {a <> b}) ->
    accumulator dbg fuel A c acc -> s <> [] -> s' <> [] ->
    (N.of_nat (length s) <= 2 ^ 63)%N -> (N.of_nat (length s') <= 2 ^ 63)%N -> 64 <= fuel ->
    (forall h a b h' a' b', c h a b = c h' a' b' -> (h, a, b) = (h', a', b')) -> (acc s = acc s' <-> same_up_to_padding s s').
  Proof.
    intros eq_dec HA Hs Hs' Hn Hn' Hf HI. destruct (tagged_binding dbg fuel eq_dec c acc s s' HA Hs Hs' Hn Hn' Hf) as [B1 B2]. split; [|exact B1].
    intros E. destruct (B2 E) as [P|(h & a & b & h' & a' & b' & _ & _ & N & C)]; [exact P|]. destruct (N (HI _ _ _ _ _ _ C)).
  Qed.

  Theorem untagged_binding dbg fuel : (forall a b : A, {a = b} + {a <> b}) ->
    forall (c : A -> A -> A) acc s s', accumulator dbg fuel A (fun _ => c) acc -> s <> [] -> s' <> [] ->
    (N.of_nat (length s) <= 2 ^ 63)%N -> (N.of_nat (length s') <= 2 ^ 63)%N -> 64 <= fuel ->
    (same_up_to_padding s s' \/ row_of c s s' \/ row_of c s' s -> acc s = acc s') /\
    (acc s = acc s' -> same_up_to_padding s s' \/ row_of c s s' \/ row_of c s' s \/
       exists h a b h' a' b', In (h, a, b) (merkle_nodes (fun _ => c) s) /\ In (h', a', b') (merkle_nodes (fun _ => c) s') /\ (a, b) <> (a', b') /\ c a b = c a' b').
  Proof.
    intros eq_dec c acc s s' HA Hs Hs' Hn Hn' Hf. rewrite (acc_eq_root dbg fuel (fun _ => c) acc s s') by assumption. split.
    - intros [H|[H|H]]; [apply same_up_root; assumption|apply row_of_root; assumption|symmetry; apply row_of_root; assumption].
    - apply (untagged_merkle eq_dec); assumption.
  Qed.
  Theorem untagged_injective dbg fuel (c : A -> A -> A) acc s s' : (forall a b : A, {a = b} + {a <> b}) ->
    accumulator dbg fuel A (fun _ => c) acc -> s <> [] -> s' <> [] ->
    (N.of_nat (length s) <= 2 ^ 63)%N -> (N.of_nat (length s') <= 2 ^ 63)%N -> 64 <= fuel ->
    (forall a b a' b', c a b = c a' b' -> (a, b) = (a', b')) -> (acc s = acc s' <-> same_up_to_padding s s' \/ row_of c s s' \/ row_of c s' s).
  Proof.
    intros eq_dec HA Hs Hs' Hn Hn' Hf HI. destruct (untagged_binding dbg fuel eq_dec c acc s s' HA Hs Hs' Hn Hn' Hf) as [B1 B2]. split; [|exact B1].
    intros E. destruct (B2 E) as [P|[P|[P|(h & a & b & h' & a' & b' & _ & _ & N & C)]]]; auto. destruct (N (HI _ _ _ _ C)).
  Qed.
End Acc.

(** ** digests: nodes of fixed length *)
Section Digest.
  Context {B : Type} (w : nat) (hash : list B -> list B) (Hw : forall m, length (hash m) = w).
  Notation c := (fun l r : list B => hash (l ++ r)).
  Lemma root_width k : forall l d, Forall (fun x => length x = w) l -> length l = 2 ^ k -> length (tree_root (fun _ => c) d k l) = w.
  Proof.
    destruct k as [|k]; intros l d Hl Ln; [|apply Hw]. destruct l as [|a l]; [discriminate|]. inversion Hl; subst. reflexivity.
  Qed.
  Lemma nodes_width k : forall l d, Forall (fun x => length x = w) l -> length l = 2 ^ k -> forall h a b, In (h, a, b) (tree_nodes (fun _ => c) d k l) -> length a = w /\ length b = w.
  Proof.
    induction k as [|k IH]; intros l d Hl Ln h a b Hi; [destruct Hi|]. destruct (half_lengths k l Ln) as [L1 L2].
    assert (F1 : Forall (fun x => length x = w) (firstn (2 ^ k) l)) by (apply Forall_forall; intros x Hx; rewrite Forall_forall in Hl; apply Hl; rewrite <- (firstn_skipn (2 ^ k) l); apply in_or_app; auto).
    assert (F2 : Forall (fun x => length x = w) (skipn (2 ^ k) l)) by (apply Forall_forall; intros x Hx; rewrite Forall_forall in Hl; apply Hl; rewrite <- (firstn_skipn (2 ^ k) l); apply in_or_app; auto).
    cbn [tree_nodes] in Hi. destruct Hi as [E|Hi].
    - injection E as _ <- <-. split; apply root_width; assumption.
    - apply in_app_or in Hi. destruct Hi as [Hi|Hi]; [exact (IH _ d F1 L1 h a b Hi)|exact (IH _ d F2 L2 h a b Hi)].
  Qed.
  Lemma padded_width (s : list (list B)) : Forall (fun x => length x = w) s -> Forall (fun x => length x = w) (padded s).
  Proof.
    intros H. destruct s as [|d s1]; [constructor|]. set (s := d :: s1) in *. rewrite (padded_last s d) by discriminate. apply Forall_app. split; [exact H|].
    apply Forall_forall. intros x Hx. apply repeat_spec in Hx. subst x. rewrite Forall_forall in H. apply H. rewrite (last_nth s d). apply nth_In. unfold s. cbn [length]. lia.
  Qed.
  Lemma merkle_nodes_width s : s <> [] -> Forall (fun x => length x = w) s -> forall h a b, In (h, a, b) (merkle_nodes (fun _ => c) s) -> length a = w /\ length b = w.
  Proof.
    intros Hs H h a b Hi. rewrite (nodes_of _ s [] Hs) in Hi. exact (nodes_width _ _ _ (padded_width s H) (padded_length s Hs) h a b Hi).
  Qed.
  Lemma app_width (a b a' b' : list B) : length a = length a' -> a ++ b = a' ++ b' -> (a, b) = (a', b').
  Proof.
    revert a'. induction a as [|x a IH]; intros a' L E; destruct a' as [|x' a']; try discriminate; [cbn in E; congruence|].
    cbn in E. injection E as -> E. cbn [length] in L. specialize (IH a' ltac:(lia) E). congruence.
  Qed.

  Theorem digest_binding (H : Type) (h_new : H) upd fin absorbed : digest_contract h_new upd fin hash absorbed ->
    (forall a b : B, {a = b} + {a <> b}) ->
    forall dbg fuel s s', s <> [] -> s' <> [] -> Forall (fun x => length x = w) s -> Forall (fun x => length x = w) s' ->
    (N.of_nat (length s) <= 2 ^ 63)%N -> (N.of_nat (length s') <= 2 ^ 63)%N -> 64 <= fuel ->
    fst (f2_accumulate upd fin dbg fuel s h_new) = fst (f2_accumulate upd fin dbg fuel s' h_new) ->
    same_up_to_padding s s' \/ row_of c s s' \/ row_of c s' s \/
    exists m m', In m (map (fun '(_, l, r) => l ++ r) (merkle_nodes (fun _ => c) s)) /\ In m' (map (fun '(_, l, r) => l ++ r) (merkle_nodes (fun _ => c) s')) /\
      m <> m' /\ hash m = hash m'.
  Proof.
    intros D eq_dec dbg fuel s s' Hs Hs' F1 F2 Hn Hn' Hf E. pose proof (acc_f2 dbg fuel B H h_new upd fin hash absorbed D []) as HA.
    destruct (proj2 (untagged_binding dbg fuel (list_eq_dec eq_dec) c _ s s' HA Hs Hs' Hn Hn' Hf) E) as [P|[P|[P|(h & a & b & h' & a' & b' & I1 & I2 & N & C)]]]; auto.
    do 3 right. exists (a ++ b), (a' ++ b'). split; [exact (in_map (fun '(_, l, r) => l ++ r) _ _ I1)|]. split; [exact (in_map (fun '(_, l, r) => l ++ r) _ _ I2)|]. split; [|exact C].
    intros G. apply N. apply app_width; [|exact G]. destruct (merkle_nodes_width s Hs F1 _ _ _ I1) as [-> _]. destruct (merkle_nodes_width s' Hs' F2 _ _ _ I2) as [-> _]. reflexivity.
  Qed.
End Digest.
