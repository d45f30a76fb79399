(** * ProofGmTrail: active S-boxes of GMiMC *)
From Verif Require Import Base Field Spec FieldPow LinAlg LoopLemmas Bij SpecPoseidon2 SpecGmimc SpecFirst SpecFields ModelGmimc ModelFields
  ProofPoseidon2 ProofGmimc.
From Verif Require Import F13.
From Verif Require ProofFieldFacts.

(** ** Rotating words and one active position, in general *)
Section Rot.
  Context {A : Type} (z : A) (t : nat) (Ht : 1 <= t) (e : nat -> nat -> A) (act : nat -> bool).
  Context (H1 : forall k w, act k = false -> e (S k) w = e k w).
  Context (H2 : forall k w, (w + k) mod t = 0 -> e (S k) w = e k w).
  Context (H4 : forall k w, (w + k) mod t = 0 -> (act k = false <-> e k w = z)).

  Lemma act_front k w : (w + k) mod t = 0 -> (act k = true <-> e k w <> z).
  Proof.
    intros H. pose proof (H4 k w H) as [A1 A2]. destruct (act k).
    - split; [|reflexivity]. intros _ E. apply A2 in E. discriminate E.
    - split; [discriminate|]. intros N. destruct N. apply A1. reflexivity.
  Qed.
  Lemma quiet a b w : a <= b -> (forall j, a <= j < b -> act j = false) -> e b w = e a w.
  Proof.
    intros Hab. induction Hab as [|b Hab IH]; intros H; [reflexivity|]. rewrite H1 by (apply H; lia). apply IH. intros j Hj. apply H. lia.
  Qed.
  Lemma search a n : (forall j, a <= j < a + n -> act j = false) \/
    (exists j, a <= j < a + n /\ act j = true /\ forall i, a <= i < j -> act i = false).
  Proof.
    induction n as [|n IH]; [left; intros j Hj; lia|]. destruct IH as [IH|[j [Hj [Aj Lj]]]].
    - destruct (act (a + n)) eqn:E.
      + right. exists (a + n). split; [lia|]. split; [exact E|]. intros i Hi. apply IH. lia.
      + left. intros j Hj. destruct (Nat.eq_dec j (a + n)) as [->|N]; [exact E|]. apply IH. lia.
    - right. exists j. split; [lia|]. split; [exact Aj|exact Lj].
  Qed.
  Lemma front k : exists w, (w + k) mod t = 0.
  Proof.
    exists (t - k mod t). pose proof (Nat.mod_upper_bound k t ltac:(lia)). pose proof (Nat.div_mod k t ltac:(lia)) as E.
    replace (t - k mod t + k) with ((1 + k / t) * t) by lia. apply Nat.mod_mul. lia.
  Qed.
  Lemma front_again w k : (w + k) mod t = 0 -> (w + (k + t)) mod t = 0.
  Proof. intros H. replace (w + (k + t)) with (w + k + 1 * t) by lia. rewrite Nat.mod_add by lia. exact H. Qed.
  Lemma front_other w k j : (w + k) mod t = 0 -> 1 <= j < t -> (w + (k + j)) mod t <> 0.
  Proof. intros H Hj. rewrite Nat.add_assoc, <- Nat.add_mod_idemp_l, H by lia. rewrite Nat.add_0_l, Nat.mod_small by lia. lia. Qed.

  Lemma next_active k : act k = true -> exists j, k < j <= k + t /\ act j = true.
  Proof.
    intros Ak. destruct (search (S k) (t - 1)) as [Q|[j [Hj [Aj _]]]]; [|exists j; split; [lia|exact Aj]].
    destruct (front k) as [w Hw]. exists (k + t). split; [lia|].
    apply (act_front (k + t) w); [apply front_again; exact Hw|]. rewrite (quiet (S k)) by (try lia; intros j Hj; apply Q; lia).
    rewrite H2 by exact Hw. apply (act_front k w Hw). exact Ak.
  Qed.
  Lemma first_active w : w < t -> e 0 w <> z -> exists j, j < t /\ act j = true.
  Proof.
    intros Hw N. destruct (search 0 t) as [Q|[j [Hj [Aj _]]]]; [|exists j; split; [lia|exact Aj]].
    exists ((t - w) mod t). pose proof (Nat.mod_upper_bound (t - w) t ltac:(lia)) as B. split; [exact B|].
    apply (act_front _ w).
    - rewrite Nat.add_mod_idemp_r by lia. replace (w + (t - w)) with (1 * t) by lia. apply Nat.mod_mul. lia.
    - rewrite (quiet 0) by (try lia; intros j Hj; apply Q; lia). exact N.
  Qed.

  Definition cnt (n : nat) : nat := length (filter act (seq 0 n)).
  Lemma cnt_S n : cnt (S n) = cnt n + if act n then 1 else 0.
  Proof. unfold cnt. rewrite seq_S, filter_app, app_length. cbn [Nat.add filter]. destruct (act n); reflexivity. Qed.
  Lemma cnt_mono a b : a <= b -> cnt a <= cnt b.
  Proof. intros H. induction H as [|b H IH]; [lia|]. rewrite cnt_S. lia. Qed.
  Lemma cnt_more k a : k < a -> act a = true -> cnt (S k) + 1 <= cnt (S a).
  Proof. intros H Aa. rewrite (cnt_S a), Aa. pose proof (cnt_mono (S k) a ltac:(lia)). lia. Qed.

  Lemma count_one w m : w < t -> e 0 w <> z -> m <= cnt (m * t).
  Proof.
    intros Hw N. destruct m as [|m]; [lia|]. destruct (first_active w Hw N) as [j0 [Hj0 Aj0]].
    assert (G : exists a, a <= t - 1 + m * t /\ act a = true /\ m + 1 <= cnt (S a)).
    { induction m as [|m [a [Ha [Aa Ca]]]].
      - exists j0. split; [lia|]. split; [exact Aj0|]. rewrite cnt_S, Aj0. lia.
      - destruct (next_active a Aa) as [b [Hb Ab]]. exists b. split; [lia|]. split; [exact Ab|]. pose proof (cnt_more a b ltac:(lia) Ab). lia. }
    destruct G as [a [Ha [_ Ca]]]. pose proof (cnt_mono (S a) (S m * t) ltac:(lia)). lia.
  Qed.

  Context (H3 : forall k w, act k = true -> (w + k) mod t <> 0 -> e k w = z -> e (S k) w <> z).
  Lemma two_more k : act k = true -> exists a b, k < a < b /\ b <= k + (t + 1) /\ act a = true /\ act b = true.
  Proof.
    intros Ak. destruct (search (S k) t) as [Q|[a [Ha [Aa La]]]].
    - destruct (next_active k Ak) as [j [Hj Aj]]. rewrite Q in Aj by lia. discriminate Aj.
    - destruct (Nat.eq_dec a (S k)) as [E|N].
      + destruct (next_active a Aa) as [b [Hb Ab]]. exists a, b. split; [lia|]. split; [lia|]. split; assumption.
      + destruct (front (S k)) as [w Hw].
        assert (Ea : e a w = z).
        { rewrite (quiet (S k)) by (try lia; intros j Hj; apply La; lia). apply (H4 (S k) w Hw). apply La. lia. }
        assert (Nf : (w + a) mod t <> 0) by (replace a with (S k + (a - S k)) by lia; apply front_other; [exact Hw|lia]).
        destruct (search (S a) (k + t + 1 - S a)) as [Q|[b [Hb [Ab _]]]]; [|exists a, b; split; [lia|]; split; [lia|]; split; assumption].
        exists a, (k + t + 1). split; [lia|]. split; [lia|]. split; [exact Aa|].
        apply (act_front _ w); [replace (k + t + 1) with (S k + t) by lia; apply front_again; exact Hw|].
        rewrite (quiet (S a)) by (try lia; intros j Hj; apply Q; lia). apply H3; assumption.
  Qed.
  Lemma count_two w m : w < t -> e 0 w <> z -> 2 * m + 1 <= cnt (t + m * (t + 1)).
  Proof.
    intros Hw N. destruct (first_active w Hw N) as [j0 [Hj0 Aj0]].
    assert (G : exists a, a <= t - 1 + m * (t + 1) /\ act a = true /\ 2 * m + 1 <= cnt (S a)).
    { induction m as [|m [a [Ha [Aa Ca]]]].
      - exists j0. split; [lia|]. split; [exact Aj0|]. rewrite cnt_S, Aj0. lia.
      - destruct (two_more a Aa) as [b [c [Hb [Hc [Ab Ac]]]]]. exists c. split; [lia|]. split; [exact Ac|].
        pose proof (cnt_more a b ltac:(lia) Ab). pose proof (cnt_more b c ltac:(lia) Ac). lia. }
    destruct G as [a [Ha [_ Ca]]]. pose proof (cnt_mono (S a) (t + m * (t + 1)) ltac:(lia)). lia.
  Qed.
End Rot.

(** ** GMiMC *)
Section GmTrail.
  Context {F : Type} {Fo : FOps F} (HF : is_field Fo).
  Add Ring FringGmT : (ff_ring _ HF).

  Definition gm_at (P : GmimcParams F) (lo k : nat) (x : list F) : list F :=
    fold_left (fun s r => gm_ref_rotate (gm_t P) (gm_ref_round (gm_t P) (gm_d P) (nth r (gm_rc P) f0) s)) (seq lo k) x.
  Lemma gm_at_S P lo k x : gm_at P lo (S k) x =
    gm_ref_rotate (gm_t P) (gm_ref_round (gm_t P) (gm_d P) (nth (lo + k) (gm_rc P) f0) (gm_at P lo k x)).
  Proof. unfold gm_at. rewrite seq_S, fold_left_app. reflexivity. Qed.
  Lemma gm_at_length P lo k x : length x = gm_t P -> length (gm_at P lo k x) = gm_t P.
  Proof. intros Hx. destruct k as [|k]; [exact Hx|]. rewrite gm_at_S. apply gm_ref_rotate_length. Qed.

  Lemma gm_states P lo n x : gm_wf P -> 1 <= gm_t P -> length x = gm_t P -> lo + n <= gm_rounds P + 1 ->
    states (fun r s => s <- gm_round P s r ;; rotate_right s 1) lo n x (fun k => gm_at P lo k x).
  Proof.
    intros [Hd Hrc] Ht Hx Hn k Hk. induction k as [|k IH].
    - rewrite Nat.add_0_r, for_range_empty by lia. reflexivity.
    - rewrite Nat.add_succ_r, for_range_last by lia. rewrite IH by lia. cbn [bind]. rewrite gm_at_S.
      rewrite (gm_round_ok HF) by (try assumption; try rewrite gm_at_length by exact Hx; lia). cbn [bind].
      rewrite gm_at_length by exact Hx. apply gm_rot; [apply gm_ref_round_length|exact Ht].
  Qed.

  Lemma rot_next t (s : list F) q : q < t -> nth (S q mod t) (gm_ref_rotate t s) f0 = nth q s f0.
  Proof.
    intros Hq. unfold gm_ref_rotate. destruct (Nat.eq_dec q (t - 1)) as [->|N].
    - replace (S (t - 1)) with t by lia. rewrite Nat.mod_same by lia. rewrite nth_map_seq by lia. reflexivity.
    - rewrite Nat.mod_small by lia. rewrite nth_map_seq by lia. reflexivity.
  Qed.
  (** the word that starts at position w *)
  Definition word (P : GmimcParams F) lo x (k w : nat) : F := nth ((w + k) mod gm_t P) (gm_at P lo k x) f0.
  Lemma word_S P lo x k w : 1 <= gm_t P -> word P lo x (S k) w =
    if (w + k) mod gm_t P =? 0 then word P lo x k w
    else fadd (word P lo x k w) (fpow (fadd (nth 0 (gm_at P lo k x) f0) (nth (lo + k) (gm_rc P) f0)) (gm_d P)).
  Proof.
    intros Ht. unfold word. pose proof (Nat.mod_upper_bound (w + k) (gm_t P) ltac:(lia)) as B.
    assert (E : (w + S k) mod gm_t P = S ((w + k) mod gm_t P) mod gm_t P).
    { rewrite <- (Nat.add_1_r ((w + k) mod gm_t P)), Nat.add_mod_idemp_l by lia. f_equal. lia. }
    rewrite E, gm_at_S, rot_next by exact B. unfold gm_ref_round. rewrite nth_map_seq by exact B.
    destruct (Nat.eqb_spec ((w + k) mod gm_t P) 0) as [->|N]; reflexivity.
  Qed.

  Section Two.
    Context (P : GmimcParams F) (lo : nat) (x y : list F) (Ht : 1 <= gm_t P) (Hx : length x = gm_t P) (Hy : length y = gm_t P) (Hne : x <> y).
    Let e k w := fsub (word P lo x k w) (word P lo y k w).
    Let act k := negb (feqb (nth 0 (gm_at P lo k x) f0) (nth 0 (gm_at P lo k y) f0)).
    Lemma act_false k : act k = false -> nth 0 (gm_at P lo k x) f0 = nth 0 (gm_at P lo k y) f0.
    Proof. unfold act. intros H. apply negb_false_iff in H. apply (ff_eqb _ HF). exact H. Qed.
    Lemma gt_H1 k w : act k = false -> e (S k) w = e k w.
    Proof. intros H. apply act_false in H. unfold e. rewrite !word_S, H by exact Ht. destruct (_ =? 0); [reflexivity|ring]. Qed.
    Lemma gt_H2 k w : (w + k) mod gm_t P = 0 -> e (S k) w = e k w.
    Proof. intros H. unfold e. rewrite !word_S by exact Ht. rewrite H. reflexivity. Qed.
    Lemma gt_H4 k w : (w + k) mod gm_t P = 0 -> (act k = false <-> e k w = f0).
    Proof.
      intros H. unfold e, word. rewrite H. split.
      - intros A. apply act_false in A. rewrite A. ring.
      - intros E. apply (fsub_eq_0 HF) in E. unfold act. rewrite E, (feqb_refl HF). reflexivity.
    Qed.
    Lemma gt_H3 : (forall a b : F, fpow a (gm_d P) = fpow b (gm_d P) -> a = b) ->
      forall k w, act k = true -> (w + k) mod gm_t P <> 0 -> e k w = f0 -> e (S k) w <> f0.
    Proof.
      intros Hinj k w A N E C. unfold e in *. apply (fsub_eq_0 HF) in E. rewrite !word_S in C by exact Ht.
      rewrite (proj2 (Nat.eqb_neq _ _) N) in C. apply (fsub_eq_0 HF) in C. rewrite E in C.
      match type of C with fadd ?a ?b = fadd ?a ?c => assert (C' : b = c) by (transitivity (fsub (fadd a b) a); [ring|rewrite C; ring]) end.
      apply Hinj in C'.
      match type of C' with fadd ?a ?b = fadd ?c ?b => assert (C2 : a = c) by (transitivity (fsub (fadd a b) b); [ring|rewrite C'; ring]) end.
      unfold act in A. rewrite C2, (feqb_refl HF) in A. discriminate A.
    Qed.
    Lemma gt_start : exists w, w < gm_t P /\ e 0 w <> f0.
    Proof.
      assert (D : ~ forall w, w < gm_t P -> e 0 w = f0).
      { intros H. apply Hne. apply (list_ext f0); [lia|]. intros i Hi. specialize (H i ltac:(lia)). unfold e, word in H.
        rewrite Nat.add_0_r, Nat.mod_small in H by lia. apply (fsub_eq_0 HF) in H. exact H. }
      assert (G : forall n, (forall w, w < n -> e 0 w = f0) \/ exists w, w < n /\ e 0 w <> f0).
      { induction n as [|n [IH|[w [Hw Ew]]]]; [left; intros w Hw; lia| |right; exists w; split; [lia|exact Ew]].
        destruct (feqb (e 0 n) f0) eqn:E.
        - apply (ff_eqb _ HF) in E. left. intros w Hw. destruct (Nat.eq_dec w n) as [->|N]; [exact E|]. apply IH. lia.
        - right. exists n. split; [lia|]. intros C. rewrite C, (feqb_refl HF) in E. discriminate E. }
      destruct (G (gm_t P)) as [H|H]; [contradiction|exact H].
    Qed.
    Lemma gt_one m : m <= first_differ (m * gm_t P) (fun k => gm_at P lo k x) (fun k => gm_at P lo k y).
    Proof. destruct gt_start as [w [Hw Ew]]. exact (count_one f0 (gm_t P) Ht e act gt_H1 gt_H2 gt_H4 w m Hw Ew). Qed.
    Lemma gt_two m : (forall a b : F, fpow a (gm_d P) = fpow b (gm_d P) -> a = b) ->
      2 * m + 1 <= first_differ (gm_t P + m * (gm_t P + 1)) (fun k => gm_at P lo k x) (fun k => gm_at P lo k y).
    Proof. intros Hinj. destruct gt_start as [w [Hw Ew]]. exact (count_two f0 (gm_t P) Ht e act gt_H1 gt_H2 gt_H4 (gt_H3 Hinj) w m Hw Ew). Qed.
  End Two.

  Notation body P := (fun r s => s <- gm_round P s r ;; rotate_right s 1).

  Theorem gm_active_any rng t d rounds (P : GmimcParams F) x y lo m :
    gm_new rng t d rounds = Ok P -> 1 <= t -> length x = t -> length y = t -> x <> y -> lo + m * t <= rounds ->
    exists st st', states (body P) lo (m * t) x st /\ states (body P) lo (m * t) y st' /\ m <= first_differ (m * t) st st'.
  Proof.
    intros HN Ht Hx Hy Hne Hlo. apply gm_new_ok in HN as [Hd [EP HW]].
    assert (Et : gm_t P = t) by (rewrite EP; reflexivity). assert (Er : gm_rounds P = rounds) by (rewrite EP; reflexivity). clear EP.
    exists (fun k => gm_at P lo k x), (fun k => gm_at P lo k y).
    split; [apply gm_states; try assumption; lia|]. split; [apply gm_states; try assumption; lia|].
    rewrite <- Et. apply gt_one; try assumption; lia.
  Qed.
  Theorem gm_active_inj rng t d rounds (P : GmimcParams F) x y lo m : (forall a b : F, fpow a d = fpow b d -> a = b) ->
    gm_new rng t d rounds = Ok P -> 1 <= t -> length x = t -> length y = t -> x <> y -> lo + (t + m * (t + 1)) <= rounds ->
    exists st st', states (body P) lo (t + m * (t + 1)) x st /\ states (body P) lo (t + m * (t + 1)) y st' /\
      2 * m + 1 <= first_differ (t + m * (t + 1)) st st'.
  Proof.
    intros Hinj HN Ht Hx Hy Hne Hlo. apply gm_new_ok in HN as [Hd [EP HW]].
    assert (Et : gm_t P = t) by (rewrite EP; reflexivity). assert (Er : gm_rounds P = rounds) by (rewrite EP; reflexivity).
    assert (Ed : gm_d P = d) by (rewrite EP; reflexivity). clear EP.
    exists (fun k => gm_at P lo k x), (fun k => gm_at P lo k y).
    split; [apply gm_states; try assumption; lia|]. split; [apply gm_states; try assumption; lia|].
    rewrite <- Et. apply gt_two; try assumption; try lia. rewrite Ed. exact Hinj.
  Qed.

  (** words that have not come first keep their differences *)
  Lemma word_early P lo x k i : 1 <= gm_t P -> 1 <= i -> i + k <= gm_t P - 1 -> word P lo x k i = nth (i + k) (gm_at P lo k x) f0.
  Proof. intros Ht Hi Hk. unfold word. rewrite Nat.mod_small by lia. reflexivity. Qed.
  Lemma word_diff P lo x i j k : 1 <= gm_t P -> 1 <= i -> 1 <= j -> i + k <= gm_t P - 1 -> j + k <= gm_t P - 1 ->
    fsub (word P lo x k i) (word P lo x k j) = fsub (word P lo x 0 i) (word P lo x 0 j).
  Proof.
    intros Ht Hi Hj. induction k as [|k IH]; intros Bi Bj; [reflexivity|]. rewrite <- IH by lia. rewrite !word_S by exact Ht.
    rewrite !Nat.mod_small by lia. rewrite !(proj2 (Nat.eqb_neq _ _)) by lia. ring.
  Qed.
  Theorem gm_linear rng t d rounds (P : GmimcParams F) x lo n i j :
    gm_new rng t d rounds = Ok P -> length x = t -> lo + n <= rounds -> 1 <= i -> 1 <= j -> i + n <= t - 1 -> j + n <= t - 1 ->
    exists y, for_range lo (lo + n) (body P) x = Ok y /\
      fsub (nth (i + n) y f0) (nth (j + n) y f0) = fsub (nth i x f0) (nth j x f0).
  Proof.
    intros HN Hx Hlo Hi Hj Bi Bj. apply gm_new_ok in HN as [Hd [EP HW]].
    assert (Et : gm_t P = t) by (rewrite EP; reflexivity). assert (Er : gm_rounds P = rounds) by (rewrite EP; reflexivity). clear EP.
    exists (gm_at P lo n x). split; [apply (gm_states P lo (S n) x); try assumption; lia|].
    rewrite <- !word_early by lia. rewrite word_diff by lia. unfold word. rewrite !Nat.add_0_r, !Nat.mod_small by lia. reflexivity.
  Qed.

  Theorem gm_quiet rng t d rounds (P : GmimcParams F) x y lo :
    gm_new rng t d rounds = Ok P -> 2 <= t -> length x = t -> length y = t -> (forall i, i < t -> i <> 1 -> nth i x f0 = nth i y f0) ->
    lo + (t - 1) <= rounds ->
    exists st st', states (body P) lo (t - 1) x st /\ states (body P) lo (t - 1) y st' /\ first_differ (t - 1) st st' = 0.
  Proof.
    intros HN Ht Hx Hy Hd1 Hlo. apply gm_new_ok in HN as [Hd [EP HW]].
    assert (Et : gm_t P = t) by (rewrite EP; reflexivity). assert (Er : gm_rounds P = rounds) by (rewrite EP; reflexivity). clear EP.
    exists (fun k => gm_at P lo k x), (fun k => gm_at P lo k y).
    split; [apply gm_states; try assumption; lia|]. split; [apply gm_states; try assumption; lia|].
    assert (G : forall k, k <= t - 2 -> forall w, w < t -> w <> 1 -> word P lo x k w = word P lo y k w).
    { induction k as [|k IH]; intros Hk w Hw Nw.
      - unfold word. rewrite Et, Nat.add_0_r, Nat.mod_small by lia. apply Hd1; assumption.
      - rewrite !word_S by lia. rewrite (IH ltac:(lia) w Hw Nw).
        assert (E : nth 0 (gm_at P lo k x) f0 = nth 0 (gm_at P lo k y) f0).
        { destruct k as [|k]; [apply Hd1; lia|]. pose proof (IH ltac:(lia) (t - S k) ltac:(lia) ltac:(lia)) as E. unfold word in E.
          replace (t - S k + S k) with t in E by lia. rewrite Et, Nat.mod_same in E by lia. exact E. }
        rewrite E. reflexivity. }
    unfold first_differ.
    assert (Z : filter (fun k => negb (feqb (nth 0 (gm_at P lo k x) f0) (nth 0 (gm_at P lo k y) f0))) (seq 0 (t - 1)) = []).
    { assert (Q : forall l f, (forall k : nat, In k l -> f k = false) -> filter f l = []).
      { intros l f. induction l as [|a l IH]; intros Q; [reflexivity|]. cbn. rewrite Q by (left; reflexivity). apply IH. intros k Hk. apply Q. right. exact Hk. }
      apply Q. intros k Hk. apply in_seq in Hk. apply negb_false_iff.
      assert (E : nth 0 (gm_at P lo k x) f0 = nth 0 (gm_at P lo k y) f0); [|rewrite E; apply (feqb_refl HF)].
      destruct k as [|k]; [apply Hd1; lia|]. pose proof (G (S k) ltac:(lia) (t - S k) ltac:(lia) ltac:(lia)) as E. unfold word in E.
      replace (t - S k + S k) with t in E by lia. rewrite Et, Nat.mod_same in E by lia. exact E. }
    cbv beta. rewrite Z. reflexivity.
  Qed.

  Theorem gm_opt_inputs rng t d rounds (P : GmimcParams F) x k :
    gm_new rng t d rounds = Ok P -> 2 <= t -> length x = t -> k <= rounds ->
    exists cur acc queue s,
      for_range 0 k (fun r '(cur, acc, queue) =>
        '(acc, queue) <- gm_step P r cur acc queue ;;
        cur <- rotate_right cur 1 ;;
        c0 <- idx cur 0 ;;
        cur <- upd cur 0 (fadd c0 acc) ;;
        Ok (cur, acc, queue)) (x, f0, repeat f0 (t - 1)) = Ok (cur, acc, queue) /\
      for_range 0 k (body P) x = Ok s /\ nth 0 cur f0 = nth 0 s f0.
  Proof.
    intros HN Ht Hx Hk. apply gm_new_ok in HN as [Hd [EP HW]].
    assert (Et : gm_t P = t) by (rewrite EP; reflexivity). assert (Er : gm_rounds P = rounds) by (rewrite EP; reflexivity). clear EP.
    destruct HW as [Hd' Hrc].
    destruct (gm_opt_loop HF P k x Hd' ltac:(lia) ltac:(lia) ltac:(lia)) as [cur [acc [q [E [_ [_ [_ V]]]]]]]. rewrite Et in E.
    exists cur, acc, q, (gm_mid P k x). split; [exact E|]. split.
    - exact (gm_states P 0 (S k) x (conj Hd' Hrc) ltac:(lia) ltac:(lia) ltac:(lia) k ltac:(lia)).
    - rewrite V by lia. cbn [Nat.sub sumn]. ring.
  Qed.

  Theorem gm_width_1 dbg rng d rounds (P : GmimcParams F) a : gm_new rng 1 d rounds = Ok P -> 1 <= rounds -> gm_permutation dbg P [a] = Ok [a].
  Proof.
    intros HN Hr. apply gm_new_ok in HN as [Hd [EP HW]]. unfold gm_permutation. replace (gm_t P <? 8) with true by (rewrite EP; reflexivity).
    rewrite (gm_not_opt_ref HF) by (try assumption; rewrite EP; cbn; lia). f_equal. rewrite EP. cbn [gm_t gm_d gm_rounds gm_rc].
    unfold gm_ref. generalize (rounds - 1) at 2. intros n.
    assert (G : forall l, fold_left (fun s r => gm_ref_rotate 1 (gm_ref_round 1 d (nth r (map rng (seq 0 rounds)) f0) s)) l [a] = [a]).
    { induction l as [|r l IH]; [reflexivity|]. cbn [fold_left]. exact IH. }
    rewrite G. reflexivity.
  Qed.
End GmTrail.

Theorem gm_active_gcd F (Fo : FOps F) p rng t d rounds (P : GmimcParams F) x y lo m : is_prime_field Fo p -> Z.gcd (Z.of_nat d) (p - 1) = 1%Z ->
  gm_new rng t d rounds = Ok P -> 1 <= t -> length x = t -> length y = t -> x <> y -> lo + (t + m * (t + 1)) <= rounds ->
  exists st st', states (fun r s => s <- gm_round P s r ;; rotate_right s 1) lo (t + m * (t + 1)) x st /\
    states (fun r s => s <- gm_round P s r ;; rotate_right s 1) lo (t + m * (t + 1)) y st' /\
    2 * m + 1 <= first_differ (t + m * (t + 1)) st st'.
Proof.
  intros HP Hg HN. apply (gm_active_inj (prime_field_is_field HP) rng t d rounds); [|exact HN].
  assert (Hd : d <> 0).
  { intros ->. cbn in HN. discriminate HN. }
  destruct (pow_inverse HP d Hd Hg) as [r R1]. intros a b E. rewrite <- (proj1 (R1 a)), <- (proj1 (R1 b)), E. reflexivity.
Qed.

Theorem gm_active_shipped : forall J, In J gm_instances -> forall F (Fo : FOps F), is_prime_field Fo (gi_p J) ->
  forall rng (P : GmimcParams F) x y, gm_new rng (gi_t J) (gi_d J) (gi_rounds J) = Ok P ->
  length x = gi_t J -> length y = gi_t J -> x <> y ->
  let n := gi_t J + (gi_rounds J - gi_t J) / (gi_t J + 1) * (gi_t J + 1) in
  n <= gi_rounds J /\
  exists st st', states (fun r s => s <- gm_round P s r ;; rotate_right s 1) 0 n x st /\
    states (fun r s => s <- gm_round P s r ;; rotate_right s 1) 0 n y st' /\
    2 * ((gi_rounds J - gi_t J) / (gi_t J + 1)) + 1 <= first_differ n st st'.
Proof.
  intros J HJ F Fo HP rng P x y HN Hx Hy Hne n.
  assert (B : forallb (fun J => (1 <=? gi_t J) && (gi_t J <=? gi_rounds J)) gm_instances = true) by (vm_compute; reflexivity).
  rewrite forallb_forall in B. specialize (B J HJ). apply andb_true_iff in B as [B1 B2]. apply Nat.leb_le in B1, B2.
  assert (Hn : n <= gi_rounds J).
  { unfold n. pose proof (Nat.mul_div_le (gi_rounds J - gi_t J) (gi_t J + 1) ltac:(lia)). lia. }
  split; [exact Hn|]. unfold n in *. apply (gm_active_inj (prime_field_is_field HP) rng (gi_t J) (gi_d J) (gi_rounds J)); try assumption.
  refine (proj1 (proj2 (ProofFieldFacts.shipped_exponents (gi_p J) (gi_d J) _) F Fo HP)). unfold shipped_sboxes.
  apply in_or_app. left.
  apply in_map_iff. exists J. split; [reflexivity|exact HJ].
Qed.

(** the field with 13 elements and degree 3 *)
Definition gt_rng (i : nat) : F13 := e13 (let z := Z.of_nat i in z * z + 3 * z + 1)%Z.
Theorem gm_cube :
  ~ (forall F (Fo : FOps F) p rng t d rounds (P : GmimcParams F) x y lo m,
      is_prime_field Fo p ->
      gm_new rng t d rounds = Ok P -> 1 <= t -> length x = t -> length y = t -> x <> y -> lo + (t + m * (t + 1)) <= rounds ->
      exists st st', states (fun r s => s <- gm_round P s r ;; rotate_right s 1) lo (t + m * (t + 1)) x st /\
        states (fun r s => s <- gm_round P s r ;; rotate_right s 1) lo (t + m * (t + 1)) y st' /\
        2 * m + 1 <= first_differ (t + m * (t + 1)) st st').
Proof.
  intros H. destruct (gm_new gt_rng 3 3 7) as [P| |] eqn:EP; [|discriminate EP|discriminate EP].
  destruct (H _ _ _ gt_rng 3 3 7 P (l13 [0; 0; 8]%Z) (l13 [0; 0; 3]%Z) 0 1 F13_field EP) as [st [st' [S1 [S2 L]]]];
    [lia|reflexivity|reflexivity|intros C; apply (f_equal (map f_to_Z)) in C; vm_compute in C; discriminate C|lia|].
  set (g := fun (x : list F13) k => match (P <- gm_new gt_rng 3 3 7 ;;
    for_range 0 k (fun r s => s <- gm_round P s r ;; rotate_right s 1) x) with Ok s => s | _ => [] end).
  assert (G : forall x s, states (fun r s => s <- gm_round P s r ;; rotate_right s 1) 0 (3 + 1 * (3 + 1)) x s ->
    forall k, k < 7 -> s k = g x k).
  { intros x s HS k Hk. unfold g. rewrite EP. cbn [bind]. specialize (HS k Hk). cbn [Nat.add] in HS. rewrite HS. reflexivity. }
  assert (E : first_differ (3 + 1 * (3 + 1)) st st' = first_differ 7 (g (l13 [0; 0; 8]%Z)) (g (l13 [0; 0; 3]%Z))).
  { unfold first_differ. f_equal. apply filter_ext_in. intros k Hk. apply in_seq in Hk.
    rewrite (G _ _ S1) by lia. rewrite (G _ _ S2) by lia. reflexivity. }
  rewrite E in L. revert L. unfold g. vm_compute. lia.
Qed.
