(** * ProofWhole: S-boxes with different inputs over a whole permutation *)
From Verif Require Import Base Field Spec LoopLemmas SpecFirst SpecWhole.
Local Open Scope nat_scope.

Lemma for_range_join {St} lo mid hi (body : nat -> St -> res St) s : lo <= mid -> mid <= hi ->
  for_range lo hi body s = bind (for_range lo mid body s) (for_range mid hi body).
Proof.
  intros H1 H2. unfold for_range. replace (hi - lo) with ((mid - lo) + (hi - mid)) by lia. rewrite seq_app, for_list_app.
  replace (lo + (mid - lo)) with mid by lia. reflexivity.
Qed.
Lemma prefix_ok {St} lo hi (body : nat -> St -> res St) s y : for_range lo hi body s = Ok y ->
  forall k, lo <= k <= hi -> exists u, for_range lo k body s = Ok u.
Proof.
  intros H k Hk. rewrite (for_range_join lo k hi) in H by lia. destruct (for_range lo k body s) as [u| |]; [eauto|discriminate H|discriminate H].
Qed.

(** numbers of which any two neighbours add up to b *)
Lemma pair_sum (g : nat -> nat) b : forall k lo, (forall r, lo <= r < lo + k -> 1 <= g r) -> (forall r, lo <= r -> S r < lo + k -> b <= g r + g (S r)) ->
  k / 2 * b + k mod 2 <= list_sum (map g (seq lo k)).
Proof.
  intros k. induction k as [k IH] using lt_wf_ind. intros lo H1 H2. destruct k as [|[|k]]; [cbn; lia| |].
  - cbn. specialize (H1 lo ltac:(lia)). lia.
  - replace (S (S k)) with (k + 1 * 2) by lia. rewrite Nat.div_add, Nat.mod_add by lia. replace (k + 1 * 2) with (S (S k)) by lia.
    cbn [seq map]. specialize (IH k ltac:(lia) (S (S lo)) ltac:(intros; apply H1; lia) ltac:(intros; apply H2; lia)).
    specialize (H2 lo ltac:(lia) ltac:(lia)).
    change (list_sum (g lo :: g (S lo) :: map g (seq (S (S lo)) k))) with (g lo + (g (S lo) + list_sum (map g (seq (S (S lo)) k)))). lia.
Qed.

Section Whole.
  Context {F : Type} {Fo : FOps F}.
  Variables (t : nat) (act : list F -> list F -> nat) (perm start : list F -> res (list F)) (full part : nat -> list F -> res (list F)) (lo hi n b m : nat).
  Hypothesis Hlo : lo <= hi.
  Hypothesis Hhi : hi <= n.
  Hypothesis Hperm : forall x, length x = t -> perm x = (s <- start x ;; s <- for_range 0 lo full s ;; s <- for_range lo hi part s ;; for_range hi n full s).
  Hypothesis Hbij : bijective_on t perm.
  Hypothesis Lstart : forall x u, length x = t -> start x = Ok u -> length u = t.
  Hypothesis Lfull : forall r x u, r < lo \/ hi <= r < n -> length x = t -> full r x = Ok u -> length u = t.
  Hypothesis Lpart : forall r x u, lo <= r < hi -> length x = t -> part r x = Ok u -> length u = t.
  Hypothesis Hone : forall u v, length u = t -> length v = t -> u <> v -> 1 <= act u v.
  Hypothesis Hact : forall r u v u' v', r < lo \/ hi <= r < n -> length u = t -> length v = t -> u <> v -> full r u = Ok u' -> full r v = Ok v' ->
    b <= act u v + act u' v'.
  Hypothesis Hpart : active_rounds t part lo (hi - lo) m.

  Let round := mixed full part lo hi.
  Lemma round_full r x : r < lo \/ hi <= r -> round r x = full r x.
  Proof. intros H. unfold round, mixed. destruct (Nat.leb_spec lo r), (Nat.ltb_spec r hi); cbn [andb]; reflexivity || lia. Qed.
  Lemma round_part r x : lo <= r < hi -> round r x = part r x.
  Proof. intros H. unfold round, mixed. destruct (Nat.leb_spec lo r), (Nat.ltb_spec r hi); cbn [andb]; reflexivity || lia. Qed.
  Lemma round_length r x u : r < n -> length x = t -> round r x = Ok u -> length u = t.
  Proof.
    intros Hr Lx E. destruct (le_lt_dec lo r) as [A|A]; [destruct (le_lt_dec hi r) as [B|B]|].
    - rewrite round_full in E by lia. apply (Lfull r x); [lia|exact Lx|exact E].
    - rewrite round_part in E by lia. apply (Lpart r x); [lia|exact Lx|exact E].
    - rewrite round_full in E by lia. apply (Lfull r x); [lia|exact Lx|exact E].
  Qed.
  Lemma perm_loop x : length x = t -> perm x = (s <- start x ;; for_range 0 n round s).
  Proof.
    intros Lx. rewrite Hperm by exact Lx. apply bind_ext. intros s _. rewrite (for_range_join 0 lo n) by lia.
    rewrite (for_range_ext 0 lo round full) by (intros; apply round_full; lia). apply bind_ext. intros s1 _. rewrite (for_range_join lo hi n) by lia.
    rewrite (for_range_ext lo hi round part) by (intros; apply round_part; lia). apply bind_ext. intros s2 _.
    apply for_range_ext. intros; symmetry; apply round_full; lia.
  Qed.
  Lemma run_exists x : length x = t -> exists st, runs start round n perm x st /\ (forall k, k <= n -> length (st k) = t) /\
    (forall a k, a <= k <= n -> for_range a k round (st a) = Ok (st k)).
  Proof.
    intros Lx. destruct (proj1 Hbij x Lx) as [y [Ey Ly]]. rewrite perm_loop in Ey by exact Lx.
    destruct (start x) as [s| |] eqn:Es; try discriminate Ey. cbn [bind] in Ey.
    set (st := fun k => match for_range 0 k round s with Ok u => u | _ => [] end).
    assert (A : forall k, k <= n -> for_range 0 k round s = Ok (st k)).
    { intros k Hk. destruct (prefix_ok 0 n round s y Ey k ltac:(lia)) as [u Eu]. unfold st. rewrite Eu. reflexivity. }
    assert (S0 : st 0 = s) by reflexivity.
    assert (S1 : forall r, r < n -> round r (st r) = Ok (st (S r))).
    { intros r Hr. pose proof (A (S r) ltac:(lia)) as E. rewrite for_range_last, (A r) in E by lia. exact E. }
    assert (LL : forall k, k <= n -> length (st k) = t).
    { induction k as [|k IH]; intros Hk; [rewrite S0; apply (Lstart x s Lx Es)|]. apply (round_length k (st k)); [lia|apply IH; lia|apply S1; lia]. }
    exists st. split; [split; [rewrite S0; exact Es|split; [exact S1|]]|split; [exact LL|]].
    - rewrite perm_loop, Es by exact Lx. cbn [bind]. apply A. lia.
    - intros a k Hk. pose proof (A k ltac:(lia)) as E. rewrite (for_range_join 0 a k), (A a) in E by lia. exact E.
  Qed.

  Theorem whole : whole_active t act perm start full part lo hi n (lo / 2 * b + lo mod 2 + m + ((n - hi) / 2 * b + (n - hi) mod 2)).
  Proof.
    intros x y Lx Ly N. destruct (run_exists x Lx) as [st [Hx [L J]]]. destruct (run_exists y Ly) as [st' [Hy [L' J']]].
    exists st, st'. split; [exact Hx|]. split; [exact Hy|].
    assert (D : forall k, k <= n -> st k <> st' k).
    { intros k Hk E. apply N. apply (proj1 (proj2 Hbij) x y (st n) Lx Ly); [apply Hx|].
      replace (st n) with (st' n); [apply Hy|]. pose proof (J k n ltac:(lia)) as E1. pose proof (J' k n ltac:(lia)) as E2. rewrite E in E1. congruence. }
    destruct Hx as [_ [Hx _]]. destruct Hy as [_ [Hy _]].
    set (g := fun r => if (lo <=? r) && (r <? hi) then first_active (st r) (st' r) else act (st r) (st' r)).
    assert (G1 : forall r, r < n -> r < lo \/ hi <= r -> g r = act (st r) (st' r)).
    { intros r _ H. unfold g. destruct (Nat.leb_spec lo r), (Nat.ltb_spec r hi); cbn [andb]; reflexivity || lia. }
    assert (FULL : forall a k, a + k <= lo \/ hi <= a /\ a + k <= n -> k / 2 * b + k mod 2 <= list_sum (map g (seq a k))).
    { intros a k Hk. apply pair_sum.
      - intros r Hr. rewrite G1 by lia. apply Hone; [apply L; lia|apply L'; lia|apply D; lia].
      - intros r H1 H2. rewrite !G1 by lia. apply (Hact r); [lia|apply L; lia|apply L'; lia|apply D; lia| |].
        + rewrite <- round_full by lia. apply Hx. lia.
        + rewrite <- round_full by lia. apply Hy. lia. }
    assert (PART : m <= list_sum (map g (seq lo (hi - lo)))).
    { destruct (Hpart (st lo) (st' lo) (L lo ltac:(lia)) (L' lo ltac:(lia)) (D lo ltac:(lia))) as [q [q' [Hq [Hq' Hm]]]].
      assert (E : forall k, k < hi - lo -> q k = st (lo + k) /\ q' k = st' (lo + k)).
      { intros k Hk. pose proof (Hq k Hk) as A1. pose proof (Hq' k Hk) as A2.
        rewrite <- (for_range_ext lo (lo + k) round part) in A1 by (intros; apply round_part; lia).
        rewrite <- (for_range_ext lo (lo + k) round part) in A2 by (intros; apply round_part; lia).
        rewrite J in A1 by lia. rewrite J' in A2 by lia. split; congruence. }
      etransitivity; [exact Hm|]. apply Nat.eq_le_incl. unfold first_differ.
      assert (C : forall k a, (forall i, i < k -> a + i < hi - lo) ->
        length (filter (fun i => negb (feqb (nth 0 (q i) f0) (nth 0 (q' i) f0))) (seq a k)) = list_sum (map g (seq (lo + a) k))).
      { induction k as [|k IH]; intros a Ha; [reflexivity|]. cbn [seq filter map]. destruct (E a ltac:(specialize (Ha 0); lia)) as [-> ->].
        rewrite plus_n_Sm in *. specialize (IH (S a) ltac:(intros i Hi; specialize (Ha (S i)); lia)).
        change (list_sum (g (lo + a) :: ?l)) with (g (lo + a) + list_sum l).
        assert (Gr : g (lo + a) = first_active (st (lo + a)) (st' (lo + a))).
        { unfold g. specialize (Ha 0 ltac:(lia)). destruct (Nat.leb_spec lo (lo + a)), (Nat.ltb_spec (lo + a) hi); cbn [andb]; reflexivity || lia. }
        rewrite Gr. unfold first_active. destruct (feqb _ _); cbn [negb length]; rewrite IH; reflexivity. }
      rewrite (C (hi - lo) 0) by (intros; lia). rewrite Nat.add_0_r. reflexivity. }
    replace n with (lo + ((hi - lo) + (n - hi))) at 3 by lia. rewrite !seq_app, !map_app, !list_sum_app.
    pose proof (FULL 0 lo ltac:(lia)) as A. replace (0 + lo) with lo by lia. replace (lo + (hi - lo)) with hi by lia.
    pose proof (FULL hi (n - hi) ltac:(lia)) as B. lia.
  Qed.
End Whole.
