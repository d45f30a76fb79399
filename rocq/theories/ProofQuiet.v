(** * ProofQuiet: partial rounds whose S-boxes see no difference, for arbitrary parameters *)
From Verif Require Import Base Field Spec FieldPow LinAlg LoopLemmas Bij SpecPoseidon2 SpecPoseidon SpecNeptune SpecMinPoly SpecFirst LinOp
  ModelPoseidon2 ModelPoseidon ModelNeptune ModelSubspace ProofPoseidon2 ProofPoseidon ProofNeptune ProofNeptuneParams ProofNeptuneBij ProofBranch2.
From Verif Require ProofSubspaceMeaning.
Local Open Scope nat_scope.

Section Quiet.
  Context {F : Type} {Fo : FOps F} (HF : is_field Fo).
  Add Ring FringQu : (ff_ring _ HF).

  Lemma zeros_or_not (f : nat -> bool) n : (forall k, k < n -> f k = false) \/ exists k, k < n /\ f k = true.
  Proof.
    induction n as [|n [IH|[k [Hk E]]]]; [left; lia| |right; exists k; split; [lia|exact E]].
    destruct (f n) eqn:E; [right; exists n; split; [lia|exact E]|]. left. intros k Hk. destruct (Nat.eq_dec k n) as [->|N]; [exact E|apply IH; lia].
  Qed.
  Lemma first_differ_0 n (st st' : nat -> list F) : (forall k, k < n -> nth 0 (st k) f0 = nth 0 (st' k) f0) -> first_differ n st st' = 0.
  Proof.
    intros H. unfold first_differ. induction n as [|n IH]; [reflexivity|]. rewrite seq_S, filter_app, app_length, IH by (intros k Hk; apply H; lia).
    cbn [Nat.add filter]. rewrite H, (feqb_refl HF) by lia. reflexivity.
  Qed.
  Lemma first_differ_1 n (st st' : nat -> list F) k : k < n -> nth 0 (st k) f0 <> nth 0 (st' k) f0 -> 1 <= first_differ n st st'.
  Proof.
    intros Hk N. unfold first_differ.
    assert (I : In k (filter (fun k => negb (feqb (nth 0 (st k) f0) (nth 0 (st' k) f0))) (seq 0 n))).
    { apply filter_In. split; [apply in_seq; lia|]. rewrite (feqb_neq HF) by exact N. reflexivity. }
    destruct (filter _ _); [destruct I|cbn [length]; lia].
  Qed.
  Lemma first_differ_inv n (st st' : nat -> list F) : 1 <= first_differ n st st' -> exists k, k < n /\ nth 0 (st k) f0 <> nth 0 (st' k) f0.
  Proof.
    unfold first_differ. destruct (filter _ _) as [|k l] eqn:E; [cbn [length]; lia|]. intros _. exists k.
    assert (I : In k (k :: l)) by (left; reflexivity). rewrite <- E in I. apply filter_In in I as [I1 I2]. apply in_seq in I1. split; [lia|].
    intros C. rewrite C, (feqb_refl HF) in I2. discriminate I2.
  Qed.

  Lemma first_differ_ext n (a a' b b' : nat -> list F) : (forall k, k < n -> a k = b k) -> (forall k, k < n -> a' k = b' k) ->
    first_differ n a a' = first_differ n b b'.
  Proof.
    intros Ha Hb. unfold first_differ. f_equal. apply filter_ext_in. intros k Hk. apply in_seq in Hk. rewrite Ha, Hb by lia. reflexivity.
  Qed.

  (** element 0 of the first n iterates of v vanishes *)
  Definition hidden (t : nat) (A : @mat F) (n : nat) (v : list F) : Prop :=
    length v = t /\ forall k, k < n -> nth 0 (iter k (mat_apply t t A) v) f0 = f0.

  Lemma iter_pow t (A : @mat F) k v : length v = t -> iter k (mat_apply t t A) v = mat_apply t t (mat_pow t A k) v.
  Proof.
    intros Lv. induction k as [|k IH]; [symmetry; apply (mat_apply_id HF), Lv|]. cbn [iter mat_pow]. rewrite IH. apply (mat_apply_comp HF).
  Qed.
  Lemma hidden_exists t (A : @mat F) n : n < t -> exists v, hidden t A n v /\ v <> repeat f0 t.
  Proof.
    intros Hn. destruct (underdetermined HF n t (fun i j => mat_pow t A i 0 j)) as [x [[j [Hj Nj]] Hx]]; [exact Hn|].
    exists (map x (seq 0 t)). assert (L : length (map x (seq 0 t)) = t) by (rewrite map_length, seq_length; reflexivity). split.
    - split; [exact L|]. intros k Hk. rewrite iter_pow, mat_apply_nth by (try exact L; lia). rewrite <- (Hx k Hk). apply sumn_ext.
      intros i Hi. rewrite nth_map_seq by exact Hi. reflexivity.
    - intros E. apply Nj. rewrite <- (nth_map_seq x f0 t j Hj). rewrite E. apply nth_repeat.
  Qed.

  (** a homogeneous system has a non-trivial solution or only the trivial one *)
  Lemma kernel_or_not n : forall m (A : nat -> nat -> F),
    (exists x : nat -> F, (exists j, j < m /\ x j <> f0) /\ forall i, i < n -> sumn m (fun j => fmul (A i j) (x j)) = f0) \/
    (forall x : nat -> F, (forall i, i < n -> sumn m (fun j => fmul (A i j) (x j)) = f0) -> forall j, j < m -> x j = f0).
  Proof.
    induction n as [|n IH]; intros m A.
    - destruct m as [|m]; [right; intros; lia|]. left. exists (fun _ => f1). split; [|intros; lia]. exists 0. split; [lia|apply (ff_one_neq_zero _ HF)].
    - destruct (zeros_or_not (fun k => negb (feqb (A n k) f0)) m) as [Hz|[k [Hk Hp]]].
      + assert (Z : forall k, k < m -> A n k = f0).
        { intros k Hk. specialize (Hz k Hk). apply negb_false_iff in Hz. apply (ff_eqb _ HF). exact Hz. }
        destruct (IH m A) as [[x [Hx Hsol]]|H].
        * left. exists x. split; [exact Hx|]. intros i Hi. destruct (Nat.eq_dec i n) as [->|N]; [|apply Hsol; lia].
          apply (sumn_zero HF). intros j Hj. rewrite Z by exact Hj. ring.
        * right. intros x Hx. apply H. intros i Hi. apply Hx. lia.
      + apply negb_true_iff in Hp. assert (Np : A n k <> f0) by (intros E; rewrite E, (feqb_refl HF) in Hp; discriminate Hp). clear Hp.
        destruct m as [|m]; [lia|].
        set (B := fun i j => fsub (A i (skip k j)) (fmul (fmul (A i k) (finv (A n k))) (A n (skip k j)))).
        assert (HB : forall (x : nat -> F) i, sumn m (fun j => fmul (B i j) (x (skip k j))) =
          fsub (sumn (S m) (fun j => fmul (A i j) (x j))) (fmul (fmul (A i k) (finv (A n k))) (sumn (S m) (fun j => fmul (A n j) (x j))))).
        { intros x i. rewrite !(sumn_skip HF m k) by lia.
          transitivity (fsub (sumn m (fun j => fmul (A i (skip k j)) (x (skip k j))))
            (fmul (fmul (A i k) (finv (A n k))) (sumn m (fun j => fmul (A n (skip k j)) (x (skip k j)))))).
          - rewrite <- (sumn_mul_l HF), <- (sumn_sub HF). apply sumn_ext. intros j Hj. unfold B. ring.
          - transitivity (fsub (fadd (fmul (A i k) (x k)) (sumn m (fun j => fmul (A i (skip k j)) (x (skip k j)))))
              (fadd (fmul (fmul (A i k) (x k)) (fmul (A n k) (finv (A n k))))
                 (fmul (fmul (A i k) (finv (A n k))) (sumn m (fun j => fmul (A n (skip k j)) (x (skip k j))))))); [|ring].
            rewrite (finv_r HF) by exact Np. ring. }
        destruct (IH m B) as [[y [[j0 [Hj0 Hy]] Hsol]]|H].
        * left. set (s := sumn m (fun j => fmul (A n (skip k j)) (y j))).
          set (x := fun j => if j <? k then y j else if j =? k then fopp (fmul (finv (A n k)) s) else y (pred j)).
          assert (Hx : forall j, x (skip k j) = y j).
          { intros j. unfold x, skip. destruct (Nat.ltb_spec j k) as [L|L].
            - destruct (Nat.ltb_spec j k); [reflexivity|lia].
            - destruct (Nat.ltb_spec (S j) k); [lia|]. destruct (Nat.eqb_spec (S j) k); [lia|]. reflexivity. }
          assert (Hxk : x k = fopp (fmul (finv (A n k)) s)) by (unfold x; rewrite Nat.ltb_irrefl, Nat.eqb_refl; reflexivity).
          assert (E0 : sumn (S m) (fun j => fmul (A n j) (x j)) = f0).
          { rewrite (sumn_skip HF m k) by lia. rewrite (sumn_ext m _ (fun j => fmul (A n (skip k j)) (y j))) by (intros j _; rewrite Hx; reflexivity).
            fold s. rewrite Hxk. transitivity (fsub s (fmul (fmul (A n k) (finv (A n k))) s)); [ring|]. rewrite (finv_r HF) by exact Np. ring. }
          exists x. split.
          -- exists (skip k j0). split; [unfold skip; destruct (Nat.ltb_spec j0 k); lia|]. rewrite Hx. exact Hy.
          -- intros i Hi. destruct (Nat.eq_dec i n) as [->|N]; [exact E0|]. specialize (HB x i). rewrite E0 in HB.
             assert (E1 : sumn m (fun j => fmul (B i j) (x (skip k j))) = f0).
             { rewrite <- (Hsol i) by lia. apply sumn_ext. intros j _. rewrite Hx. reflexivity. }
             rewrite E1 in HB. symmetry. etransitivity; [exact HB|]. ring.
        * right. intros x Hx.
          assert (Z : forall j, j < m -> x (skip k j) = f0).
          { apply (H (fun j => x (skip k j))). intros i Hi. rewrite (HB x i), !Hx by lia. ring. }
          assert (Zk : x k = f0).
          { pose proof (Hx n ltac:(lia)) as E. rewrite (sumn_skip HF m k) in E by lia.
            rewrite (sumn_zero HF m) in E by (intros j Hj; rewrite Z by exact Hj; ring).
            assert (E' : fmul (A n k) (x k) = f0) by (rewrite <- E; ring). destruct (fmul_integral HF _ _ E') as [C|C]; [contradiction|exact C]. }
          intros j Hj. destruct (Nat.lt_trichotomy j k) as [L|[->|L]]; [|exact Zk|].
          -- rewrite <- (Z j) by lia. unfold skip. destruct (Nat.ltb_spec j k); [reflexivity|lia].
          -- rewrite <- (Z (pred j)) by lia. unfold skip. destruct (Nat.ltb_spec (pred j) k); [lia|]. f_equal. lia.
  Qed.

  Lemma hidden_dec t (A : @mat F) n : (exists v, hidden t A n v /\ v <> repeat f0 t) \/ (forall v, hidden t A n v -> v = repeat f0 t).
  Proof.
    destruct (kernel_or_not n t (fun i j => mat_pow t A i 0 j)) as [[x [[j [Hj Nj]] Hx]]|H].
    - left. exists (map x (seq 0 t)). assert (L : length (map x (seq 0 t)) = t) by (rewrite map_length, seq_length; reflexivity). split.
      + split; [exact L|]. intros k Hk. rewrite iter_pow, mat_apply_nth by (try exact L; lia). rewrite <- (Hx k Hk). apply sumn_ext.
        intros i Hi. rewrite nth_map_seq by exact Hi. reflexivity.
      + intros E. apply Nj. rewrite <- (nth_map_seq x f0 t j Hj). rewrite E. apply nth_repeat.
    - right. intros v [Lv Hv]. apply (list_ext f0); [rewrite repeat_length; exact Lv|]. intros j Hj. rewrite nth_repeat.
      apply (H (fun j => nth j v f0)); [|lia]. intros i Hi. pose proof (Hv i Hi) as E. rewrite iter_pow, mat_apply_nth in E by (exact Lv || lia). exact E.
  Qed.

  (** hidden for t rounds, hidden for ever *)
  Lemma hidden_forever t (A : @mat F) v n : hidden t A t v -> hidden t A n v.
  Proof.
    intros [Lv Hv]. split; [exact Lv|].
    destruct (Nat.eq_dec t 0) as [->|Nt]; [intros k _; destruct k; [destruct v; [reflexivity|discriminate Lv]|reflexivity]|].
    destruct (underdetermined HF t (S t) (fun j k => mat_pow t A k 0 j)) as [c [[j0 [Hj0 Nj0]] Hc]]; [lia|].
    assert (R : exists r, r <= t /\ c r <> f0 /\ forall k, r < k <= t -> c k = f0).
    { assert (G : forall m, m <= S t -> (exists r, r <= t /\ c r <> f0 /\ forall k, r < k <= t -> c k = f0) \/ (forall k, S t - m <= k <= t -> c k = f0)).
      { induction m as [|m IH]; intros Hm; [right; intros; lia|]. destruct (IH ltac:(lia)) as [E|Z]; [left; exact E|].
        destruct (feq_dec HF (c (t - m)) f0) as [E|E].
        - right. intros k Hk. destruct (Nat.eq_dec k (t - m)) as [->|N]; [exact E|apply Z; lia].
        - left. exists (t - m). split; [lia|]. split; [exact E|]. intros k Hk. apply Z. lia. }
      destruct (G (S t) (le_n _)) as [E|Z]; [exact E|]. exfalso. apply Nj0, Z. lia. }
    destruct R as [r [Hr [Nr Zr]]].
    set (o := fun k => nth 0 (iter k (mat_apply t t A) v) f0).
    assert (Lit : forall k, length (iter k (mat_apply t t A) v) = t) by (intros [|k]; [exact Lv|apply mat_apply_length]).
    assert (Rel : forall s, sumn (S t) (fun k => fmul (c k) (o (k + s))) = f0).
    { intros s. transitivity (sumn (S t) (fun k => sumn t (fun j => fmul (fmul (c k) (mat_pow t A k 0 j)) (nth j (iter s (mat_apply t t A) v) f0)))).
      - apply sumn_ext. intros k Hk. unfold o. rewrite iter_add, iter_pow, mat_apply_nth by (apply Lit || lia).
        rewrite <- (sumn_mul_l HF). apply sumn_ext. intros j Hj. ring.
      - rewrite (sumn_swap HF). apply (sumn_zero HF). intros j Hj. rewrite (sumn_mul_r HF (S t) (nth j (iter s (mat_apply t t A) v) f0)).
        rewrite (sumn_ext (S t) _ (fun k => fmul (mat_pow t A k 0 j) (c k))) by (intros; ring). rewrite (Hc j Hj). ring. }
    assert (Z : forall k, o k = f0).
    { induction k as [k IH] using lt_wf_ind. destruct (le_lt_dec t k) as [L|L]; [|apply Hv, L].
      pose proof (Rel (k - r)) as E. rewrite (sumn_single HF (S t) r) in E; [|lia|].
      - replace (r + (k - r)) with k in E by lia. destruct (fmul_integral HF _ _ E) as [C|C]; [contradiction|exact C].
      - intros i Hi Ni. destruct (le_lt_dec i r) as [Li|Li]; [rewrite IH by lia; ring|rewrite Zr by lia; ring]. }
    intros k _. apply Z.
  Qed.

  Section Steps.
    Context (t : nat) (A : @mat F) (step : nat -> list F -> res (list F)) (ref : nat -> list F -> list F) (lo n : nat) (Ht : 1 <= t).
    Context (Hok : forall r x, lo <= r < lo + n -> length x = t -> step r x = Ok (ref r x)).
    Context (Hlen : forall r x, length (ref r x) = t).
    Context (Hdiff : forall r x y, nth 0 x f0 = nth 0 y f0 -> dv t (ref r x) (ref r y) = mat_apply t t A (dv t x y)).

    Definition run (k : nat) (x : list F) : list F := fold_left (fun s r => ref r s) (seq lo k) x.
    Lemma run_S k x : run (S k) x = ref (lo + k) (run k x).
    Proof. unfold run. rewrite seq_S, fold_left_app. reflexivity. Qed.
    Lemma run_length k x : length x = t -> length (run k x) = t.
    Proof. intros Hx. destruct k; [exact Hx|]. rewrite run_S. apply Hlen. Qed.
    Lemma run_states x : length x = t -> states step lo n x (fun k => run k x).
    Proof.
      intros Hx k Hk. induction k as [|k IH]; [rewrite Nat.add_0_r, for_range_empty by lia; reflexivity|].
      rewrite Nat.add_succ_r, for_range_last by lia. rewrite IH by lia. cbn [bind]. rewrite Hok by (try lia; apply run_length; exact Hx).
      rewrite run_S. reflexivity.
    Qed.
    Lemma states_run x st : length x = t -> states step lo n x st -> forall k, k < n -> st k = run k x.
    Proof. intros Hx HS k Hk. pose proof (HS k Hk) as E. rewrite (run_states x Hx k Hk) in E. injection E as E. symmetry. exact E. Qed.
    Lemma run_diff x y k : (forall j, j < k -> nth 0 (run j x) f0 = nth 0 (run j y) f0) ->
      dv t (run k x) (run k y) = iter k (mat_apply t t A) (dv t x y).
    Proof.
      induction k as [|k IH]; intros H; [reflexivity|]. rewrite !run_S. cbn [iter]. rewrite Hdiff by (apply H; lia).
      rewrite IH by (intros j Hj; apply H; lia). reflexivity.
    Qed.
    Lemma first_dv x y : nth 0 x f0 = nth 0 y f0 <-> nth 0 (dv t x y) f0 = f0.
    Proof.
      rewrite dv_nth by lia. split; [intros ->; ring|apply (fsub_eq_0 HF)].
    Qed.
    Lemma run_quiet x y : (forall k, k < n -> nth 0 (iter k (mat_apply t t A) (dv t x y)) f0 = f0) ->
      forall k, k < n -> nth 0 (run k x) f0 = nth 0 (run k y) f0.
    Proof.
      intros H k. induction k as [k IH] using lt_wf_ind. intros Hk. apply first_dv. rewrite run_diff by (intros j Hj; apply IH; lia). apply H, Hk.
    Qed.

    Lemma dv_zero v : length v = t -> dv t v (repeat f0 t) = v.
    Proof.
      intros Lv. apply (list_ext f0); [rewrite dv_length; lia|]. intros i Hi. rewrite dv_length in Hi. rewrite dv_nth, nth_repeat by exact Hi. ring.
    Qed.
    Theorem quiet_iff : quiet_pair t step lo n <-> exists v, hidden t A n v /\ v <> repeat f0 t.
    Proof.
      split.
      - intros [x [y [st [st' [Hx [Hy [N [S1 [S2 E]]]]]]]]]. exists (dv t x y). split; [|apply (dv_nonzero HF); assumption].
        split; [apply dv_length|].
        assert (Q : forall k, k < n -> nth 0 (run k x) f0 = nth 0 (run k y) f0).
        { intros k Hk. destruct (feqb (nth 0 (run k x) f0) (nth 0 (run k y) f0)) eqn:Eb; [apply (ff_eqb _ HF); exact Eb|].
          exfalso. assert (B : 1 <= first_differ n st st'); [|lia]. apply (first_differ_1 n st st' k Hk).
          rewrite (states_run x st Hx S1 k Hk), (states_run y st' Hy S2 k Hk). intros C. rewrite C, (feqb_refl HF) in Eb. discriminate Eb. }
        intros k Hk. rewrite <- run_diff by (intros j Hj; apply Q; lia). apply first_dv. apply Q, Hk.
      - intros [v [[Lv Hv] N]]. exists v, (repeat f0 t), (fun k => run k v), (fun k => run k (repeat f0 t)).
        assert (Lz : length (repeat (f0 : F) t) = t) by apply repeat_length.
        split; [exact Lv|]. split; [exact Lz|]. split; [exact N|]. split; [apply run_states, Lv|]. split; [apply run_states, Lz|].
        apply first_differ_0. apply run_quiet. rewrite dv_zero by exact Lv. exact Hv.
    Qed.
    Theorem active_iff : active_rounds t step lo n 1 <-> forall v, hidden t A n v -> v = repeat f0 t.
    Proof.
      split.
      - intros H v [Lv Hv]. destruct (list_eq_dec (feq_dec HF) v (repeat f0 t)) as [E|N]; [exact E|exfalso].
        destruct (H v (repeat f0 t) Lv (repeat_length f0 t) N) as [st [st' [S1 [S2 B]]]]. apply first_differ_inv in B as [k [Hk Nk]]. apply Nk.
        rewrite (states_run _ st Lv S1 k Hk), (states_run _ st' (repeat_length f0 t) S2 k Hk).
        apply run_quiet; [rewrite dv_zero by exact Lv; exact Hv|exact Hk].
      - intros H x y Hx Hy N. exists (fun k => run k x), (fun k => run k y). split; [apply run_states, Hx|]. split; [apply run_states, Hy|].
        destruct (zeros_or_not (fun k => negb (feqb (nth 0 (run k x) f0) (nth 0 (run k y) f0))) n) as [Z|[k [Hk E]]].
        + exfalso. apply (dv_nonzero HF t x y Hx Hy N). apply H. split; [apply dv_length|].
          assert (Q : forall k, k < n -> nth 0 (run k x) f0 = nth 0 (run k y) f0).
          { intros k Hk. specialize (Z k Hk). apply negb_false_iff in Z. apply (ff_eqb _ HF). exact Z. }
          intros k Hk. rewrite <- run_diff by (intros j Hj; apply Q; lia). apply first_dv. apply Q, Hk.
        + apply (first_differ_1 n _ _ k Hk). intros C. rewrite C, (feqb_refl HF) in E. discriminate E.
    Qed.
    Theorem quiet_summary : quiet_pair t step lo n <-> n < t \/ exists v, hidden t A t v /\ v <> repeat f0 t.
    Proof.
      rewrite quiet_iff. split.
      - intros [v [[Lv Hv] N]]. destruct (le_lt_dec t n) as [L|L]; [right|left; exact L]. exists v. split; [|exact N]. split; [exact Lv|].
        intros k Hk. apply Hv. lia.
      - intros [L|[v [Hv N]]]; [apply hidden_exists; exact L|]. exists v. split; [apply hidden_forever; exact Hv|exact N].
    Qed.
    Theorem active_summary : active_rounds t step lo n 1 <-> t <= n /\ forall v, hidden t A t v -> v = repeat f0 t.
    Proof.
      rewrite active_iff. split.
      - intros H. split.
        + destruct (le_lt_dec t n) as [L|L]; [exact L|]. destruct (hidden_exists t A n L) as [v [Hv N]]. exfalso. apply N, H, Hv.
        + intros v Hv. apply H. apply hidden_forever, Hv.
      - intros [L H] v [Lv Hv]. apply H. split; [exact Lv|]. intros k Hk. apply Hv. lia.
    Qed.
  End Steps.

  (** ** Counting: one active round in every block of t rounds *)
  Lemma first_differ_app a b (st st' : nat -> list F) :
    first_differ (a + b) st st' = first_differ a st st' + first_differ b (fun k => st (a + k)) (fun k => st' (a + k)).
  Proof.
    unfold first_differ. rewrite seq_app, filter_app, app_length. f_equal. cbn [Nat.add].
    replace (seq a b) with (map (Nat.add a) (seq 0 b)).
    2:{ clear. revert a. induction b as [|b IH]; intros a; [reflexivity|]. cbn [seq map]. rewrite Nat.add_0_r. f_equal.
        rewrite <- (IH (S a)). rewrite <- seq_shift, map_map. apply map_ext. intros. lia. }
    generalize (seq 0 b). induction l as [|k l IH]; [reflexivity|]. cbn [map filter]. destruct (negb _); cbn [length]; rewrite IH; reflexivity.
  Qed.
  Lemma states_shift (step : nat -> list F -> res (list F)) lo a n x y st : for_range lo (lo + a) step x = Ok y -> states step lo (a + n) x st ->
    states step (lo + a) n y (fun k => st (a + k)).
  Proof.
    intros E HS k Hk. pose proof (HS (a + k) ltac:(lia)) as H. rewrite <- H. clear H HS.
    induction k as [|k IH]; [rewrite !Nat.add_0_r, for_range_empty by lia; symmetry; exact E|].
    rewrite !Nat.add_succ_r, !for_range_last by lia. rewrite IH by lia. rewrite Nat.add_assoc. reflexivity.
  Qed.
  Lemma count_blocks t (step : nat -> list F -> res (list F)) lo n : 1 <= t ->
    (forall r x, lo <= r < lo + n -> length x = t -> exists x', step r x = Ok x' /\ length x' = t) ->
    (forall r x y z, lo <= r < lo + n -> length x = t -> length y = t -> step r x = Ok z -> step r y = Ok z -> x = y) ->
    (forall b, b + t <= n -> active_rounds t step (lo + b) t 1) ->
    active_rounds t step lo n (n / t).
  Proof.
    intros Ht Hstep Hinj Hact.
    assert (Run : forall x, length x = t -> exists st, st 0 = x /\ forall k, k <= n -> for_range lo (lo + k) step x = Ok (st k) /\ length (st k) = t).
    { intros x Lx. exists (fun k => match for_range lo (lo + k) step x with Ok s => s | _ => [] end).
      split; [rewrite Nat.add_0_r, for_range_empty by lia; reflexivity|]. induction k as [|k IH]; intros Hk.
      - rewrite Nat.add_0_r, for_range_empty by lia. split; [reflexivity|exact Lx].
      - destruct (IH ltac:(lia)) as [E L]. rewrite Nat.add_succ_r, for_range_last by lia. cbv beta in E, L.
        destruct (for_range lo (lo + k) step x) as [z| |]; [|discriminate E|discriminate E]. cbn [bind].
        destruct (Hstep (lo + k) z ltac:(lia) L) as [x' [E' L']]. rewrite E'. split; [reflexivity|exact L']. }
    intros x y Lx Ly N. destruct (Run x Lx) as [st [S0 HS]]. destruct (Run y Ly) as [st' [S0' HS']].
    exists st, st'. split; [intros k Hk; apply HS; lia|]. split; [intros k Hk; apply HS'; lia|].
    assert (Nk : forall k, k <= n -> st k <> st' k).
    { induction k as [|k IH]; intros Hk; [rewrite S0, S0'; exact N|]. intros E. apply (IH ltac:(lia)).
      pose proof (proj1 (HS (S k) Hk)) as E1. pose proof (proj1 (HS' (S k) Hk)) as E2.
      rewrite Nat.add_succ_r, for_range_last in E1, E2 by lia. rewrite (proj1 (HS k ltac:(lia))) in E1. rewrite (proj1 (HS' k ltac:(lia))) in E2.
      cbn [bind] in E1, E2. rewrite <- E in E2. apply (Hinj (lo + k) _ _ (st (S k))); [lia|apply HS; lia|apply HS'; lia|exact E1|exact E2]. }
    assert (Q : forall m, m * t <= n -> m <= first_differ (m * t) st st').
    { induction m as [|m IH]; intros Hm; [lia|]. change (S m * t) with (t + m * t) in *. rewrite (Nat.add_comm t (m * t)) in *.
      rewrite first_differ_app. specialize (IH ltac:(lia)).
      destruct (Hact (m * t) Hm (st (m * t)) (st' (m * t)) (proj2 (HS (m * t) ltac:(lia))) (proj2 (HS' (m * t) ltac:(lia))) (Nk (m * t) ltac:(lia))) as [s [s' [A1 [A2 B]]]].
      assert (E : first_differ t (fun k => st (m * t + k)) (fun k => st' (m * t + k)) = first_differ t s s').
      { apply first_differ_ext.
        - intros k Hk. pose proof (states_shift step lo (m * t) t x _ st (proj1 (HS (m * t) ltac:(lia))) (fun k Hk => proj1 (HS k ltac:(lia))) k Hk) as E1.
          rewrite (A1 k Hk) in E1. injection E1 as E1. symmetry. exact E1.
        - intros k Hk. pose proof (states_shift step lo (m * t) t y _ st' (proj1 (HS' (m * t) ltac:(lia))) (fun k Hk => proj1 (HS' k ltac:(lia))) k Hk) as E1.
          rewrite (A2 k Hk) in E1. injection E1 as E1. symmetry. exact E1. }
      rewrite E. lia. }
    pose proof (Nat.div_mod n t ltac:(lia)) as D. pose proof (Nat.mod_upper_bound n t ltac:(lia)).
    specialize (Q (n / t) ltac:(lia)). replace n with (n / t * t + n mod t) at 2 by lia. rewrite first_differ_app. lia.
  Qed.

  (** ** All-ones matrix plus a diagonal *)
  Lemma vandermonde n : forall (m v : nat -> F), (forall i j, i < n -> j < n -> i <> j -> m i <> m j) ->
    (forall k, k < n -> sumn n (fun i => fmul (fpow (m i) k) (v i)) = f0) -> forall i, i < n -> v i = f0.
  Proof.
    induction n as [|n IH]; intros m v Hm Hv i Hi; [lia|].
    assert (Z : forall i, i < n -> v i = f0).
    { intros j Hj. assert (E : fmul (fsub (m j) (m n)) (v j) = f0).
      { apply (IH m (fun i => fmul (fsub (m i) (m n)) (v i))); [intros; apply Hm; lia| |exact Hj]. intros k Hk.
        pose proof (Hv k ltac:(lia)) as E0. pose proof (Hv (S k) ltac:(lia)) as E1. cbn [sumn] in E0, E1.
        transitivity (fsub (sumn n (fun i => fmul (fpow (m i) (S k)) (v i))) (fmul (m n) (sumn n (fun i => fmul (fpow (m i) k) (v i))))).
        - rewrite <- (sumn_mul_l HF), <- (sumn_sub HF). apply sumn_ext. intros l Hl. cbn [fpow]. ring.
        - assert (E0' : sumn n (fun i => fmul (fpow (m i) k) (v i)) = fopp (fmul (fpow (m n) k) (v n))).
          { apply (fsub_eq_0 HF). rewrite <- E0. ring. }
          assert (E1' : sumn n (fun i => fmul (fpow (m i) (S k)) (v i)) = fopp (fmul (fpow (m n) (S k)) (v n))).
          { apply (fsub_eq_0 HF). rewrite <- E1. ring. }
          rewrite E0', E1'. cbn [fpow]. ring. }
      destruct (fmul_integral HF _ _ E) as [C|C]; [|exact C]. exfalso. apply (fsub_eq_0 HF) in C. revert C. apply Hm; lia. }
    destruct (Nat.eq_dec i n) as [->|N]; [|apply Z; lia]. pose proof (Hv 0 ltac:(lia)) as E0. cbn [sumn fpow] in E0.
    rewrite (sumn_zero HF) in E0 by (intros j Hj; rewrite Z by exact Hj; ring). etransitivity; [|exact E0]. ring.
  Qed.

  Definition ones_plus (m : nat -> F) : @mat F := fun i j => if i =? j then fadd (m i) f1 else f1.
  Lemma ones_plus_apply t m (v : list F) i : i < t ->
    nth i (mat_apply t t (ones_plus m) v) f0 = fadd (sumn t (fun j => nth j v f0)) (fmul (m i) (nth i v f0)).
  Proof.
    intros Hi. rewrite mat_apply_nth by exact Hi. unfold ones_plus.
    transitivity (fadd (sumn t (fun j => nth j v f0)) (sumn t (fun j => if i =? j then fmul (m i) (nth j v f0) else f0))).
    - rewrite <- (sumn_add HF). apply sumn_ext. intros j Hj. destruct (i =? j); ring.
    - f_equal. rewrite (sumn_single HF t i); [rewrite Nat.eqb_refl; reflexivity|exact Hi|]. intros j Hj N. destruct (Nat.eqb_spec i j); [congruence|reflexivity].
  Qed.
  Lemma hidden_powers t m n v : 1 <= t -> hidden t (ones_plus m) n v -> forall k, k < n -> forall i, i < t ->
    nth i (iter k (mat_apply t t (ones_plus m)) v) f0 = fmul (fpow (m i) k) (nth i v f0).
  Proof.
    intros Ht [Lv Hv] k. induction k as [|k IH]; intros Hk i Hi; [cbn [iter fpow]; ring|].
    cbn [iter]. rewrite ones_plus_apply by exact Hi. rewrite IH by (try exact Hi; lia).
    assert (E : sumn t (fun j => nth j (iter k (mat_apply t t (ones_plus m)) v) f0) = f0).
    { pose proof (Hv (S k) Hk) as E. cbn [iter] in E. rewrite ones_plus_apply in E by lia. rewrite (Hv k) in E by lia. etransitivity; [|exact E]. ring. }
    rewrite E. cbn [fpow]. ring.
  Qed.
  (** equal values: hidden for ever *)
  Theorem ones_plus_equal t m i j n : 1 <= i < t -> 1 <= j < t -> i <> j -> m i = m j ->
    exists v, hidden t (ones_plus m) n v /\ v <> repeat f0 t.
  Proof.
    intros Hi Hj Nij E. set (v := map (fun l => if l =? i then f1 else if l =? j then fopp f1 else f0) (seq 0 t)).
      assert (Lv : length v = t) by (unfold v; rewrite map_length, seq_length; reflexivity).
      assert (Nv : forall l, l < t -> nth l v f0 = if l =? i then f1 else if l =? j then fopp f1 else f0) by (intros l Hl; unfold v; rewrite nth_map_seq by exact Hl; reflexivity).
      assert (P : forall k, iter k (mat_apply t t (ones_plus m)) v = map (fun l => fmul (fpow (m i) k) (nth l v f0)) (seq 0 t)).
      { induction k as [|k IHk].
        - cbn [iter fpow]. apply (list_ext f0); [rewrite map_length, seq_length; exact Lv|]. intros l Hl. rewrite nth_map_seq by lia. ring.
        - cbn [iter]. rewrite IHk. apply (list_ext f0); [rewrite mat_apply_length, map_length, seq_length; reflexivity|]. intros l Hl.
          rewrite mat_apply_length in Hl. rewrite ones_plus_apply, !nth_map_seq by exact Hl.
          assert (Z : sumn t (fun j0 => nth j0 (map (fun l0 => fmul (fpow (m i) k) (nth l0 v f0)) (seq 0 t)) f0) = f0).
          { transitivity (fmul (fpow (m i) k) (sumn t (fun l0 => nth l0 v f0))).
            - rewrite <- (sumn_mul_l HF). apply sumn_ext. intros l0 Hl0. rewrite nth_map_seq by exact Hl0. reflexivity.
            - assert (Z : sumn t (fun l0 => nth l0 v f0) = f0); [|rewrite Z; ring].
              transitivity (fadd (sumn t (fun l0 => if l0 =? i then f1 else f0)) (sumn t (fun l0 => if l0 =? j then fopp f1 else f0))).
              + rewrite <- (sumn_add HF). apply sumn_ext. intros l0 Hl0. rewrite Nv by exact Hl0.
                destruct (Nat.eqb_spec l0 i), (Nat.eqb_spec l0 j); try congruence; ring.
              + rewrite (sumn_single HF t i), (sumn_single HF t j); try lia.
                * rewrite !Nat.eqb_refl. ring.
                * intros l0 _ N0. destruct (Nat.eqb_spec l0 j); [contradiction|reflexivity].
                * intros l0 _ N0. destruct (Nat.eqb_spec l0 i); [contradiction|reflexivity]. }
          rewrite Z. rewrite Nv by exact Hl. cbn [fpow].
          destruct (Nat.eqb_spec l i) as [->|N1]; [ring|]. destruct (Nat.eqb_spec l j) as [->|N2]; [rewrite E; ring|ring]. }
      exists v. split.
      - split; [exact Lv|]. intros k _. rewrite P, nth_map_seq by lia. rewrite Nv by lia.
        destruct (Nat.eqb_spec 0 i); [lia|]. destruct (Nat.eqb_spec 0 j); [lia|]. ring.
      - intros Z. apply (ff_one_neq_zero _ HF). pose proof (Nv i ltac:(lia)) as Ei. rewrite Nat.eqb_refl, Z, nth_repeat in Ei. symmetry. exact Ei.
  Qed.
  Theorem ones_plus_hidden t m : 1 <= t ->
    ((forall v, hidden t (ones_plus m) t v -> v = repeat f0 t) <-> distinct_from_1 t m).
  Proof.
    intros Ht. split.
    - intros H i j Hi Hj Nij E. destruct (ones_plus_equal t m i j t Hi Hj Nij E) as [v [Hv N]]. apply N, H, Hv.
    - intros HD v Hv. pose proof (hidden_powers t m t v Ht Hv) as P. destruct Hv as [Lv Hv].
      assert (V0 : nth 0 v f0 = f0) by exact (Hv 0 ltac:(lia)).
      assert (Z : forall i, i < t - 1 -> nth (S i) v f0 = f0).
      { apply (vandermonde (t - 1) (fun i => m (S i)) (fun i => nth (S i) v f0)); [intros; apply HD; lia|]. intros k Hk.
        pose proof (Hv (S k) ltac:(lia)) as E. cbn [iter] in E. rewrite ones_plus_apply in E by lia. rewrite (Hv k) in E by lia.
        transitivity (sumn t (fun i => nth i (iter k (mat_apply t t (ones_plus m)) v) f0)); [|etransitivity; [|exact E]; ring].
        destruct t as [|t']; [lia|]. rewrite (sumn_first HF). rewrite P, V0 by lia. replace (S t' - 1) with t' by lia.
        transitivity (fadd f0 (sumn t' (fun i => fmul (fpow (m (S i)) k) (nth (S i) v f0)))); [ring|]. f_equal; [ring|]. apply sumn_ext. intros i Hi.
        rewrite P by lia. reflexivity. }
      apply (list_ext f0); [rewrite repeat_length; exact Lv|]. intros i Hi. rewrite nth_repeat. destruct i as [|i]; [exact V0|]. apply Z. lia.
  Qed.
End Quiet.
