(** * GMiMC: reference, optimised = unoptimised, bijection, panics (C22-C25) *)
From Verif Require Import Base Field Spec LinAlg LoopLemmas FieldPow Bij ModelGmimc SpecGmimc SpecPoseidon2 ProofPoseidon2.

Lemma nth_skipn {A} (d : A) n (l : list A) i : nth i (skipn n l) d = nth (n + i) l d.
Proof. revert l. induction n as [|n IH]; intros [|a l]; cbn; try reflexivity; [destruct i; reflexivity|apply IH]. Qed.
Lemma nth_firstn_lt {A} (d : A) n (l : list A) i : i < n -> nth i (firstn n l) d = nth i l d.
Proof. revert l i. induction n as [|n IH]; intros [|a l] i Hi; try lia; [destruct i; reflexivity|]. destruct i as [|i]; cbn; [reflexivity|apply IH; lia]. Qed.

Lemma rotate_right_1 {A} (d : A) (l : list A) n : length l = n -> 1 <= n ->
  rotate_right l 1 = Ok (map (fun i => match i with O => nth (n - 1) l d | S j => nth j l d end) (seq 0 n)).
Proof.
  intros Hl Hn. unfold rotate_right. destruct (Nat.leb_spec 1 (length l)); [|lia]. f_equal. rewrite Hl.
  apply (list_ext d).
  - rewrite app_length, skipn_length, firstn_length, map_length, seq_length. lia.
  - intros i Hi. rewrite app_length, skipn_length, firstn_length in Hi. rewrite nth_map_seq by lia.
    destruct i as [|i].
    + rewrite app_nth1 by (rewrite skipn_length; lia). rewrite nth_skipn. f_equal. lia.
    + rewrite app_nth2 by (rewrite skipn_length; lia). rewrite skipn_length.
      rewrite nth_firstn_lt by lia. f_equal. lia.
Qed.

Section Gm.
  Context {F : Type} {Fo : FOps F} (HF : is_field Fo).
  Add Ring FringGm : (ff_ring _ HF).

  Lemma gm_sbox_ok P x r : sbox_degree (gm_d P) -> r < length (gm_rc P) ->
    gm_sbox P x r = Ok (fpow (fadd x (nth r (gm_rc P) f0)) (gm_d P)).
  Proof.
    intros Hd Hr. unfold gm_sbox. rewrite (idx_ok f0) by exact Hr. cbn [bind]. cbv zeta.
    rewrite (sbox_cases HF (gm_d P) (fadd x (nth r (gm_rc P) f0))). rewrite (proj2 (degree_bool _) Hd). reflexivity.
  Qed.

  Lemma gm_round_ok P st r : sbox_degree (gm_d P) -> r < length (gm_rc P) -> 1 <= length st ->
    gm_round P st r = Ok (gm_ref_round (length st) (gm_d P) (nth r (gm_rc P) f0) st).
  Proof.
    intros Hd Hr Hs. unfold gm_round. rewrite (idx_ok f0) by lia. cbn [bind]. rewrite gm_sbox_ok by assumption. cbn [bind].
    f_equal. destruct st as [|a l]; [simpl in Hs; lia|]. unfold gm_ref_round. cbn [length seq map nth Nat.eqb]. f_equal.
    rewrite <- seq_shift, map_map. rewrite (list_as_map f0 l) at 1. rewrite map_map. apply map_ext. intros i. reflexivity.
  Qed.

  Lemma gm_ref_round_length t d c (x : list F) : length (gm_ref_round t d c x) = t.
  Proof. unfold gm_ref_round. rewrite map_length, seq_length. reflexivity. Qed.
  Lemma gm_ref_rotate_length t (x : list F) : length (gm_ref_rotate t x) = t.
  Proof. unfold gm_ref_rotate. rewrite map_length, seq_length. reflexivity. Qed.
  Lemma gm_rot t (x : list F) : length x = t -> 1 <= t -> rotate_right x 1 = Ok (gm_ref_rotate t x).
  Proof. apply rotate_right_1. Qed.

  Definition gm_wf (P : GmimcParams F) : Prop :=
    sbox_degree (gm_d P) /\ length (gm_rc P) = gm_rounds P.

  Definition gm_mid (P : GmimcParams F) (n : nat) (x : list F) : list F :=
    fold_left (fun s r => gm_ref_rotate (gm_t P) (gm_ref_round (gm_t P) (gm_d P) (nth r (gm_rc P) f0) s)) (seq 0 n) x.
  Lemma gm_mid_S P n x : gm_mid P (S n) x =
    gm_ref_rotate (gm_t P) (gm_ref_round (gm_t P) (gm_d P) (nth n (gm_rc P) f0) (gm_mid P n x)).
  Proof. unfold gm_mid. rewrite seq_S, fold_left_app. reflexivity. Qed.
  Lemma gm_mid_length P n x : length x = gm_t P -> length (gm_mid P n x) = gm_t P.
  Proof. intros Hx. destruct n as [|n]; [exact Hx|]. rewrite gm_mid_S. apply gm_ref_rotate_length. Qed.

  Lemma gm_not_opt_ref dbg P x : gm_wf P -> length x = gm_t P -> 1 <= gm_t P -> 1 <= gm_rounds P ->
    gm_permutation_not_opt dbg P x = Ok (gm_ref (gm_t P) (gm_d P) (gm_rounds P) (gm_rc P) x).
  Proof.
    intros [Hd Hrc] Hx Ht Hr. unfold gm_permutation_not_opt. rewrite Hx, Nat.eqb_refl. cbn [assert bind].
    rewrite usub_ok by exact Hr. cbn [bind].
    destruct (for_range_fold (fun s r => gm_ref_rotate (gm_t P) (gm_ref_round (gm_t P) (gm_d P) (nth r (gm_rc P) f0) s)) (fun s => length s = gm_t P)
      0 (gm_rounds P - 1) (fun r st => st <- gm_round P st r ;; rotate_right st 1) x Hx) as [E L].
    - intros i s Hi Hs. split; [|apply gm_ref_rotate_length]. rewrite gm_round_ok by (try assumption; lia). cbn [bind].
      rewrite Hs. apply gm_rot; [apply gm_ref_round_length|exact Ht].
    - rewrite E. cbn [bind]. rewrite gm_round_ok by (try assumption; lia). rewrite L, Nat.sub_0_r. reflexivity.
  Qed.

  (** panics *)
  Lemma gm_sbox_not_fuel P x r : gm_sbox P x r <> Fuel.
  Proof.
    unfold gm_sbox. apply bind_not_fuel; [apply idx_not_fuel|]. intros c. cbv zeta.
    rewrite (sbox_cases HF (gm_d P) (fadd x c)). destruct (_ || _); discriminate.
  Qed.
  Lemma gm_zero_rounds dbg hi : usub dbg 0 1 = Ok hi -> 1 <= hi.
  Proof.
    unfold usub. cbn [Nat.leb]. destruct dbg; [discriminate|]. intros H.
    assert (E : N.to_nat (usize_mod + N.of_nat 0 - N.of_nat 1) = hi) by congruence. rewrite <- E. unfold usize_mod. lia.
  Qed.

  Lemma gm_sbox_nil P x r : gm_rc P = [] -> gm_sbox P x r = Panic.
  Proof. intros E. unfold gm_sbox. rewrite E. rewrite idx_panic by (simpl; lia). reflexivity. Qed.
  Lemma gm_round_nil P st r : gm_rc P = [] -> gm_round P st r = Panic.
  Proof.
    intros E. unfold gm_round. destruct (idx st 0) as [a| |] eqn:Ei; [|reflexivity|exfalso; exact (idx_not_fuel _ _ Ei)].
    cbn [bind]. rewrite gm_sbox_nil by exact E. reflexivity.
  Qed.
  Lemma gm_round_empty P r : gm_round P [] r = Panic.
  Proof. reflexivity. Qed.

  Lemma gm_not_opt_panic dbg P x : gm_wf P -> ~ (length x = gm_t P /\ 1 <= gm_t P /\ 1 <= gm_rounds P) ->
    gm_permutation_not_opt dbg P x = Panic.
  Proof.
    intros [Hd Hrc] HN. unfold gm_permutation_not_opt. destruct (Nat.eqb_spec (gm_t P) (length x)) as [E|]; [|reflexivity]. cbn [assert bind].
    destruct (Nat.eq_dec (gm_rounds P) 0) as [R0|R1].
    - assert (Hn : gm_rc P = []) by (destruct (gm_rc P); [reflexivity|simpl in Hrc; lia]).
      rewrite R0. destruct (usub dbg 0 1) as [hi| |] eqn:Eu; [|reflexivity|exfalso; exact (usub_not_fuel _ _ _ Eu)].
      cbn [bind]. apply gm_zero_rounds in Eu. rewrite for_range_step by lia. rewrite gm_round_nil by exact Hn. reflexivity.
    - assert (T0 : gm_t P = 0) by lia. assert (x = []) by (destruct x; [reflexivity|simpl in E; lia]). subst x.
      rewrite usub_ok by lia. cbn [bind]. destruct (Nat.eq_dec (gm_rounds P) 1) as [R2|R2].
      + rewrite R2. rewrite for_range_empty by lia. reflexivity.
      + rewrite for_range_step by lia. reflexivity.
  Qed.

  (** ** the accumulator variant *)
  Definition gm_inv (t : nat) (s cur : list F) (acc : F) (q : list F) : Prop :=
    length cur = t /\ length q = t - 1 /\ acc = sumn (t - 1) (fun k => nth k q f0) /\
    forall i, i < t -> nth i s f0 = fadd (nth i cur f0) (sumn (i - 1) (fun k => nth k q f0)).

  Lemma gm_step_ok P r cur acc q s : sbox_degree (gm_d P) -> r < length (gm_rc P) -> 2 <= gm_t P ->
    gm_inv (gm_t P) s cur acc q ->
    let p := fpow (fadd (nth 0 s f0) (nth r (gm_rc P) f0)) (gm_d P) in
    exists q', gm_step P r cur acc q = Ok (sumn (gm_t P - 1) (fun k => nth k q' f0), q') /\ length q' = gm_t P - 1 /\
      nth 0 q' f0 = p /\ forall k, S k < gm_t P - 1 -> nth (S k) q' f0 = nth k q f0.
  Proof.
    intros Hd Hr Ht [Lc [Lq [Ha Hs]]] p. set (t := gm_t P) in *. unfold gm_step.
    rewrite (idx_ok f0) by lia. cbn [bind]. rewrite gm_sbox_ok by assumption. cbn [bind].
    assert (E0 : nth 0 cur f0 = nth 0 s f0) by (rewrite Hs by lia; cbn [Nat.sub sumn]; ring).
    rewrite E0. fold p. rewrite (rotate_right_1 f0 q (t - 1)) by lia. cbn [bind].
    set (q1 := map _ (seq 0 (t - 1))). assert (L1 : length q1 = t - 1) by (unfold q1; rewrite map_length, seq_length; reflexivity).
    rewrite (idx_ok f0) by lia. cbn [bind]. rewrite upd_ok by lia. cbn [bind]. cbv zeta.
    assert (N0 : nth 0 (set_nth q1 0 p) f0 = p) by (rewrite set_nth_nth by lia; reflexivity).
    assert (NS : forall k, S k < t - 1 -> nth (S k) (set_nth q1 0 p) f0 = nth k q f0).
    { intros k Hk. rewrite set_nth_nth by lia. cbn [Nat.eqb]. unfold q1. rewrite nth_map_seq by lia. reflexivity. }
    exists (set_nth q1 0 p). split; [|split; [rewrite set_nth_length; lia|split; assumption]].
    do 2 f_equal. replace (nth 0 q1 f0) with (nth (t - 1 - 1) q f0) by (unfold q1; rewrite nth_map_seq by lia; reflexivity).
    rewrite Ha. assert (ES : t - 1 = S (t - 1 - 1)) by lia.
    transitivity (fadd p (sumn (t - 1 - 1) (fun k => nth k q f0))).
    - replace (sumn (t - 1) (fun k => nth k q f0)) with (sumn (S (t - 1 - 1)) (fun k => nth k q f0)) by (rewrite <- ES; reflexivity).
      cbn [sumn]. ring.
    - replace (sumn (t - 1) (fun k => nth k (set_nth q1 0 p) f0)) with (sumn (S (t - 1 - 1)) (fun k => nth k (set_nth q1 0 p) f0)) by (rewrite <- ES; reflexivity).
      rewrite (sumn_first HF). rewrite N0. f_equal. apply sumn_ext. intros k Hk. rewrite NS by lia. reflexivity.
  Qed.

  (** partial sums of the new queue *)
  Lemma gm_queue_sum t p (q q' : list F) i : 2 <= t -> 1 <= i < t -> nth 0 q' f0 = p ->
    (forall k, S k < t - 1 -> nth (S k) q' f0 = nth k q f0) ->
    sumn i (fun k => nth k q' f0) = fadd (sumn (i - 1) (fun k => nth k q f0)) p.
  Proof.
    intros Ht Hi N0 NS. destruct i as [|i]; [lia|]. rewrite (sumn_first HF), N0. replace (S i - 1) with i by lia.
    transitivity (fadd p (sumn i (fun k => nth k q f0))); [|ring]. f_equal. apply sumn_ext. intros k Hk. apply NS. lia.
  Qed.

  Definition gm_body (P : GmimcParams F) (r : nat) (st : list F * F * list F) : res (list F * F * list F) :=
    let '(cur, acc, queue) := st in
    '(acc, queue) <- gm_step P r cur acc queue ;;
    cur <- rotate_right cur 1 ;;
    c0 <- idx cur 0 ;;
    cur <- upd cur 0 (fadd c0 acc) ;;
    Ok (cur, acc, queue).

  Lemma gm_body_ok P r cur acc q s : sbox_degree (gm_d P) -> r < length (gm_rc P) -> 2 <= gm_t P -> length s = gm_t P ->
    gm_inv (gm_t P) s cur acc q ->
    exists cur' acc' q', gm_body P r (cur, acc, q) = Ok (cur', acc', q') /\
      gm_inv (gm_t P) (gm_ref_rotate (gm_t P) (gm_ref_round (gm_t P) (gm_d P) (nth r (gm_rc P) f0) s)) cur' acc' q'.
  Proof.
    intros Hd Hr Ht Ls HI. destruct (gm_step_ok P r cur acc q s Hd Hr Ht HI) as [q' [E [Lq' [N0 NS]]]].
    destruct HI as [Lc [Lq [Ha Hs]]]. set (t := gm_t P) in *. set (p := fpow _ _) in N0.
    unfold gm_body. rewrite E. cbn [bind]. rewrite (rotate_right_1 f0 cur t) by lia. cbn [bind].
    set (c1 := map _ (seq 0 t)). assert (L1 : length c1 = t) by (unfold c1; rewrite map_length, seq_length; reflexivity).
    rewrite (idx_ok f0) by lia. cbn [bind]. rewrite upd_ok by lia. cbn [bind].
    eexists. eexists. eexists. split; [reflexivity|].
    split; [rewrite set_nth_length; lia|]. split; [exact Lq'|]. split; [reflexivity|].
    intros i Hi. rewrite set_nth_nth by lia. unfold gm_ref_rotate, gm_ref_round. rewrite nth_map_seq by exact Hi.
    assert (G : forall i, 1 <= i < t -> sumn i (fun k => nth k q' f0) = fadd (sumn (i - 1) (fun k => nth k q f0)) p)
      by (intros j Hj; apply (gm_queue_sum t p q q'); assumption).
    destruct i as [|i].
    - cbn [Nat.eqb Nat.sub sumn]. rewrite nth_map_seq by lia. destruct (Nat.eqb_spec (t - 1) 0); [lia|]. fold p.
      rewrite (Hs (t - 1)) by lia. unfold c1. rewrite nth_map_seq by lia. rewrite (G (t - 1)) by lia. ring.
    - cbn [Nat.eqb]. rewrite nth_map_seq by lia. unfold c1. rewrite nth_map_seq by lia.
      replace (S i - 1) with i by lia. destruct i as [|i].
      + cbn [Nat.eqb sumn]. rewrite (Hs 0) by lia. cbn [Nat.sub sumn]. ring.
      + cbn [Nat.eqb]. fold p. rewrite (Hs (S i)) by lia. rewrite (G (S i)) by lia. ring.
  Qed.

  Lemma gm_opt_loop P n x : sbox_degree (gm_d P) -> n <= length (gm_rc P) -> 2 <= gm_t P -> length x = gm_t P ->
    exists cur acc q, for_range 0 n (gm_body P) (x, f0, repeat f0 (gm_t P - 1)) = Ok (cur, acc, q) /\
      gm_inv (gm_t P) (gm_mid P n x) cur acc q.
  Proof.
    intros Hd Hn Ht Hx.
    destruct (for_range_inv (fun k st => let '(cur, acc, q) := st in gm_inv (gm_t P) (gm_mid P k x) cur acc q)
      0 n (gm_body P) (x, f0, repeat f0 (gm_t P - 1))) as [[[cur acc] q] [E HI]].
    - lia.
    - split; [exact Hx|]. split; [apply repeat_length|].
      assert (Z : forall m, sumn m (fun k => nth k (repeat f0 (gm_t P - 1)) f0) = f0).
      { intros m. apply (sumn_zero HF). intros i _. apply nth_repeat_same. }
      split; [symmetry; apply Z|]. intros i Hi. rewrite Z. cbn [gm_mid seq fold_left]. ring.
    - intros i [[cur acc] q] Hi HI.
      destruct (gm_body_ok P i cur acc q (gm_mid P i x) Hd ltac:(lia) Ht (gm_mid_length P i x Hx) HI) as [cur' [acc' [q' [E HI']]]].
      exists (cur', acc', q'). split; [exact E|]. rewrite gm_mid_S. exact HI'.
    - exists cur, acc, q. auto.
  Qed.

  Lemma rotate_skip {A} (l : list A) i : 1 <= i <= length l ->
    rotate_right (skipn i l ++ firstn i l) 1 = Ok (skipn (i - 1) l ++ firstn (i - 1) l).
  Proof.
    intros Hi. destruct l as [|d l'] eqn:El; [simpl in Hi; lia|]. rewrite <- El in *.
    assert (Ll : length (skipn i l ++ firstn i l) = length l) by (rewrite app_length, skipn_length, firstn_length; lia).
    rewrite (rotate_right_1 d _ (length l)) by (exact Ll || lia). f_equal.
    apply (list_ext d); [rewrite map_length, seq_length, app_length, skipn_length, firstn_length; lia|].
    intros k Hk. rewrite map_length, seq_length in Hk. rewrite nth_map_seq by exact Hk. destruct k as [|k].
    - rewrite app_nth2 by (rewrite skipn_length; lia). rewrite skipn_length, nth_firstn_lt by lia.
      rewrite app_nth1 by (rewrite skipn_length; lia). rewrite nth_skipn. f_equal. lia.
    - destruct (le_lt_dec (length l - i) k) as [L|L].
      + rewrite app_nth2 by (rewrite skipn_length; lia). rewrite skipn_length, nth_firstn_lt by lia.
        rewrite app_nth2 by (rewrite skipn_length; lia). rewrite skipn_length, nth_firstn_lt by lia. f_equal. lia.
      + rewrite app_nth1 by (rewrite skipn_length; lia). rewrite app_nth1 by (rewrite skipn_length; lia).
        rewrite !nth_skipn. f_equal. lia.
  Qed.

  Definition gm_final (i : nat) (st : list F * F * list F) : res (list F * F * list F) :=
    let '(cur, acc, queue) := st in
    queue <- rotate_right queue 1 ;;
    q0 <- idx queue 0 ;;
    let acc := fsub acc q0 in
    el <- idx cur i ;;
    cur <- upd cur i (fadd el acc) ;;
    Ok (cur, acc, queue).

  Lemma gm_final_loop t (cur q : list F) : 2 <= t -> length cur = t -> length q = t - 1 ->
    exists acc' q', for_range_rev 1 (t - 1) gm_final (cur, sumn (t - 1) (fun k => nth k q f0), q) =
      Ok (map (fun i => if (1 <=? i) && (i <? t - 1) then fadd (nth i cur f0) (sumn i (fun k => nth k q f0)) else nth i cur f0) (seq 0 t), acc', q').
  Proof.
    intros Ht Lc Lq.
    destruct (for_range_rev_inv (fun i st => st = (map (fun j => if (i <=? j) && (j <? t - 1) then fadd (nth j cur f0) (sumn j (fun k => nth k q f0)) else nth j cur f0) (seq 0 t),
        sumn i (fun k => nth k q f0), skipn i q ++ firstn i q)) 1 (t - 1) gm_final (cur, sumn (t - 1) (fun k => nth k q f0), q)) as [s [E ->]].
    - lia.
    - rewrite (skipn_all2 q), (firstn_all2 q) by lia. cbn [app]. do 2 f_equal.
      rewrite (list_as_map f0 cur) at 1. rewrite Lc. apply map_seq_ext. intros j Hj.
      destruct (Nat.leb_spec (t - 1) j), (Nat.ltb_spec j (t - 1)); cbn [andb]; try lia; reflexivity.
    - intros i s Hi ->. unfold gm_final. rewrite rotate_skip by lia. cbn [bind].
      replace (S i - 1) with i by lia.
      rewrite (idx_ok f0) by (rewrite app_length, skipn_length, firstn_length; lia). cbn [bind]. cbv zeta.
      rewrite app_nth1 by (rewrite skipn_length; lia). rewrite nth_skipn, Nat.add_0_r.
      rewrite (idx_ok f0) by (rewrite map_length, seq_length; lia). cbn [bind].
      rewrite upd_ok by (rewrite map_length, seq_length; lia). cbn [bind]. eexists. split; [reflexivity|].
      assert (ES : fsub (sumn (S i) (fun k => nth k q f0)) (nth i q f0) = sumn i (fun k => nth k q f0)) by (cbn [sumn]; ring).
      rewrite ES. do 2 f_equal. apply (list_ext f0); [rewrite set_nth_length; rewrite !map_length, !seq_length; lia|].
      intros j Hj. rewrite set_nth_length, map_length, seq_length in Hj by (rewrite map_length, seq_length; lia).
      rewrite set_nth_nth by (rewrite map_length, seq_length; lia). rewrite !nth_map_seq by lia.
      destruct (Nat.eqb_spec j i) as [->|N].
      + destruct (Nat.leb_spec (S i) i), (Nat.leb_spec i i), (Nat.ltb_spec i (t - 1)); cbn [andb]; try lia. reflexivity.
      + destruct (Nat.leb_spec (S i) j), (Nat.leb_spec i j), (Nat.ltb_spec j (t - 1)); cbn [andb]; try lia; reflexivity.
    - rewrite E. eexists. eexists. reflexivity.
  Qed.

  Lemma gm_opt_ref dbg P x : gm_wf P -> length x = gm_t P -> 8 <= gm_t P -> 1 <= gm_rounds P ->
    gm_permutation dbg P x = Ok (gm_ref (gm_t P) (gm_d P) (gm_rounds P) (gm_rc P) x).
  Proof.
    intros [Hd Hrc] Hx Ht Hr. unfold gm_permutation. destruct (Nat.ltb_spec (gm_t P) 8); [lia|].
    rewrite Hx, Nat.eqb_refl. cbn [assert bind]. rewrite usub_ok by exact Hr. cbn [bind].
    match goal with |- bind (for_range 0 _ ?b _) _ = _ => change b with (gm_body P) end.
    destruct (gm_opt_loop P (gm_rounds P - 1) x Hd ltac:(lia) ltac:(lia) Hx) as [cur [acc [q [E HI]]]].
    rewrite E. cbn [bind].
    destruct (gm_step_ok P (gm_rounds P - 1) cur acc q _ Hd ltac:(lia) ltac:(lia) HI) as [q' [E' [Lq' [N0 NS]]]].
    rewrite E'. cbn [bind]. destruct HI as [Lc [Lq [Ha Hs]]]. set (t := gm_t P) in *.
    rewrite (idx_ok f0) by lia. cbn [bind]. rewrite upd_ok by lia. cbn [bind].
    match goal with |- bind (for_range_rev 1 _ ?b _) _ = _ => change b with gm_final end.
    set (c1 := set_nth cur (t - 1) _). assert (L1 : length c1 = t) by (unfold c1; rewrite set_nth_length; lia).
    destruct (gm_final_loop t c1 q' ltac:(lia) L1 Lq') as [a2 [q2 E2]].
    rewrite E2. cbn [bind]. f_equal.
    change (gm_ref t (gm_d P) (gm_rounds P) (gm_rc P) x) with (gm_ref_round t (gm_d P) (nth (gm_rounds P - 1) (gm_rc P) f0) (gm_mid P (gm_rounds P - 1) x)).
    set (s := gm_mid P (gm_rounds P - 1) x) in *. unfold gm_ref_round. set (p := fpow _ _) in *.
    assert (G : forall i, 1 <= i < t -> sumn i (fun k => nth k q' f0) = fadd (sumn (i - 1) (fun k => nth k q f0)) p)
      by (intros j Hj; apply (gm_queue_sum t p q q'); (assumption || lia)).
    apply map_seq_ext. intros i Hi. rewrite !Hs by lia. unfold c1. rewrite set_nth_nth by lia.
    destruct (Nat.eqb_spec i 0) as [->|Ni].
    - destruct (Nat.eqb_spec 0 (t - 1)); [lia|]. cbn [Nat.leb andb Nat.sub sumn]. ring.
    - destruct (Nat.leb_spec 1 i); [|lia]. destruct (Nat.ltb_spec i (t - 1)); cbn [andb].
      + destruct (Nat.eqb_spec i (t - 1)); [lia|]. rewrite G by lia. ring.
      + assert (i = t - 1) by lia. subst i. rewrite Nat.eqb_refl. rewrite (G (t - 1)) by lia. ring.
  Qed.

  Lemma gm_opt_panic dbg P x : gm_wf P -> ~ (length x = gm_t P /\ 1 <= gm_t P /\ 1 <= gm_rounds P) ->
    gm_permutation dbg P x = Panic.
  Proof.
    intros HW HN. unfold gm_permutation. destruct (Nat.ltb_spec (gm_t P) 8) as [L|L]; [apply gm_not_opt_panic; assumption|].
    destruct (Nat.eqb_spec (gm_t P) (length x)) as [E|]; [|reflexivity]. cbn [assert bind].
    assert (R0 : gm_rounds P = 0) by lia. destruct HW as [Hd Hrc].
    assert (Hn : gm_rc P = []) by (destruct (gm_rc P); [reflexivity|simpl in Hrc; lia]).
    rewrite R0. destruct (usub dbg 0 1) as [hi| |] eqn:Eu; [|reflexivity|exfalso; exact (usub_not_fuel _ _ _ Eu)].
    cbn [bind]. apply gm_zero_rounds in Eu. rewrite for_range_step by lia.
    unfold gm_step. rewrite (idx_ok f0) by lia. cbn [bind]. rewrite gm_sbox_nil by exact Hn. reflexivity.
  Qed.

  Lemma gm_new_ok rng t d rounds (P : GmimcParams F) : gm_new rng t d rounds = Ok P ->
    sbox_degree d /\ P = {| gm_t := t; gm_d := d; gm_rounds := rounds; gm_rc := map rng (seq 0 rounds) |} /\ gm_wf P.
  Proof.
    intros H. unfold gm_new in H. inv_ok H. destruct a. apply assert_ok in E. apply degree_bool in E. injection H as <-.
    split; [exact E|]. split; [reflexivity|]. split; [exact E|]. cbn. unfold gm_instantiate_rc. rewrite map_length, seq_length. reflexivity.
  Qed.

  (** ** final statements *)
  Theorem gm_reference dbg rng t d rounds (P : GmimcParams F) x :
    gm_new rng t d rounds = Ok P -> length x = t -> 1 <= t -> 1 <= rounds ->
    gm_permutation dbg P x = Ok (gm_ref t d rounds (map rng (seq 0 rounds)) x) /\
    gm_permutation_not_opt dbg P x = Ok (gm_ref t d rounds (map rng (seq 0 rounds)) x).
  Proof.
    intros H Hx Ht Hr. destruct (gm_new_ok _ _ _ _ _ H) as [Hd [-> HW]].
    assert (N := gm_not_opt_ref dbg _ x HW Hx Ht Hr). split; [|exact N].
    destruct (le_lt_dec 8 t) as [L|L]; [apply (gm_opt_ref dbg _ x HW Hx L Hr)|].
    unfold gm_permutation. cbn [gm_t]. destruct (Nat.ltb_spec t 8); [exact N|lia].
  Qed.

  Theorem gm_panics dbg rng t d rounds (P : GmimcParams F) x :
    gm_new rng t d rounds = Ok P -> ~ (length x = t /\ 1 <= t /\ 1 <= rounds) ->
    gm_permutation dbg P x = Panic /\ gm_permutation_not_opt dbg P x = Panic.
  Proof.
    intros H HN. destruct (gm_new_ok _ _ _ _ _ H) as [Hd [-> HW]].
    split; [apply gm_opt_panic|apply gm_not_opt_panic]; assumption.
  Qed.

  Theorem gm_opt_eq dbg rng t d rounds (P : GmimcParams F) x :
    gm_new rng t d rounds = Ok P -> gm_permutation dbg P x = gm_permutation_not_opt dbg P x.
  Proof.
    intros H. destruct (Nat.eq_dec (length x) t) as [E1|N1]; [destruct (le_lt_dec 1 t) as [E2|N2]; [destruct (le_lt_dec 1 rounds) as [E3|N3]|]|].
    1: destruct (gm_reference dbg rng t d rounds P x H E1 E2 E3) as [-> ->]; reflexivity.
    all: destruct (gm_panics dbg rng t d rounds P x H) as [-> ->]; [lia|reflexivity].
  Qed.

  Lemma gm_ref_length t d rounds (rc x : list F) : length (gm_ref t d rounds rc x) = t.
  Proof. apply gm_ref_round_length. Qed.

  Theorem gm_outcome dbg rng t d rounds (P : GmimcParams F) x :
    gm_new rng t d rounds = Ok P ->
    ((exists y, gm_permutation dbg P x = Ok y /\ length y = t) <-> (length x = t /\ 1 <= t /\ 1 <= rounds)) /\
    (~ (length x = t /\ 1 <= t /\ 1 <= rounds) -> gm_permutation dbg P x = Panic).
  Proof.
    intros H. split; [split|].
    - intros [y [E _]]. destruct (Nat.eq_dec (length x) t) as [E1|N1]; [destruct (le_lt_dec 1 t) as [E2|N2]; [destruct (le_lt_dec 1 rounds) as [E3|N3]|]|].
      1: auto. all: destruct (gm_panics dbg rng t d rounds P x H) as [E' _]; [lia|congruence].
    - intros [E1 [E2 E3]]. destruct (gm_reference dbg rng t d rounds P x H E1 E2 E3) as [-> _]. eexists. split; [reflexivity|apply gm_ref_length].
    - intros HN. apply (gm_panics dbg rng t d rounds P x H HN).
  Qed.

  Theorem gm_new_outcome (rng : nat -> F) t d rounds :
    ((exists P, gm_new rng t d rounds = Ok P) <-> d = 3 \/ d = 5 \/ d = 7) /\
    (~ (d = 3 \/ d = 5 \/ d = 7) -> gm_new rng t d rounds = Panic).
  Proof.
    split; [split|].
    - intros [P H]. destruct (gm_new_ok _ _ _ _ _ H) as [Hd _]. unfold sbox_degree in Hd. cbn [In] in Hd. intuition.
    - intros [-> | [-> | ->]]; eexists; reflexivity.
    - intros HN. unfold gm_new. destruct ((d =? 3) || (d =? 5) || (d =? 7)) eqn:E; [|reflexivity].
      exfalso. apply HN. apply degree_bool in E. unfold sbox_degree in E. cbn [In] in E. intuition.
  Qed.

  Theorem gm_profiles rng t d rounds (P : GmimcParams F) x :
    gm_new rng t d rounds = Ok P -> gm_permutation true P x = gm_permutation false P x.
  Proof.
    intros H. destruct (Nat.eq_dec (length x) t) as [E1|N1]; [destruct (le_lt_dec 1 t) as [E2|N2]; [destruct (le_lt_dec 1 rounds) as [E3|N3]|]|].
    1: destruct (gm_reference true rng t d rounds P x H E1 E2 E3) as [-> _]; destruct (gm_reference false rng t d rounds P x H E1 E2 E3) as [-> _]; reflexivity.
    all: destruct (gm_panics true rng t d rounds P x H) as [-> _]; [lia|]; destruct (gm_panics false rng t d rounds P x H) as [-> _]; [lia|reflexivity].
  Qed.

  (** ** bijection *)
  Lemma gm_round_lbij t d (c : F) : 1 <= t -> lbij t (gm_ref_round t d c).
  Proof.
    intros Ht. split; [intros; apply gm_ref_round_length|].
    exists (fun x => map (fun i => if i =? 0 then nth 0 x f0 else fsub (nth i x f0) (fpow (fadd (nth 0 x f0) c) d)) (seq 0 t)).
    intros x Hx. split; [rewrite map_length, seq_length; reflexivity|]. unfold gm_ref_round. split.
    - apply (list_ext f0); [rewrite map_length, seq_length; congruence|]. intros i Hi. rewrite map_length, seq_length in Hi.
      rewrite !nth_map_seq by lia. cbn [Nat.eqb]. destruct (Nat.eqb_spec i 0) as [->|]; [reflexivity|ring].
    - apply (list_ext f0); [rewrite map_length, seq_length; congruence|]. intros i Hi. rewrite map_length, seq_length in Hi.
      rewrite !nth_map_seq by lia. cbn [Nat.eqb]. destruct (Nat.eqb_spec i 0) as [->|]; [reflexivity|ring].
  Qed.
  Lemma gm_rotate_lbij t : 1 <= t -> lbij t (@gm_ref_rotate F Fo t).
  Proof.
    intros Ht. split; [intros; apply gm_ref_rotate_length|].
    exists (fun x => map (fun i => if i =? t - 1 then nth 0 x f0 else nth (S i) x f0) (seq 0 t)).
    intros x Hx. split; [rewrite map_length, seq_length; reflexivity|]. unfold gm_ref_rotate. split.
    - apply (list_ext f0); [rewrite map_length, seq_length; congruence|]. intros i Hi. rewrite map_length, seq_length in Hi.
      rewrite nth_map_seq by lia. destruct i as [|i].
      + rewrite nth_map_seq by lia. rewrite Nat.eqb_refl. reflexivity.
      + rewrite nth_map_seq by lia. destruct (Nat.eqb_spec i (t - 1)); [lia|reflexivity].
    - apply (list_ext f0); [rewrite map_length, seq_length; congruence|]. intros i Hi. rewrite map_length, seq_length in Hi.
      rewrite (nth_map_seq _ f0 t i) by lia. rewrite (nth_map_seq _ f0 t 0) by lia. destruct (Nat.eqb_spec i (t - 1)) as [->|N]; [reflexivity|]. rewrite nth_map_seq by lia. reflexivity.
  Qed.
  Theorem gm_bijective dbg rng t d rounds (P : GmimcParams F) :
    gm_new rng t d rounds = Ok P -> 1 <= t -> 1 <= rounds ->
    bijective_on t (gm_permutation dbg P).
  Proof.
    intros H Ht Hr. apply (lbij_bijective t (gm_ref t d rounds (map rng (seq 0 rounds)))).
    - unfold gm_ref. apply (lbij_comp t (gm_ref_round t d (nth (rounds - 1) (map rng (seq 0 rounds)) f0))
        (fun x => fold_left (fun s r => gm_ref_rotate t (gm_ref_round t d (nth r (map rng (seq 0 rounds)) f0) s)) (seq 0 (rounds - 1)) x)); [apply gm_round_lbij; exact Ht|].
      apply (lbij_fold t (fun s r => gm_ref_rotate t (gm_ref_round t d (nth r (map rng (seq 0 rounds)) f0) s))).
      intros r _. apply (lbij_comp t (gm_ref_rotate t) (gm_ref_round t d (nth r (map rng (seq 0 rounds)) f0))); [apply gm_rotate_lbij|apply gm_round_lbij]; exact Ht.
    - intros x Hx. apply (gm_reference dbg rng t d rounds P x H Hx Ht Hr).
  Qed.
End Gm.
