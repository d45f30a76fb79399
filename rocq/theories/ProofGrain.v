(** * ProofGrain: a word-level evaluation of the Grain generator and its correctness *)
From Coq Require Import Uint63.
From Verif Require Import Base Field ModelGrain.
Local Open Scope nat_scope.

(** ** Eventually, as fuel grows *)
Definition ev {A} (f : nat -> res A) (a : A) : Prop := exists n, forall m, n <= m -> f m = Ok a.

Lemma ev_ok {A} (a : A) : ev (fun _ => Ok a) a.
Proof. exists 0. reflexivity. Qed.
Lemma ev_bind {A B} (f : nat -> res A) a (g : nat -> A -> res B) b :
  ev f a -> ev (fun m => g m a) b -> ev (fun m => bind (f m) (g m)) b.
Proof. intros [n Hn] [k Hk]. exists (n + k). intros m Hm. rewrite Hn by lia. cbn [bind]. apply Hk. lia. Qed.
Lemma ev_ext {A} (f g : nat -> res A) a : (forall m, f m = g m) -> ev g a -> ev f a.
Proof. intros E [n H]. exists n. intros m Hm. rewrite E. apply H. exact Hm. Qed.
Lemma ev_S {A} (f : nat -> res A) a : ev (fun m => f (S m)) a -> ev f a.
Proof. intros [n H]. exists (S n). intros [|m] Hm; [lia|]. apply H. lia. Qed.

(** ** Bits of machine integers *)
Definition tb (x : int) (i : nat) : bool := Z.testbit (to_Z x) (Z.of_nat i).
Lemma tb_lsr x c i : tb (x >> c)%uint63 i = Z.testbit (to_Z x) (Z.of_nat i + to_Z c)%Z.
Proof. unfold tb. rewrite lsr_spec, <- Z.shiftr_div_pow2 by apply to_Z_bounded. apply Z.shiftr_spec. lia. Qed.
Lemma tb_lsl x c i : i < 63 -> tb (x << c)%uint63 i = Z.testbit (to_Z x) (Z.of_nat i - to_Z c)%Z.
Proof.
  intros Hi. unfold tb. rewrite lsl_spec, <- Z.shiftl_mul_pow2 by apply to_Z_bounded. unfold wB.
  rewrite Z.mod_pow2_bits_low by (change (Z.of_nat size) with 63%Z; lia). apply Z.shiftl_spec. lia.
Qed.
Lemma tb_lor x y i : tb (x lor y)%uint63 i = tb x i || tb y i.
Proof. unfold tb. rewrite lor_spec'. apply Z.lor_spec. Qed.
Lemma tb_land x y i : tb (x land y)%uint63 i = tb x i && tb y i.
Proof. unfold tb. rewrite land_spec'. apply Z.land_spec. Qed.
Lemma tb_lxor x y i : tb (x lxor y)%uint63 i = xorb (tb x i) (tb y i).
Proof. unfold tb. rewrite lxor_spec'. apply Z.lxor_spec. Qed.
Lemma tb_high x i : 63 <= i -> tb x i = false.
Proof.
  intros Hi. unfold tb. pose proof (to_Z_bounded x) as [B1 B2].
  apply Z.bits_above_log2; [exact B1|]. destruct (Z.eq_dec (to_Z x) 0) as [->|N]; [cbn; lia|].
  apply Z.log2_lt_pow2; [lia|]. eapply Z.lt_le_trans; [exact B2|]. unfold wB. change (Z.of_nat size) with 63%Z.
  apply Z.pow_le_mono_r; lia.
Qed.
Lemma tb_mask i : tb 65535%uint63 i = (i <? 16).
Proof.
  unfold tb. change (to_Z 65535) with (Z.ones 16). destruct (Nat.ltb_spec i 16).
  - apply Z.ones_spec_low. lia.
  - apply Z.ones_spec_high. lia.
Qed.

(** ** The register as a window of a bit sequence *)
Section Stream.
  Variable s0 : list bool.
  Hypothesis HL : length s0 = 80.

  Fixpoint st (k : nat) : list bool := match k with O => s0 | S m => snd (grain_step (st m)) end.
  Definition u (k : nat) : bool := nth 0 (st k) false.

  Lemma st_length k : length (st k) = 80.
  Proof.
    induction k as [|k IH]; [exact HL|]. cbn [st grain_step snd]. rewrite app_length. cbn [length].
    destruct (st k); cbn in *; lia.
  Qed.
  Lemma st_nth i : forall k, i < 80 -> nth i (st k) false = u (k + i).
  Proof.
    induction i as [|i IH]; intros k Hi; [rewrite Nat.add_0_r; reflexivity|].
    rewrite Nat.add_succ_r, <- Nat.add_succ_l, <- IH by lia. cbn [st grain_step snd].
    pose proof (st_length k) as L. destruct (st k) as [|b l] eqn:E; [discriminate|]. cbn [tl nth].
    rewrite app_nth1 by (cbn in L; lia). reflexivity.
  Qed.
  Lemma u_next k : u (k + 80) = xorb (u (k + 62)) (xorb (u (k + 51)) (xorb (u (k + 38)) (xorb (u (k + 23)) (xorb (u (k + 13)) (u k))))).
  Proof.
    assert (E : u (k + 80) = grain_bit (st k)).
    { replace (k + 80) with (S k + 79) by lia. rewrite <- st_nth by lia. cbn [st grain_step snd].
      pose proof (st_length k) as L. destruct (st k) as [|b l] eqn:E; [discriminate|]. cbn [tl].
      rewrite app_nth2 by (cbn in L; lia). replace (79 - length l) with 0 by (cbn in L; lia). reflexivity. }
    rewrite E. unfold grain_bit. rewrite !st_nth by lia. rewrite Nat.add_0_r. reflexivity.
  Qed.
  Lemma step_st k : grain_step (st k) = (u (k + 80), st (S k)).
  Proof.
    rewrite (surjective_pairing (grain_step (st k))). f_equal. rewrite u_next. unfold grain_step, grain_bit. cbn [fst].
    rewrite !st_nth by lia. rewrite Nat.add_0_r. reflexivity.
  Qed.

  Lemma next_taken k : u (k + 80) = true -> ev (fun m => grain_next m (st k)) (u (k + 81), st (S (S k))).
  Proof.
    intros E. exists 0. intros m _. unfold grain_next. rewrite step_st, E.
    destruct m; cbn [grain_skip bind]; rewrite step_st; replace (S k + 80) with (k + 81) by lia; reflexivity.
  Qed.
  Lemma next_skipped k r : u (k + 80) = false -> ev (fun m => grain_next m (st (S (S k)))) r -> ev (fun m => grain_next m (st k)) r.
  Proof.
    intros E H. apply ev_S. eapply ev_ext; [|exact H]. intros m. unfold grain_next at 1. rewrite step_st, E.
    cbn [grain_skip]. rewrite step_st. cbn [snd]. rewrite step_st. unfold grain_next. rewrite step_st. reflexivity.
  Qed.

  (** the generator can produce l from s *)
  Fixpoint produces (s : list bool) (l : list bool) : Prop :=
    match l with [] => True | b :: l' => exists s1, ev (fun m => grain_next m s) (b, s1) /\ produces s1 l' end.

  Definition emit (sel out : bool) (l : list bool) : list bool := if sel then out :: l else l.
  Lemma emit_ok k l : produces (st (S (S k))) l -> produces (st k) (emit (u (k + 80)) (u (k + 81)) l).
  Proof.
    intros H. destruct (u (k + 80)) eqn:E; cbn [emit].
    - cbn [produces]. exists (st (S (S k))). split; [apply next_taken; exact E|exact H].
    - destruct l as [|b l]; [exact I|]. cbn [produces] in *. destruct H as [s1 [H1 H2]]. exists s1. split; [|exact H2].
      apply next_skipped; assumption.
  Qed.

  (** sixteen steps at once *)
  Definition word (a b : int) : int :=
    ((b >> 22) lxor (b >> 11) lxor ((a >> 38) lor (b << 2)) lxor (a >> 23) lxor (a >> 13) lxor a) land 65535.
  Definition next_a (a b : int) : int := (a >> 16) lor ((b land 65535) << 24).
  Definition next_b (b w : int) : int := (b >> 16) lor (w << 24).

  Definition rep (n : nat) (a b : int) : Prop :=
    (forall i, tb a i = if i <? 40 then u (n + i) else false) /\ (forall i, tb b i = if i <? 40 then u (n + 40 + i) else false).

  Lemma testbit_shift x i c : (Z.of_nat i + Z.of_nat c)%Z = Z.of_nat (i + c) ->
    Z.testbit (to_Z x) (Z.of_nat i + Z.of_nat c) = tb x (i + c).
  Proof. intros E. unfold tb. rewrite E. reflexivity. Qed.

  Lemma word_ok n a b : rep n a b -> forall i, tb (word a b) i = if i <? 16 then u (n + 80 + i) else false.
  Proof.
    intros [Ha Hb] i. unfold word. rewrite tb_land, tb_mask. destruct (Nat.ltb_spec i 16) as [L|L]; [|apply andb_false_r].
    rewrite andb_true_r, !tb_lxor, tb_lor, !tb_lsr, tb_lsl by lia.
    change (to_Z 22) with (Z.of_nat 22). change (to_Z 11) with (Z.of_nat 11). change (to_Z 38) with (Z.of_nat 38).
    change (to_Z 23) with (Z.of_nat 23). change (to_Z 13) with (Z.of_nat 13). change (to_Z 2) with 2%Z.
    rewrite <- !Nat2Z.inj_add. fold (tb b (i + 22)) (tb b (i + 11)) (tb a (i + 38)) (tb a (i + 23)) (tb a (i + 13)).
    assert (E38 : tb a (i + 38) || Z.testbit (to_Z b) (Z.of_nat i - 2) = u (n + i + 38)).
    { rewrite Ha. destruct (Nat.ltb_spec (i + 38) 40).
      - rewrite Z.testbit_neg_r by lia. rewrite orb_false_r. f_equal. lia.
      - replace (Z.of_nat i - 2)%Z with (Z.of_nat (i - 2)) by lia. fold (tb b (i - 2)). rewrite Hb.
        destruct (Nat.ltb_spec (i - 2) 40); [|lia]. cbn [orb]. f_equal. lia. }
    rewrite E38, !Ha, !Hb.
    repeat match goal with |- context [?x <? 40] => destruct (Nat.ltb_spec x 40); [|lia] end.
    replace (n + 80 + i) with ((n + i) + 80) by lia. rewrite u_next.
    replace (n + 40 + (i + 22)) with (n + i + 62) by lia. replace (n + 40 + (i + 11)) with (n + i + 51) by lia.
    replace (n + (i + 23)) with (n + i + 23) by lia. replace (n + (i + 13)) with (n + i + 13) by lia.
    destruct (u (n + i + 62)), (u (n + i + 51)), (u (n + i + 38)), (u (n + i + 23)), (u (n + i + 13)), (u (n + i)); reflexivity.
  Qed.

  Lemma shl24 x i : (forall j, 16 <= j -> tb x j = false) ->
    tb (x << 24)%uint63 i = if i <? 24 then false else tb x (i - 24).
  Proof.
    intros Hx. destruct (Nat.ltb_spec i 63) as [L|L].
    - rewrite tb_lsl by lia. change (to_Z 24) with 24%Z. destruct (Nat.ltb_spec i 24).
      + apply Z.testbit_neg_r. lia.
      + unfold tb. f_equal. lia.
    - rewrite tb_high by lia. destruct (Nat.ltb_spec i 24); [reflexivity|]. symmetry. apply Hx. lia.
  Qed.

  Lemma next_ok n a b : rep n a b -> rep (n + 16) (next_a a b) (next_b b (word a b)).
  Proof.
    intros HR. pose proof HR as [Ha Hb]. split; intros i.
    - unfold next_a. rewrite tb_lor, tb_lsr, shl24.
      2:{ intros j Hj. rewrite tb_land, tb_mask. destruct (Nat.ltb_spec j 16); [lia|apply andb_false_r]. }
      change (to_Z 16) with (Z.of_nat 16). rewrite <- Nat2Z.inj_add. fold (tb a (i + 16)). rewrite Ha, tb_land, tb_mask, Hb.
      destruct (Nat.ltb_spec i 24), (Nat.ltb_spec i 40), (Nat.ltb_spec (i + 16) 40), (Nat.ltb_spec (i - 24) 40), (Nat.ltb_spec (i - 24) 16);
        try lia; cbn [orb andb]; rewrite ?orb_false_r, ?andb_true_r, ?andb_false_r; try reflexivity; f_equal; lia.
    - unfold next_b. rewrite tb_lor, tb_lsr, shl24.
      2:{ intros j Hj. rewrite (word_ok n a b HR). destruct (Nat.ltb_spec j 16); [lia|reflexivity]. }
      change (to_Z 16) with (Z.of_nat 16). rewrite <- Nat2Z.inj_add. fold (tb b (i + 16)). rewrite Hb, (word_ok n a b HR).
      destruct (Nat.ltb_spec i 24), (Nat.ltb_spec i 40), (Nat.ltb_spec (i + 16) 40), (Nat.ltb_spec (i - 24) 16);
        try lia; cbn [orb andb]; rewrite ?orb_false_r; try reflexivity; f_equal; lia.
  Qed.

  (** the outputs of the eight pairs of a word *)
  Definition pair_out (w sel out : int) (l : list bool) : list bool :=
    if (w land sel =? 0)%uint63 then l else (if (w land out =? 0)%uint63 then false else true) :: l.
  Definition word_out (w : int) (l : list bool) : list bool :=
    pair_out w 1 2 (pair_out w 4 8 (pair_out w 16 32 (pair_out w 64 128
      (pair_out w 256 512 (pair_out w 1024 2048 (pair_out w 4096 8192 (pair_out w 16384 32768 l))))))).

  Lemma land_bit w c i : to_Z c = (2 ^ Z.of_nat i)%Z -> negb (w land c =? 0)%uint63 = tb w i.
  Proof.
    intros E. unfold tb. destruct (Z.testbit (to_Z w) (Z.of_nat i)) eqn:T.
    - apply negb_true_iff. apply Uint63.eqb_false_spec. intros C. apply (f_equal to_Z) in C. rewrite land_spec' in C.
      apply (f_equal (fun z => Z.testbit z (Z.of_nat i))) in C. rewrite Z.land_spec, T, E, Z.pow2_bits_true in C by lia.
      change (to_Z 0) with 0%Z in C. rewrite Z.bits_0 in C. discriminate.
    - apply negb_false_iff. apply Uint63.eqb_spec. apply to_Z_inj. rewrite land_spec'. change (to_Z 0) with 0%Z.
      apply Z.bits_inj_0. intros j. rewrite Z.land_spec, E. destruct (Z.eq_dec j (Z.of_nat i)) as [->|N].
      + rewrite T. reflexivity.
      + rewrite Z.pow2_bits_false by lia. apply andb_false_r.
  Qed.
  Lemma pair_emit w sel out l i j : to_Z sel = (2 ^ Z.of_nat i)%Z -> to_Z out = (2 ^ Z.of_nat j)%Z ->
    pair_out w sel out l = emit (tb w i) (tb w j) l.
  Proof.
    intros E1 E2. unfold pair_out, emit. rewrite <- (land_bit w sel i E1), <- (land_bit w out j E2).
    destruct (w land sel =? 0)%uint63, (w land out =? 0)%uint63; reflexivity.
  Qed.

  Lemma word_out_ok n w l : (forall i, i < 16 -> tb w i = u (n + 80 + i)) ->
    produces (st (n + 16)) l -> produces (st n) (word_out w l).
  Proof.
    intros Hw H. unfold word_out.
    rewrite (pair_emit w 1 2 _ 0 1), (pair_emit w 4 8 _ 2 3), (pair_emit w 16 32 _ 4 5), (pair_emit w 64 128 _ 6 7),
      (pair_emit w 256 512 _ 8 9), (pair_emit w 1024 2048 _ 10 11), (pair_emit w 4096 8192 _ 12 13), (pair_emit w 16384 32768 _ 14 15) by reflexivity.
    rewrite !Hw by lia.
    assert (Q : forall k l', k < 15 -> produces (st (S (S (n + k)))) l' -> produces (st (n + k)) (emit (u (n + 80 + k)) (u (n + 80 + S k)) l')).
    { intros k l' _ Hl. replace (n + 80 + k) with (n + k + 80) by lia. replace (n + 80 + S k) with (n + k + 81) by lia. apply emit_ok. exact Hl. }
    rewrite <- (Nat.add_0_r n) at 1. apply Q; [lia|]. replace (S (S (n + 0))) with (n + 2) by lia.
    apply Q; [lia|]. replace (S (S (n + 2))) with (n + 4) by lia.
    apply Q; [lia|]. replace (S (S (n + 4))) with (n + 6) by lia.
    apply Q; [lia|]. replace (S (S (n + 6))) with (n + 8) by lia.
    apply Q; [lia|]. replace (S (S (n + 8))) with (n + 10) by lia.
    apply Q; [lia|]. replace (S (S (n + 10))) with (n + 12) by lia.
    apply Q; [lia|]. replace (S (S (n + 12))) with (n + 14) by lia.
    apply Q; [lia|]. replace (S (S (n + 14))) with (n + 16) by lia. exact H.
  Qed.

  Fixpoint fast_out (k : nat) (a b : int) : list bool :=
    match k with
    | O => []
    | S m => let w := word a b in word_out w (fast_out m (next_a a b) (next_b b w))
    end.
  Lemma fast_out_ok k : forall n a b, rep n a b -> produces (st n) (fast_out k a b).
  Proof.
    induction k as [|k IH]; intros n a b H; cbn [fast_out]; [exact I|]. apply word_out_ok.
    - intros i Hi. rewrite (word_ok n a b H). destruct (Nat.ltb_spec i 16); [reflexivity|lia].
    - apply IH. apply next_ok. exact H.
  Qed.
End Stream.
