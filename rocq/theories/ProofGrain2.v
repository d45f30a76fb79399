(** * ProofGrain2: draws of the generator *)
From Coq Require Import Uint63.
From Verif Require Import Base Field ModelGrain ProofGrain.
Local Open Scope nat_scope.

(** ** Packing the register *)
Fixpoint pack (l : list bool) : int :=
  match l with [] => 0%uint63 | b :: l' => ((pack l' << 1) lor (if b then 1 else 0))%uint63 end.

Lemma tb_pack l : length l <= 62 -> forall i, tb (pack l) i = nth i l false.
Proof.
  induction l as [|b l IH]; intros HL i; cbn [pack].
  - unfold tb. change (to_Z 0) with 0%Z. rewrite Z.bits_0. destruct i; reflexivity.
  - cbn [length] in HL. rewrite tb_lor.
    assert (E : tb (if b then 1 else 0)%uint63 i = match i with O => b | S _ => false end).
    { unfold tb. destruct b.
      - change (to_Z 1) with (2 ^ 0)%Z. destruct i as [|i]; [reflexivity|]. apply Z.pow2_bits_false. lia.
      - change (to_Z 0) with 0%Z. rewrite Z.bits_0. destruct i; reflexivity. }
    rewrite E. destruct (Nat.ltb_spec i 63) as [L|L].
    + rewrite tb_lsl by exact L. change (to_Z 1) with 1%Z. destruct i as [|i]; cbn [nth].
      * rewrite Z.testbit_neg_r by lia. reflexivity.
      * rewrite orb_false_r. replace (Z.of_nat (S i) - 1)%Z with (Z.of_nat i) by lia. apply (IH ltac:(lia) i).
    + rewrite tb_high by exact L. destruct i as [|i]; [lia|]. cbn [orb nth]. symmetry. apply nth_overflow. lia.
Qed.

Lemma pack_rep s : length s = 80 -> rep s 0 (pack (firstn 40 s)) (pack (skipn 40 s)).
Proof.
  intros HL. assert (N : forall i, i < 80 -> nth i s false = u s i) by (intros i Hi; apply (st_nth s HL i 0 Hi)).
  split; intros i; rewrite tb_pack by (rewrite ?firstn_length, ?skipn_length; lia).
  - destruct (Nat.ltb_spec i 40).
    + cbn [plus]. rewrite <- N by lia. rewrite <- (firstn_skipn 40 s) at 2. rewrite app_nth1; [reflexivity|rewrite firstn_length; lia].
    + apply nth_overflow. rewrite firstn_length. lia.
  - destruct (Nat.ltb_spec i 40).
    + cbn [plus]. rewrite <- N by lia. rewrite <- (firstn_skipn 40 s) at 2.
      rewrite app_nth2 by (rewrite firstn_length; lia). rewrite firstn_length. f_equal. lia.
    + apply nth_overflow. rewrite skipn_length. lia.
Qed.

Fixpoint skip16 (k : nat) (a b : int) : int * int :=
  match k with O => (a, b) | S m => skip16 m (next_a a b) (next_b b (word a b)) end.
Lemma skip16_ok s (HL : length s = 80) k : forall n a b, rep s n a b -> rep s (n + 16 * k) (fst (skip16 k a b)) (snd (skip16 k a b)).
Proof.
  induction k as [|k IH]; intros n a b H; cbn [skip16]; [rewrite Nat.mul_0_r, Nat.add_0_r; exact H|].
  replace (n + 16 * S k) with (n + 16 + 16 * k) by lia. apply IH. apply next_ok; assumption.
Qed.
Lemma warm_st s k : grain_warm k s = st s k.
Proof.
  assert (G : forall k m, grain_warm k (st s m) = st s (m + k)).
  { clear k. induction k as [|k IH]; intros m; cbn [grain_warm]; [rewrite Nat.add_0_r; reflexivity|].
    change (snd (grain_step (st s m))) with (st s (S m)). rewrite IH. f_equal. lia. }
  apply (G k 0).
Qed.

(** all outputs of k words after the discarded steps *)
Definition run (k : nat) (s : list bool) : list bool :=
  let '(a, b) := skip16 10 (pack (firstn 40 s)) (pack (skipn 40 s)) in fast_out k a b.
Theorem run_ok k s : length s = 80 -> produces (grain_warm 160 s) (run k s).
Proof.
  intros HL. unfold run. pose proof (skip16_ok s HL 10 0 _ _ (pack_rep s HL)) as H.
  destruct (skip16 10 _ _) as [a b]. cbn [fst snd] in H. rewrite warm_st. apply (fast_out_ok s HL). exact H.
Qed.

(** ** Numbers *)
Fixpoint take_Z (n : nat) (l : list bool) (v : Z) : option (Z * list bool) :=
  match n with
  | O => Some (v, l)
  | S m => match l with [] => None | b :: l' => take_Z m l' (if b then Z.succ_double v else Z.double v) end
  end.
(** the numbers of n bits contained in l *)
Fixpoint numbers (k n : nat) (l : list bool) : list Z :=
  match k with
  | O => []
  | S m => match take_Z n l 0 with None => [] | Some (v, l') => v :: numbers m n l' end
  end.

Fixpoint draws (n : nat) (s : list bool) (D : list Z) : Prop :=
  match D with [] => True | v :: D' => exists s1, ev (fun m => grain_random_bits m n s) (v, s1) /\ draws n s1 D' end.

Lemma take_Z_ok n : forall l v z l' s, produces s l -> take_Z n l v = Some (z, l') ->
  exists bs s1, ev (fun m => grain_bits m n s) (bs, s1) /\ produces s1 l' /\
    z = fold_left (fun v (b : bool) => (2 * v + if b then 1 else 0)%Z) bs v.
Proof.
  induction n as [|n IH]; intros l v z l' s H E; cbn [take_Z] in E.
  - injection E as <- <-. exists [], s. split; [apply ev_ok|]. split; [exact H|reflexivity].
  - destruct l as [|b l]; [discriminate|]. cbn [produces] in H. destruct H as [s1 [H1 H2]].
    destruct (IH _ _ _ _ _ H2 E) as [bs [s2 [H3 [H4 H5]]]]. exists (b :: bs), s2. split; [|split; [exact H4|]].
    + cbn [grain_bits]. eapply ev_bind; [exact H1|]. cbn beta iota. eapply ev_bind; [exact H3|]. apply ev_ok.
    + cbn [fold_left]. rewrite H5. f_equal. destruct b; [rewrite Z.succ_double_spec|rewrite Z.double_spec]; lia.
Qed.
Theorem numbers_ok k n : forall l s, produces s l -> draws n s (numbers k n l).
Proof.
  induction k as [|k IH]; intros l s H; cbn [numbers]; [exact I|].
  destruct (take_Z n l 0) as [[v l']|] eqn:E; [|exact I].
  destruct (take_Z_ok n l 0 v l' s H E) as [bs [s1 [H1 [H2 H3]]]]. cbn [draws]. exists s1. split; [|apply IH; exact H2].
  unfold grain_random_bits. eapply ev_bind; [exact H1|]. cbn beta iota. unfold bits_to_Z. rewrite <- H3. apply ev_ok.
Qed.

(** ** Rejection sampling *)
Fixpoint accept (p : Z) (D : list Z) : option (Z * list Z) :=
  match D with [] => None | v :: D' => if (p <=? v)%Z then accept p D' else Some (v, D') end.
Lemma accept_ok n p D : forall s v D', draws n s D -> accept p D = Some (v, D') ->
  exists s1, ev (fun m => draw_below m m n p s) (v, s1) /\ draws n s1 D'.
Proof.
  assert (G : forall D s v D', draws n s D -> accept p D = Some (v, D') ->
    exists s1 k, (forall t, k <= t -> ev (fun m => draw_below m t n p s) (v, s1)) /\
      (exists N, forall t m, k <= t -> N <= m -> draw_below m t n p s = Ok (v, s1)) /\ draws n s1 D').
  { clear D. induction D as [|w D IH]; intros s v D' H E; [discriminate|]. cbn [accept draws] in *.
    destruct H as [s1 [[N1 H1] H2]]. destruct (p <=? w)%Z eqn:C.
    - destruct (IH s1 v D' H2 E) as [s2 [k [_ [[N HN] H4]]]]. exists s2, (S k).
      assert (Q : forall t m, S k <= t -> N + N1 <= m -> draw_below m t n p s = Ok (v, s2)).
      { intros [|t] m Ht Hm; [lia|]. cbn [draw_below]. rewrite H1 by lia. cbn [bind]. rewrite C. apply HN; lia. }
      split; [|split; [exists (N + N1); exact Q|exact H4]]. intros t Ht. exists (N + N1). intros m Hm. apply Q; assumption.
    - injection E as <- <-. exists s1, 1.
      assert (Q : forall t m, 1 <= t -> N1 <= m -> draw_below m t n p s = Ok (w, s1)).
      { intros [|t] m Ht Hm; [lia|]. cbn [draw_below]. rewrite H1 by lia. cbn [bind]. rewrite C. reflexivity. }
      split; [|split; [exists N1; exact Q|exact H2]]. intros t Ht. exists N1. intros m Hm. apply Q; assumption. }
  intros s v D' H E. destruct (G D s v D' H E) as [s1 [k [_ [[N HN] H2]]]]. exists s1. split; [|exact H2].
  exists (k + N). intros m Hm. apply HN; lia.
Qed.

(** generate_constants on a list of draws; constants in order *)
Fixpoint constants (zeros : nat -> nat) (p : Z) (i k : nat) (D : list Z) : option (list Z * list Z) :=
  match k with
  | O => Some ([], D)
  | S m => match accept p D with
           | None => None
           | Some (v, D) => match constants zeros p (S i) m D with
                            | None => None
                            | Some (l, D) => Some (v :: repeat 0%Z (zeros i) ++ l, D)
                            end
           end
  end.

Lemma constants_ok n p (zeros : nat -> nat) (body : nat -> nat -> list Z * list bool -> res (list Z * list bool)) :
  (forall m i rc s, body m i (rc, s) = ('(v, s) <- draw_below m m n p s ;; Ok (rc ++ v :: repeat 0%Z (zeros i), s))) ->
  forall k i D s rc l D', draws n s D -> constants zeros p i k D = Some (l, D') ->
  exists s1, ev (fun m => for_list (seq i k) (body m) (rc, s)) (rc ++ l, s1) /\ draws n s1 D'.
Proof.
  intros HB. induction k as [|k IH]; intros i D s rc l D' H E; cbn [constants seq for_list] in *.
  - injection E as <- <-. exists s. split; [rewrite app_nil_r; apply ev_ok|exact H].
  - destruct (accept p D) as [[v D1]|] eqn:EA; [|discriminate].
    destruct (constants zeros p (S i) k D1) as [[l1 D2]|] eqn:EC; [|discriminate]. injection E as <- <-.
    destruct (accept_ok n p D s v D1 H EA) as [s1 [H1 H2]].
    destruct (IH (S i) D1 s1 (rc ++ v :: repeat 0%Z (zeros i)) l1 D2 H2 EC) as [s2 [H3 H4]]. exists s2. split; [|exact H4].
    eapply ev_bind; [|rewrite <- app_assoc in H3; exact H3].
    eapply ev_ext; [intros m; apply HB|]. eapply ev_bind; [exact H1|]. apply ev_ok.
Qed.

Definition p2_zeros (t rf rp i : nat) : nat := if (rf / 2 * t <=? i) && (i <? rf / 2 * t + rp) then t - 1 else 0.
Theorem generate_constants_ok n t rf rp p D s l D' : draws n s D ->
  constants (p2_zeros t rf rp) p 0 (rf * t + rp) D = Some (l, D') ->
  exists s1, ev (fun m => generate_constants m n t rf rp p s) (l, s1) /\ draws n s1 D'.
Proof.
  intros H E. unfold generate_constants, for_range. rewrite Nat.sub_0_r.
  refine (constants_ok n p (p2_zeros t rf rp) _ _ (rf * t + rp) 0 D s [] l D' H E).
  intros m i rc s1. destruct (draw_below m m n p s1) as [[v s2]| |]; cbn [bind]; try reflexivity.
  unfold p2_zeros. destruct ((rf / 2 * t <=? i) && (i <? rf / 2 * t + rp)); [rewrite <- app_assoc|]; reflexivity.
Qed.
Theorem generate_constants_poseidon_ok n t rf rp p D s l D' : draws n s D ->
  constants (fun _ => 0) p 0 ((rf + rp) * t) D = Some (l, D') ->
  exists s1, ev (fun m => generate_constants_poseidon m n t rf rp p s) (l, s1) /\ draws n s1 D'.
Proof.
  intros H E. unfold generate_constants_poseidon, for_range. rewrite Nat.sub_0_r.
  refine (constants_ok n p (fun _ => 0) _ _ ((rf + rp) * t) 0 D s [] l D' H E).
  intros m i rc s1. destruct (draw_below m m n p s1) as [[v s2]| |]; reflexivity.
Qed.

Lemma grain_list_ok n k : forall D s, draws n s D -> k <= length D ->
  exists s1, ev (fun m => grain_list m n k s) (firstn k D, s1) /\ draws n s1 (skipn k D).
Proof.
  induction k as [|k IH]; intros D s H Hk; cbn [grain_list firstn skipn]; [exists s; split; [apply ev_ok|exact H]|].
  destruct D as [|v D]; [cbn in Hk; lia|]. cbn [draws] in H. destruct H as [s1 [H1 H2]].
  destruct (IH D s1 H2 ltac:(cbn in Hk; lia)) as [s2 [H3 H4]]. exists s2. split; [|exact H4].
  eapply ev_bind; [exact H1|]. cbn beta iota. eapply ev_bind; [exact H3|]. apply ev_ok.
Qed.

Lemma skipn_skipn {A} x y (l : list A) : skipn x (skipn y l) = skipn (x + y) l.
Proof.
  revert l. induction y as [|y IH]; intros l; [rewrite Nat.add_0_r; reflexivity|].
  rewrite Nat.add_succ_r. destruct l; [rewrite !skipn_nil; reflexivity|]. cbn [skipn]. apply IH.
Qed.

Section Fld.
  Context {F : Type} {Fo : FOps F}.
  Theorem grain_diagonal_ok n t k : forall D s, draws n s D -> t * S k <= length D ->
    exists s1, ev (fun m => grain_diagonal (F := F) m n t k s) (map f_of_Z (firstn t (skipn (t * k) D)), s1).
  Proof.
    induction k as [|k IH]; intros D s H Hk; cbn [grain_diagonal].
    - destruct (grain_list_ok n t D s H ltac:(lia)) as [s1 [H1 _]]. exists s1. eapply ev_bind; [exact H1|].
      rewrite Nat.mul_0_r. apply ev_ok.
    - destruct (grain_list_ok n t D s H ltac:(lia)) as [s1 [H1 H2]].
      destruct (IH (skipn t D) s1 H2 ltac:(rewrite skipn_length; lia)) as [s2 H3]. exists s2. eapply ev_bind; [exact H1|].
      cbn beta iota. rewrite skipn_skipn in H3. replace (t * S k) with (t * k + t) by lia. exact H3.
  Qed.
End Fld.
