(** * ProofGrainCycle3: one period of the generator has as many ones as zeros (C92) *)
From Coq Require Import Btauto Permutation.
From Verif Require Import Base ModelGrain ProofGrainPoly ProofGrainCycle ProofGrainCycle2.
Local Open Scope nat_scope.

Definition sel (b : bool) (u : nat -> bool) (k i : nat) : bool := u (k + 80 + 2 * i) && Bool.eqb (u (k + 81 + 2 * i)) b.
Lemma outs_count b u k M : count_occ Bool.bool_dec (outs u M k) b = length (filter (sel b u k) (seq 0 M)).
Proof.
  induction M as [|M IH]; [reflexivity|]. replace (outs u (S M) k) with (outs u (M + 1) k) by (f_equal; lia). rewrite outs_app, count_occ_app, IH, seq_S, filter_app, app_length. f_equal.
  cbn [outs filter Nat.add]. unfold sel. replace (k + 2 * M + 80) with (k + 80 + 2 * M) by lia. replace (k + 2 * M + 81) with (k + 81 + 2 * M) by lia.
  destruct (u (k + 80 + 2 * M)); [|reflexivity]. cbn [andb count_occ]. destruct (Bool.bool_dec (u (k + 81 + 2 * M)) b) as [->|N]; [rewrite eqb_reflx; reflexivity|].
  destruct (Bool.eqb (u (k + 81 + 2 * M)) b) eqn:E; [apply eqb_prop in E; contradiction|reflexivity].
Qed.
Lemma count_split (l : list bool) : count_occ Bool.bool_dec l true + count_occ Bool.bool_dec l false = length l.
Proof. induction l as [|[] l IH]; [reflexivity| |]; cbn [count_occ length]; destruct (Bool.bool_dec _ _); destruct (Bool.bool_dec _ _); try discriminate; try congruence; lia. Qed.

Lemma filter_map_length {A B} (f : A -> B) g l : length (filter g (map f l)) = length (filter (fun x => g (f x)) l).
Proof. induction l as [|x l IH]; [reflexivity|]. cbn [map filter]. destruct (g (f x)); cbn [length]; lia. Qed.
Lemma filter_false_length {A} (g : A -> bool) l : (forall x, In x l -> g x = false) -> length (filter g l) = 0.
Proof. induction l as [|x l IH]; intros H; [reflexivity|]. cbn [filter]. rewrite H by (left; reflexivity). apply IH. intros y Hy. apply H. right. exact Hy. Qed.
Lemma filter_true_length {A} (g : A -> bool) l : (forall x, In x l -> g x = true) -> length (filter g l) = length l.
Proof. induction l as [|x l IH]; intros H; [reflexivity|]. cbn [filter length]. rewrite H by (left; reflexivity). cbn [length]. f_equal. apply IH. intros y Hy. apply H. right. exact Hy. Qed.

Definition last2 (k : nat) (b : bool) (x : list bool) : bool := nth k x false && Bool.eqb (nth (S k) x false) b.
Lemma last2_count k b : length (filter (last2 k b) (blists (S (S k)))) = 2 ^ k.
Proof.
  assert (A : forall c d, length (filter (last2 k b) (map (fun x => x ++ [d]) (map (fun x => x ++ [c]) (blists k)))) = if c && Bool.eqb d b then 2 ^ k else 0).
  { intros c d. rewrite !filter_map_length.
    assert (V : forall x, In x (blists k) -> last2 k b ((x ++ [c]) ++ [d]) = c && Bool.eqb d b).
    { intros x Hx. apply blists_in in Hx. unfold last2. rewrite <- app_assoc. cbn [app]. rewrite !app_nth2 by lia. rewrite Hx, Nat.sub_diag. replace (S k - k) with 1 by lia. reflexivity. }
    destruct (c && Bool.eqb d b); [rewrite filter_true_length by exact V; apply blists_length|apply filter_false_length, V]. }
  cbn [blists]. rewrite !map_app, !filter_app, !app_length, !A. destruct b; cbn; lia.
Qed.
Lemma warm2_inj s k i j : reg s -> i < j -> j < Pos.to_nat PP -> grain_warm (k + 2 * i) s <> grain_warm (k + 2 * j) s.
Proof.
  intros H L B E. pose proof H as [HL _].
  pose proof (warm_per s (k + 2 * i) (2 * (j - i)) HL ltac:(replace (k + 2 * i + 2 * (j - i)) with (k + 2 * j) by lia; symmetry; exact E)) as P.
  pose proof (us_lfsr _ (warm_length (k + 2 * i) s HL)) as HU. destruct PP_odd as [h G].
  assert (P1 : per (us (grain_warm (k + 2 * i) s)) (j - i)).
  { intros n. rewrite <- (per_mul _ _ (j - i) (per_PP _ HU)). replace (n + (j - i) + (j - i) * Pos.to_nat PP) with (n + (h + 1) * (2 * (j - i))) by (rewrite G; lia). apply per_mul, P. }
  pose proof (period_exact _ (j - i) HU ltac:(lia) P1) as Z. apply (nonzero_us s (k + 2 * i) H). intros n. rewrite <- us_add. apply Z.
Qed.
Lemma in_true_nth (x : list bool) i : nth i x false = true -> In true x.
Proof. intros E. rewrite <- E. apply nth_In. destruct (Nat.lt_ge_cases i (length x)) as [L|L]; [exact L|]. rewrite nth_overflow in E by exact L. discriminate E. Qed.
Lemma sel_count s k b P : reg s -> P = Pos.to_nat PP -> N.of_nat (length (filter (sel b (us s) k) (seq 0 P))) = (2 ^ 78)%N.
Proof.
  intros H EP. pose proof H as [HL _].
  assert (PN : N.succ (N.of_nat P) = (2 ^ N.of_nat 80)%N) by (rewrite EP; exact PP_N).
  assert (W : forall i j, i < j -> j < P -> grain_warm (k + 2 + 2 * i) s <> grain_warm (k + 2 + 2 * j) s) by (intros i j A B; rewrite EP in B; apply warm2_inj; assumption).
  clear EP.
  assert (LC : N.of_nat (length (filter (last2 78 b) (blists 80))) = (2 ^ 78)%N) by (rewrite (last2_count 78 b), Nat2N.inj_pow; reflexivity).
  rewrite <- LC. clear LC. apply (f_equal N.of_nat).
  assert (BI : forall x, In x (blists 80) <-> length x = 80) by (intros x; apply blists_in).
  pose proof (blists_nodup 80) as BN. revert BI BN. generalize (blists 80). intros BL BI BN.
  assert (E : length (filter (sel b (us s) k) (seq 0 P)) = length (filter (last2 78 b) (map (fun i => grain_warm (k + 2 + 2 * i) s) (seq 0 P)))).
  { rewrite filter_map_length. apply (f_equal (@length nat)), filter_ext. intros i. unfold last2, sel. rewrite !warm_nth by (try exact HL; lia).
    replace (k + 2 + 2 * i + 78) with (k + 80 + 2 * i) by lia. replace (k + 2 + 2 * i + 79) with (k + 81 + 2 * i) by lia. reflexivity. }
  rewrite E. pose proof (map_seq_nodup _ _ W) as ND.
  assert (LL : length (map (fun i => grain_warm (k + 2 + 2 * i) s) (seq 0 P)) = P) by (rewrite map_length, seq_length; reflexivity).
  assert (LR : forall y, In y (map (fun i => grain_warm (k + 2 + 2 * i) s) (seq 0 P)) -> reg y) by (intros y Hy; apply in_map_iff in Hy; destruct Hy as [i [<- _]]; apply warm_reg, H).
  revert ND LL LR. generalize (map (fun i => grain_warm (k + 2 + 2 * i) s) (seq 0 P)). intros L ND LL LR.
  apply Permutation_length, NoDup_Permutation; [apply NoDup_filter, ND|apply NoDup_filter, BN|].
  intros x. rewrite !filter_In. split; intros [I G]; (split; [|exact G]).
  - apply BI. apply LR, I.
  - apply BI in I. unfold last2 in G. apply andb_true_iff in G. destruct G as [G _].
    apply (cover 80 L ND LR); [rewrite LL; exact PN|exact I|apply (in_true_nth x 78 G)].
Qed.
Theorem balanced s num fuel : reg s -> N.of_nat num = (2 ^ 79)%N -> 79 <= fuel ->
  exists l s', grain_bits fuel num s = Ok (l, s') /\ grain_bits fuel num s' = Ok (l, s') /\ reg s' /\
    N.of_nat (count_occ Bool.bool_dec l true) = (2 ^ 78)%N /\ N.of_nat (count_occ Bool.bool_dec l false) = (2 ^ 78)%N.
Proof.
  intros H Hn Hf. pose proof H as [HL _]. remember (Pos.to_nat PP) as P eqn:EP.
  assert (C : forall b, N.of_nat (count_occ Bool.bool_dec (outs (us s) P 0) b) = (2 ^ 78)%N) by (intros b; rewrite outs_count; apply sel_count; [exact H|exact EP]).
  assert (PerU : forall n, us s (n + 2 * P) = us s n) by (intros n; rewrite EP; apply per_mul, per_PP, us_lfsr, HL).
  assert (W : forall n, grain_warm (2 * P + n) s = grain_warm n s).
  { intros n. assert (W0 : grain_warm P s = s) by (rewrite EP; exact (warm_PP s HL)). clear EP. replace (2 * P + n) with (P + (P + n)) by lia. rewrite !warm_add, !W0. reflexivity. }
  clear EP.
  assert (E : num = length (outs (us s) P 0)). { apply Nat2N.inj. rewrite Hn, <- (count_split (outs (us s) P 0)), Nat2N.inj_add, !C. reflexivity. }
  destruct (last_selected (fun i => us s (0 + 80 + 2 * i)) P) as [m [Hm [Lm Zm]]].
  assert (Em : outs (us s) m 0 = outs (us s) P 0).
  { replace P with (m + (P - m)) by lia. rewrite outs_app. rewrite (outs_none (us s) (P - m)); [rewrite app_nil_r; reflexivity|]. intros i Hi.
    replace (0 + 2 * m + 80 + 2 * i) with (0 + 80 + 2 * (m + i)) by lia. apply Zm. lia. }
  assert (m0 : m <> 0). { intros ->. cbn [outs] in Em. specialize (C true). rewrite <- Em in C. discriminate C. }
  assert (Lm' : us s (0 + 80 + 2 * (m - 1)) = true) by (destruct Lm; [contradiction|assumption]).
  exists (outs (us s) P 0), (grain_warm (2 * m) s). rewrite E. split; [|split; [|split; [apply warm_reg, H|split; apply C]]].
  - pose proof (outs_bits s fuel H Hf m 0 (or_intror Lm')) as G. rewrite Em in G. exact G.
  - assert (F : outs (us s) P (2 * m) = outs (us s) P 0).
    { replace (outs (us s) P (2 * m)) with (outs (us s) (P - m + m) (2 * m)) by (f_equal; lia). rewrite outs_app. rewrite outs_none.
      - cbn [app]. rewrite <- Em. apply outs_ext. intros n. replace (2 * m + 2 * (P - m) + n) with (n + 2 * P) by lia. apply PerU.
      - intros i Hi. replace (2 * m + 80 + 2 * i) with (0 + 80 + 2 * (m + i)) by lia. apply Zm. lia. }
    pose proof (outs_bits s fuel H Hf P (2 * m)) as G. rewrite F in G. rewrite G.
    + rewrite (Nat.add_comm (2 * m)), W. reflexivity.
    + right. replace (2 * m + 80 + 2 * (P - 1)) with (0 + 80 + 2 * (m - 1) + 2 * P) by lia. rewrite PerU. exact Lm'.
Qed.
