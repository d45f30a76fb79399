(** * ProofGrainCycle: the states of the constant generator (C92) *)
From Coq Require Import Btauto Permutation.
From Verif Require Import Base ModelGrain ProofGrainPoly.
Local Open Scope nat_scope.

Definition reg (s : list bool) : Prop := length s = 80 /\ In true s.

Lemma warm_S k : forall s, grain_warm (S k) s = snd (grain_step (grain_warm k s)).
Proof. induction k as [|k IH]; intros s; [reflexivity|]. cbn [grain_warm] in *. apply IH. Qed.
Lemma warm_add a : forall b s, grain_warm (a + b) s = grain_warm b (grain_warm a s).
Proof. induction a as [|a IH]; intros b s; [reflexivity|]. cbn [Nat.add grain_warm]. apply IH. Qed.
Lemma step_length s : length s = 80 -> length (snd (grain_step s)) = 80.
Proof. intros H. unfold grain_step. cbn [snd]. rewrite app_length. cbn [length]. destruct s; cbn in *; lia. Qed.
Lemma warm_length k : forall s, length s = 80 -> length (grain_warm k s) = 80.
Proof. induction k as [|k IH]; intros s H; [exact H|]. cbn [grain_warm]. apply IH, step_length, H. Qed.

Definition us (s : list bool) (k : nat) : bool := nth 0 (grain_warm k s) false.
Lemma us_add s a n : us (grain_warm a s) n = us s (a + n).
Proof. unfold us. rewrite warm_add. reflexivity. Qed.
Lemma warm_nth s : length s = 80 -> forall i k, i < 80 -> nth i (grain_warm k s) false = us s (k + i).
Proof.
  intros HL. induction i as [|i IH]; intros k Hi; [rewrite Nat.add_0_r; reflexivity|].
  rewrite Nat.add_succ_r, <- Nat.add_succ_l, <- IH by lia. rewrite warm_S. unfold grain_step. cbn [snd].
  pose proof (warm_length k s HL) as L. destruct (grain_warm k s) as [|b l]; [discriminate|]. cbn [tl nth].
  rewrite app_nth1 by (cbn in L; lia). reflexivity.
Qed.
Lemma us_bit s k : length s = 80 -> us s (k + 80) = grain_bit (grain_warm k s).
Proof.
  intros HL. replace (k + 80) with (S k + 79) by lia. rewrite <- warm_nth by (try exact HL; lia). rewrite warm_S. unfold grain_step. cbn [snd].
  pose proof (warm_length k s HL) as L. destruct (grain_warm k s) as [|b l] eqn:E; [discriminate|]. cbn [tl].
  rewrite app_nth2 by (cbn in L; lia). replace (79 - length l) with 0 by (cbn in L; lia). reflexivity.
Qed.
Lemma us_lfsr s : length s = 80 -> lfsr (us s).
Proof. intros HL k. rewrite us_bit by exact HL. unfold grain_bit. rewrite !warm_nth by (try exact HL; lia). rewrite Nat.add_0_r. reflexivity. Qed.
Lemma step_warm s k : length s = 80 -> grain_step (grain_warm k s) = (us s (k + 80), grain_warm (S k) s).
Proof. intros HL. rewrite us_bit, warm_S by exact HL. reflexivity. Qed.

Lemma lfsr_zero e : lfsr e -> (forall i, i < 80 -> e i = false) -> forall i, e i = false.
Proof.
  intros H Z i. induction i as [i IH] using lt_wf_ind. destruct (Nat.lt_ge_cases i 80) as [L|L]; [apply Z, L|].
  replace i with (i - 80 + 80) by lia. rewrite H. rewrite !IH by lia. reflexivity.
Qed.
Lemma lfsr_zero_from e k : lfsr e -> (forall i, e (k + i) = false) -> forall i, e i = false.
Proof.
  intros H Z i. pose proof (per_PP e H) as P. rewrite <- (per_mul e _ k P i). pose proof (Pos2Nat.is_pos PP).
  assert (k <= k * Pos.to_nat PP) by nia.
  replace (i + k * Pos.to_nat PP) with (k + (i + k * Pos.to_nat PP - k)) by lia. apply Z.
Qed.
Lemma zero_state s : length s = 80 -> (forall i, us s i = false) -> ~ In true s.
Proof.
  intros HL Z H. apply (In_nth _ _ false) in H. destruct H as [i [Hi E]]. change s with (grain_warm 0 s) in E. rewrite warm_nth in E by (try exact HL; lia). rewrite Z in E. discriminate E.
Qed.
Lemma nonzero_us s k : reg s -> ~ (forall i, us s (k + i) = false).
Proof. intros [HL HI] Z. apply (zero_state s HL); [|exact HI]. apply (lfsr_zero_from _ k); [apply us_lfsr, HL|exact Z]. Qed.
Lemma not_in_false (l : list bool) : ~ In true l -> forall i, nth i l false = false.
Proof. intros H i. destruct (nth i l false) eqn:E; [|reflexivity]. exfalso. apply H. rewrite <- E. apply nth_In. destruct (Nat.lt_ge_cases i (length l)) as [L|L]; [exact L|]. rewrite nth_overflow in E by exact L. discriminate E. Qed.
Lemma warm_reg k s : reg s -> reg (grain_warm k s).
Proof.
  intros H. pose proof H as [HL HI]. split; [apply warm_length, HL|]. destruct (in_dec Bool.bool_dec true (grain_warm k s)) as [I|N]; [exact I|]. exfalso.
  apply (nonzero_us s k H). intros i. rewrite <- us_add. apply lfsr_zero; [apply us_lfsr, warm_length, HL|]. intros j Hj. rewrite us_add, <- warm_nth by (try exact HL; exact Hj). apply not_in_false, N.
Qed.
Lemma warm_PP s : length s = 80 -> grain_warm (Pos.to_nat PP) s = s.
Proof.
  intros HL. apply (nth_ext _ _ false false); [rewrite warm_length by exact HL; symmetry; exact HL|]. rewrite warm_length by exact HL. intros i Hi.
  rewrite warm_nth by (try exact HL; exact Hi). rewrite Nat.add_comm, (per_PP _ (us_lfsr s HL)). change s with (grain_warm 0 s) at 2. rewrite warm_nth by (try exact HL; exact Hi). reflexivity.
Qed.
Lemma warm_per s i d : length s = 80 -> grain_warm (i + d) s = grain_warm i s -> per (us (grain_warm i s)) d.
Proof. intros HL E n. rewrite !us_add. rewrite (Nat.add_comm n d), Nat.add_assoc, <- us_add, E, us_add. reflexivity. Qed.
Lemma warm_inj s i j : reg s -> i < j -> j - i < Pos.to_nat PP -> grain_warm i s <> grain_warm j s.
Proof.
  intros H L B E. pose proof H as [HL _]. pose proof (warm_per s i (j - i) HL ltac:(replace (i + (j - i)) with j by lia; symmetry; exact E)) as P.
  pose proof (period_exact _ (j - i) (us_lfsr _ (warm_length i s HL)) ltac:(lia) P) as Z. apply (nonzero_us s i H). intros n. rewrite <- us_add. apply Z.
Qed.

(** ** All registers *)
Fixpoint blists (k : nat) : list (list bool) :=
  match k with O => [[]] | S m => map (fun x => x ++ [false]) (blists m) ++ map (fun x => x ++ [true]) (blists m) end.
Lemma blists_length k : length (blists k) = 2 ^ k.
Proof. induction k as [|k IH]; [reflexivity|]. cbn [blists]. rewrite app_length, !map_length, IH, Nat.pow_succ_r'. lia. Qed.
Lemma blists_in k : forall x, In x (blists k) <-> length x = k.
Proof.
  induction k as [|k IH]; intros x.
  - cbn [blists In]. destruct x; cbn; intuition (congruence || lia || discriminate).
  - cbn [blists]. rewrite in_app_iff, !in_map_iff. split.
    + intros [[y [<- H]]|[y [<- H]]]; apply IH in H; rewrite app_length; cbn [length]; lia.
    + intros H. destruct (exists_last (l := x)) as [y [b ->]]; [intros ->; discriminate H|]. rewrite app_length in H. cbn [length] in H.
      destruct b; [right|left]; exists y; (split; [reflexivity|apply IH; lia]).
Qed.
Lemma blists_nodup k : NoDup (blists k).
Proof.
  induction k as [|k IH]; [cbn; repeat constructor; intros []|]. cbn [blists].
  assert (I : forall b, NoDup (map (fun x => x ++ [b]) (blists k))).
  { intros b. apply FinFun.Injective_map_NoDup; [|exact IH]. intros x y E. apply app_inj_tail in E. apply E. }
  assert (D : forall x, In x (map (fun x => x ++ [false]) (blists k)) -> ~ In x (map (fun x => x ++ [true]) (blists k))).
  { intros x H1 H2. apply in_map_iff in H1, H2. destruct H1 as [y [<- _]], H2 as [z [E _]]. apply app_inj_tail in E. destruct E. discriminate. }
  revert D. generalize (I false), (I true). generalize (map (fun x => x ++ [false]) (blists k)) as l1, (map (fun x : list bool => x ++ [true]) (blists k)) as l2.
  induction l1 as [|x l1 IHl]; intros l2 N1 N2 D; [exact N2|]. inversion N1; subst. cbn [app]. constructor.
  - rewrite in_app_iff. intros [H|H]; [contradiction|]. apply (D x); [left; reflexivity|exact H].
  - apply IHl; [assumption|assumption|]. intros y Hy. apply D. right. exact Hy.
Qed.
Lemma cover k (l : list (list bool)) : NoDup l -> (forall x, In x l -> length x = k /\ In true x) -> N.succ (N.of_nat (length l)) = (2 ^ N.of_nat k)%N ->
  forall x, length x = k -> In true x -> In x l.
Proof.
  intros ND HI HN x Hx Hz.
  assert (Z : ~ In (repeat false k) l). { intros C. apply HI in C. destruct C as [_ C]. apply repeat_spec in C. discriminate C. }
  assert (I : In x (repeat false k :: l)).
  { apply (NoDup_length_incl (l := repeat false k :: l) (l' := blists k)); [constructor; assumption| | |apply blists_in, Hx].
    - rewrite blists_length. cbn [length]. assert (E : N.of_nat (2 ^ k) = N.of_nat (S (length l))) by (rewrite Nat2N.inj_pow, (Nat2N.inj_succ (length l)); symmetry; exact HN).
      apply Nat2N.inj in E. lia.
    - intros y [<-|Hy]; apply blists_in; [apply repeat_length|apply HI, Hy]. }
  destruct I as [<-|I]; [|exact I]. apply repeat_spec in Hz. discriminate Hz.
Qed.
Lemma PP_N : N.succ (N.of_nat (Pos.to_nat PP)) = (2 ^ N.of_nat 80)%N.
Proof. rewrite positive_nat_N. reflexivity. Qed.
Lemma map_seq_nodup {A} (f : nat -> A) n : (forall i j, i < j -> j < n -> f i <> f j) -> NoDup (map f (seq 0 n)).
Proof.
  intros H. induction n as [|n IH]; [constructor|]. rewrite seq_S, map_app. cbn [map Nat.add].
  apply (Permutation_NoDup (l := f n :: map f (seq 0 n))); [apply Permutation_cons_append|]. constructor.
  - intros C. apply in_map_iff in C. destruct C as [i [E Hi]]. apply in_seq in Hi. apply (H i n); [lia|lia|exact E].
  - apply IH. intros i j L B. apply H; lia.
Qed.
Lemma warm_all s : reg s -> forall s', reg s' -> In s' (map (fun i => grain_warm i s) (seq 0 (Pos.to_nat PP))).
Proof.
  intros H s' [L' I']. apply (cover 80); [| | |exact L'|exact I'].
  - apply map_seq_nodup. intros i j A B. apply warm_inj; [exact H|exact A|lia].
  - intros x Hx. apply in_map_iff in Hx. destruct Hx as [i [<- _]]. apply warm_reg, H.
  - rewrite map_length, seq_length. exact PP_N.
Qed.
Theorem cycle s s' : reg s -> reg s' -> exists n, ((N.of_nat n < 2 ^ 80 - 1)%N /\ grain_warm n s = s') /\
  forall m, (N.of_nat m < 2 ^ 80 - 1)%N /\ grain_warm m s = s' -> m = n.
Proof.
  intros H H'. pose proof (warm_all s H s' H') as I. apply in_map_iff in I. destruct I as [n [E Hn]]. apply in_seq in Hn.
  assert (B : forall m, (N.of_nat m < 2 ^ 80 - 1)%N <-> m < Pos.to_nat PP).
  { intros m. change (2 ^ 80 - 1)%N with (Npos PP). rewrite <- (positive_nat_N PP). lia. }
  exists n. split; [split; [apply B; lia|exact E]|]. intros m [Hm Em]. apply B in Hm.
  destruct (Nat.lt_trichotomy m n) as [L|[L|L]]; [|exact L|]; exfalso.
  - apply (warm_inj s m n H L); [lia|congruence].
  - apply (warm_inj s n m H L); [lia|congruence].
Qed.

(** ** The generator never stalls *)
Lemma decimated u k : lfsr u -> lfsr (fun i => u (k + 2 * i)).
Proof.
  intros H i. cbv beta. set (m := k + 2 * i).
  replace (k + 2 * (i + 80)) with (m + 160) by (unfold m; lia). replace (k + 2 * (i + 62)) with (m + 124) by (unfold m; lia). replace (k + 2 * (i + 51)) with (m + 102) by (unfold m; lia).
  replace (k + 2 * (i + 38)) with (m + 76) by (unfold m; lia). replace (k + 2 * (i + 23)) with (m + 46) by (unfold m; lia). replace (k + 2 * (i + 13)) with (m + 26) by (unfold m; lia).
  assert (A : forall a, u (m + (a + 80)) = xorb (u (m + (a + 62))) (xorb (u (m + (a + 51))) (xorb (u (m + (a + 38))) (xorb (u (m + (a + 23))) (xorb (u (m + (a + 13))) (u (m + a))))))).
  { intros a. rewrite !Nat.add_assoc. apply H. }
  pose proof (A 0) as A0. pose proof (A 13) as A1. pose proof (A 23) as A2. pose proof (A 38) as A3. pose proof (A 51) as A4. pose proof (A 62) as A5. pose proof (A 80) as A6.
  cbn [Nat.add] in *. rewrite (Nat.add_0_r m) in *. rewrite A6, A5, A4, A3, A2, A1, A0. btauto.
Qed.
