(** * ProofGrainCycle2: the generator never stalls, and its output is balanced (C92) *)
From Coq Require Import Btauto Permutation.
From Verif Require Import Base ModelGrain ProofGrainPoly ProofGrainCycle.
Local Open Scope nat_scope.

Lemma PP_odd : exists h, Pos.to_nat PP = 2 * h + 1.
Proof. exists (Pos.to_nat 604462909807314587353087). unfold PP. rewrite (Pos2Nat.inj_xI 604462909807314587353087). lia. Qed.
Lemma even_zero u k : lfsr u -> (forall j, j < 80 -> u (k + 2 * j) = false) -> forall i, u (k + i) = false.
Proof.
  intros H Z. pose proof (lfsr_zero _ (decimated u k H) Z) as A. cbv beta in A. intros i.
  destruct (Nat.Even_or_Odd i) as [[h ->]|[h ->]]; [apply A|]. destruct PP_odd as [g G].
  rewrite <- (per_PP u H). replace (k + (2 * h + 1) + Pos.to_nat PP) with (k + 2 * (h + g + 1)) by lia. apply A.
Qed.
Lemma least (f : nat -> bool) n : (exists j, j < n /\ f j = true) -> exists j, j < n /\ f j = true /\ forall i, i < j -> f i = false.
Proof.
  induction n as [|n IH]; intros [j [Hj E]]; [lia|].
  destruct (existsb f (seq 0 n)) eqn:X.
  - apply existsb_exists in X. destruct X as [i [Hi Ei]]. apply in_seq in Hi. destruct IH as [m [A [B C]]]; [exists i; split; [lia|exact Ei]|]. exists m. split; [lia|]. split; assumption.
  - assert (Z : forall i, i < n -> f i = false). { intros i Hi. destruct (f i) eqn:Ei; [|reflexivity]. exfalso. enough (existsb f (seq 0 n) = true) by congruence. apply existsb_exists. exists i. split; [apply in_seq; lia|exact Ei]. }
    exists j. split; [exact Hj|]. split; [exact E|]. intros i Hi. apply Z. lia.
Qed.
Lemma some_selected s k : reg s -> exists j, j < 80 /\ us s (k + 80 + 2 * j) = true /\ forall i, i < j -> us s (k + 80 + 2 * i) = false.
Proof.
  intros H. apply (least (fun j => us s (k + 80 + 2 * j))).
  destruct (existsb (fun j => us s (k + 80 + 2 * j)) (seq 0 80)) eqn:X.
  - apply existsb_exists in X. destruct X as [i [Hi Ei]]. apply in_seq in Hi. exists i. split; [lia|exact Ei].
  - exfalso. apply (nonzero_us s (k + 80) H). apply even_zero; [apply us_lfsr, H|]. intros j Hj.
    destruct (us s (k + 80 + 2 * j)) eqn:E; [|reflexivity]. exfalso.
    enough (Y : existsb (fun j => us s (k + 80 + 2 * j)) (seq 0 80) = true) by (rewrite X in Y; discriminate Y).
    apply existsb_exists. exists j. split; [apply in_seq; lia|exact E].
Qed.
Lemma next_at s : length s = 80 -> forall j k fuel, j <= fuel -> us s (k + 80 + 2 * j) = true -> (forall i, i < j -> us s (k + 80 + 2 * i) = false) ->
  grain_next fuel (grain_warm k s) = Ok (us s (k + 81 + 2 * j), grain_warm (k + 2 * j + 2) s).
Proof.
  intros HL. induction j as [|j IH]; intros k fuel Hf E Z.
  - rewrite Nat.mul_0_r, Nat.add_0_r in E. unfold grain_next. rewrite step_warm by exact HL. rewrite E.
    destruct fuel; cbn [grain_skip bind]; rewrite step_warm by exact HL; do 2 f_equal; try (f_equal; lia); f_equal; lia.
  - pose proof (Z 0 ltac:(lia)) as Z0. rewrite Nat.mul_0_r, Nat.add_0_r in Z0. destruct fuel as [|fuel]; [lia|].
    specialize (IH (S (S k)) fuel ltac:(lia)).
    replace (S (S k) + 80 + 2 * j) with (k + 80 + 2 * S j) in IH by lia. specialize (IH E).
    specialize (IH ltac:(intros i Hi; replace (S (S k) + 80 + 2 * i) with (k + 80 + 2 * S i) by lia; apply Z; lia)).
    replace (k + 81 + 2 * S j) with (S (S k) + 81 + 2 * j) by lia. replace (k + 2 * S j + 2) with (S (S k) + 2 * j + 2) by lia. rewrite <- IH.
    unfold grain_next. rewrite step_warm by exact HL. rewrite Z0. cbn [grain_skip]. rewrite step_warm by exact HL. cbn [snd]. rewrite !step_warm by exact HL. reflexivity.
Qed.
Theorem no_stall s : reg s -> exists b s', reg s' /\ forall fuel, 79 <= fuel -> grain_next fuel s = Ok (b, s').
Proof.
  intros H. destruct (some_selected s 0 H) as [j [Hj [E Z]]]. exists (us s (0 + 81 + 2 * j)), (grain_warm (0 + 2 * j + 2) s).
  split; [apply warm_reg, H|]. intros fuel Hf. apply (next_at s (proj1 H) j 0 fuel); [lia|exact E|exact Z].
Qed.
Lemma next_true s k fuel : reg s -> us s (k + 80) = true -> grain_next fuel (grain_warm k s) = Ok (us s (k + 81), grain_warm (k + 2) s).
Proof.
  intros H E. rewrite (next_at s (proj1 H) 0 k fuel); [|lia|rewrite Nat.mul_0_r, Nat.add_0_r; exact E|intros i Hi; lia].
  do 2 f_equal; f_equal; lia.
Qed.
Lemma next_false s k fuel : reg s -> 79 <= fuel -> us s (k + 80) = false -> grain_next fuel (grain_warm k s) = grain_next fuel (grain_warm (k + 2) s).
Proof.
  intros H Hf E. destruct (some_selected s k H) as [j [Hj [Ej Z]]]. rewrite (next_at s (proj1 H) j k fuel) by (try assumption; lia).
  destruct j as [|j]; [rewrite Nat.mul_0_r, Nat.add_0_r in Ej; congruence|].
  rewrite (next_at s (proj1 H) j (k + 2) fuel); [|lia|replace (k + 2 + 80 + 2 * j) with (k + 80 + 2 * S j) by lia; exact Ej|intros i Hi; replace (k + 2 + 80 + 2 * i) with (k + 80 + 2 * S i) by lia; apply Z; lia].
  do 2 f_equal; f_equal; lia.
Qed.

(** ** The bits produced by M pairs of steps *)
Fixpoint outs (u : nat -> bool) (M k : nat) : list bool :=
  match M with O => [] | S m => if u (k + 80) then u (k + 81) :: outs u m (k + 2) else outs u m (k + 2) end.
Lemma outs_app u a : forall b k, outs u (a + b) k = outs u a k ++ outs u b (k + 2 * a).
Proof.
  induction a as [|a IH]; intros b k; [cbn [Nat.add outs app]; f_equal; lia|]. cbn [Nat.add outs]. rewrite IH. replace (k + 2 + 2 * a) with (k + 2 * S a) by lia.
  destruct (u (k + 80)); reflexivity.
Qed.
Lemma outs_none u M : forall k, (forall i, i < M -> u (k + 80 + 2 * i) = false) -> outs u M k = [].
Proof.
  induction M as [|M IH]; intros k Z; [reflexivity|]. cbn [outs]. pose proof (Z 0 ltac:(lia)) as Z0. rewrite Nat.mul_0_r, Nat.add_0_r in Z0. rewrite Z0.
  apply IH. intros i Hi. replace (k + 2 + 80 + 2 * i) with (k + 80 + 2 * S i) by lia. apply Z. lia.
Qed.
Lemma outs_ext u v M : forall k l, (forall n, u (k + n) = v (l + n)) -> outs u M k = outs v M l.
Proof.
  induction M as [|M IH]; intros k l H; [reflexivity|]. cbn [outs]. rewrite !H. rewrite (IH (k + 2) (l + 2)); [reflexivity|]. intros n. rewrite <- !Nat.add_assoc. apply H.
Qed.
Lemma outs_bits s fuel : reg s -> 79 <= fuel -> forall M k, (M = 0 \/ us s (k + 80 + 2 * (M - 1)) = true) ->
  grain_bits fuel (length (outs (us s) M k)) (grain_warm k s) = Ok (outs (us s) M k, grain_warm (k + 2 * M) s).
Proof.
  intros H Hf. induction M as [|M IH]; intros k HM.
  - cbn [outs length grain_bits]. do 2 f_equal. f_equal. lia.
  - destruct HM as [HM|HM]; [discriminate HM|]. cbn [outs]. destruct (us s (k + 80)) eqn:E.
    + cbn [length grain_bits]. rewrite next_true by assumption. cbn [bind]. rewrite IH.
      * cbn [bind]. do 2 f_equal. f_equal. lia.
      * destruct M as [|M]; [left; reflexivity|right]. replace (k + 2 + 80 + 2 * (S M - 1)) with (k + 80 + 2 * (S (S M) - 1)) by lia. exact HM.
    + assert (M0 : M <> 0) by (intros ->; rewrite Nat.sub_diag, Nat.mul_0_r, Nat.add_0_r in HM; congruence).
      assert (L : us s (k + 2 + 80 + 2 * (M - 1)) = true) by (replace (k + 2 + 80 + 2 * (M - 1)) with (k + 80 + 2 * (S M - 1)) by lia; exact HM).
      specialize (IH (k + 2) (or_intror L)). replace (k + 2 * S M) with (k + 2 + 2 * M) by lia.
      destruct (length (outs (us s) M (k + 2))) as [|m] eqn:EL.
      * exfalso. replace M with (M - 1 + 1) in EL by lia. rewrite outs_app, app_length in EL. cbn [outs] in EL.
        replace (k + 2 + 2 * (M - 1) + 80) with (k + 2 + 80 + 2 * (M - 1)) in EL by lia. rewrite L in EL. cbn [length] in EL. lia.
      * rewrite <- IH. cbn [grain_bits]. rewrite next_false by assumption. reflexivity.
Qed.
Lemma last_selected (f : nat -> bool) M : exists m, m <= M /\ (m = 0 \/ f (m - 1) = true) /\ forall i, m <= i < M -> f i = false.
Proof.
  induction M as [|M [m [A [B C]]]]; [exists 0; split; [lia|split; [left; reflexivity|intros; lia]]|].
  destruct (f M) eqn:E.
  - exists (S M). split; [lia|]. split; [right; replace (S M - 1) with M by lia; exact E|intros; lia].
  - exists m. split; [lia|]. split; [exact B|]. intros i Hi. destruct (Nat.eq_dec i M) as [->|N]; [exact E|]. apply C. lia.
Qed.
