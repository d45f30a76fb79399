(** * ProofGrainDraws2: start registers and the lists of constants (C92, C93) *)
From Verif Require Import Base ModelFields ModelGrain ProofGrainPoly ProofGrainCycle ProofGrainCycle2 ProofGrainCycle3 ProofGrainDraws.
Local Open Scope nat_scope.

Definition small_params (field sbox n t rf rp : nat) : Prop := field < 4 /\ sbox < 16 /\ n < 4096 /\ t < 4096 /\ rf < 1024 /\ rp < 1024.
Lemma zfill_length w v : length (zfill w v) = w.
Proof. unfold zfill. rewrite map_length, seq_length. reflexivity. Qed.
Lemma zfill_inj w v v' : v < 2 ^ w -> v' < 2 ^ w -> zfill w v = zfill w v' -> v = v'.
Proof.
  intros H H' E. apply Nat.bits_inj. intros i. destruct (Nat.lt_ge_cases i w) as [L|L].
  - assert (G : forall x, nth (w - 1 - i) (zfill w x) false = Nat.testbit x i).
    { intros x. unfold zfill. rewrite (nth_indep _ false (Nat.testbit x (w - 1 - 0))) by (rewrite map_length, seq_length; lia).
      rewrite (map_nth (fun i => Nat.testbit x (w - 1 - i))), seq_nth by lia. f_equal. lia. }
    rewrite <- !G, E. reflexivity.
  - rewrite <- (Nat.mod_small v (2 ^ w) H), <- (Nat.mod_small v' (2 ^ w) H'), !Nat.mod_pow2_bits_high by exact L. reflexivity.
Qed.
Lemma app_inj_len {A} (l1 l2 r1 r2 : list A) : length l1 = length l2 -> l1 ++ r1 = l2 ++ r2 -> l1 = l2 /\ r1 = r2.
Proof.
  revert l2. induction l1 as [|x l1 IH]; intros [|y l2] L E; try discriminate L; [split; [reflexivity|exact E]|]. injection L as L. cbn [app] in E. injection E as -> E.
  destruct (IH l2 L E) as [-> ->]. split; reflexivity.
Qed.
Lemma init_inj f b n t rf rp f' b' n' t' rf' rp' : small_params f b n t rf rp -> small_params f' b' n' t' rf' rp' ->
  init_generator f b n t rf rp = init_generator f' b' n' t' rf' rp' -> (f, b, n, t, rf, rp) = (f', b', n', t', rf', rp').
Proof.
  intros (A1 & A2 & A3 & A4 & A5 & A6) (B1 & B2 & B3 & B4 & B5 & B6) E. unfold init_generator in E.
  assert (P10 : 2 ^ 10 = 1024) by reflexivity. assert (P12 : 2 ^ 12 = 4096) by reflexivity.
  do 6 (apply app_inj_len in E; [|rewrite !zfill_length; reflexivity]; destruct E as [?E E]).
  apply zfill_inj in E0, E1, E2, E3, E4, E5; rewrite ?P10, ?P12; try assumption. congruence.
Qed.
Lemma init_length f b n t rf rp : length (init_generator f b n t rf rp) = 80.
Proof. unfold init_generator. rewrite !app_length, !zfill_length, repeat_length. reflexivity. Qed.
Lemma init_reg f b n t rf rp : reg (init_generator f b n t rf rp).
Proof. split; [apply init_length|]. unfold init_generator. repeat (apply in_or_app; right). left. reflexivity. Qed.
Lemma start_reg f b n t rf rp : reg (grain_start f b n t rf rp).
Proof. unfold grain_start. apply warm_reg, init_reg. Qed.
Lemma warm_back k s s' : length s = 80 -> length s' = 80 -> grain_warm k s = grain_warm k s' -> s = s'.
Proof.
  assert (W : exists P, k <= k * P /\ forall s, length s = 80 -> grain_warm P s = s) by (exists (Pos.to_nat PP); split; [pose proof (Pos2Nat.is_pos PP); nia|exact warm_PP]).
  destruct W as [P [HP W]]. intros L L' E.
  assert (M : forall m s, length s = 80 -> grain_warm (m * P) s = s). { induction m as [|m IH]; intros x Hx; [reflexivity|]. cbn [Nat.mul]. rewrite warm_add, W by exact Hx. apply IH, Hx. }
  rewrite <- (M k s L), <- (M k s' L'). replace (k * P) with (k + (k * P - k)) by lia. rewrite !warm_add, E. reflexivity.
Qed.
Theorem start_inj f b n t rf rp f' b' n' t' rf' rp' : small_params f b n t rf rp -> small_params f' b' n' t' rf' rp' ->
  grain_start f b n t rf rp = grain_start f' b' n' t' rf' rp' -> (f, b, n, t, rf, rp) = (f', b', n', t', rf', rp').
Proof. unfold grain_start. intros H H' E. apply init_inj; try assumption. apply (warm_back 160); [apply init_length|apply init_length|exact E]. Qed.
Theorem step_bijective s s' : length s = 80 -> length s' = 80 ->
  (snd (grain_step s) = snd (grain_step s') -> s = s') /\ (exists r, length r = 80 /\ snd (grain_step r) = s').
Proof.
  intros L L'. split; [exact (warm_back 1 s s' L L')|].
  assert (W : exists P, grain_warm (S P) s' = s') by (destruct PP_odd as [h G]; exists (2 * h); rewrite <- (warm_PP s' L') at 2; f_equal; lia).
  destruct W as [P W]. exists (grain_warm P s'). split; [apply warm_length, L'|]. rewrite <- warm_S. exact W.
Qed.
Theorem zero_stalls fuel : grain_next fuel (repeat false 80) = Fuel.
Proof.
  assert (S1 : grain_step (repeat false 80) = (false, repeat false 80)) by reflexivity.
  assert (A : forall f, grain_skip f false (repeat false 80) = Fuel) by (induction f as [|f IH]; [reflexivity|]; cbn [grain_skip]; rewrite !S1; cbn [snd]; rewrite S1; exact IH).
  unfold grain_next. rewrite S1, A. reflexivity.
Qed.

(** ** The list of the round constants *)
Section Constants.
  Context (n : nat) (p : Z) (HD : drawable n p) (Hp : (0 < p)%Z).
  Definition inr (v : Z) : Prop := (0 <= v < p)%Z.
  Definition big (fuel : nat) : Prop := (2 ^ 79 <= N.of_nat fuel)%N.
  Lemma big_79 fuel : big fuel -> 79 <= fuel. Proof. unfold big. intros H. change (2 ^ 79)%N with 604462909807314587353088%N in H. lia. Qed.
  Lemma constants_end t a b : a <= b -> forall i s, reg s -> exists rc s', reg s' /\ Forall inr rc /\ length rc = i + (t - 1) * (Nat.min i b - Nat.min i a) /\
    forall fuel, big fuel -> for_range 0 i (fun i '(rc, s) =>
      '(v, s) <- draw_below fuel fuel n p s ;;
      let rc := rc ++ [v] in
      let rc := if (a <=? i) && (i <? b) then rc ++ repeat 0%Z (t - 1) else rc in
      Ok (rc, s)) ([], s) = Ok (rc, s').
  Proof.
    intros Hab. induction i as [|i IH]; intros s H.
    - exists [], s. split; [exact H|]. split; [constructor|]. split; [cbn; lia|]. intros fuel _. apply for_range_empty. lia.
    - destruct (IH s H) as (rc & s1 & R1 & F1 & L1 & E1). destruct (HD s1 R1) as (v & s2 & R2 & V2 & E2).
      exists (if (a <=? i) && (i <? b) then (rc ++ [v]) ++ repeat 0%Z (t - 1) else rc ++ [v]), s2. split; [exact R2|].
      assert (F2 : Forall inr (rc ++ [v])) by (apply Forall_app; split; [exact F1|constructor; [exact V2|constructor]]).
      split; [|split].
      + destruct ((a <=? i) && (i <? b)); [|exact F2]. apply Forall_app. split; [exact F2|]. apply Forall_forall. intros x Hx. apply repeat_spec in Hx. subst x. split; [lia|exact Hp].
      + destruct ((a <=? i) && (i <? b)) eqn:E.
        * apply andb_true_iff in E. destruct E as [Ea Eb]. apply Nat.leb_le in Ea. apply Nat.ltb_lt in Eb. rewrite !app_length, repeat_length, L1. cbn [length].
          replace (Nat.min i b) with i by lia. replace (Nat.min i a) with a by lia. replace (Nat.min (S i) b) with (S i) by lia. replace (Nat.min (S i) a) with a by lia. nia.
        * rewrite app_length, L1. cbn [length]. apply andb_false_iff in E. destruct E as [E|E]; [apply Nat.leb_gt in E|apply Nat.ltb_ge in E].
          -- replace (Nat.min (S i) b - Nat.min (S i) a) with 0 by lia. replace (Nat.min i b - Nat.min i a) with 0 by lia. lia.
          -- replace (Nat.min (S i) b - Nat.min (S i) a) with (Nat.min i b - Nat.min i a) by lia. lia.
      + intros fuel Hf. rewrite for_range_last by lia. rewrite E1 by exact Hf. cbn [bind]. rewrite E2 by (try apply big_79; exact Hf). reflexivity.
  Qed.
  Theorem generate_ends t rf rp s : 1 <= t -> reg s -> exists rc s', reg s' /\ Forall inr rc /\ length rc = (rf + rp) * t /\
    forall fuel, big fuel -> generate_constants fuel n t rf rp p s = Ok (rc, s').
  Proof.
    intros Ht H. destruct (constants_end t (rf / 2 * t) (rf / 2 * t + rp) ltac:(lia) (rf * t + rp) s H) as (rc & s' & A & B & C & D).
    exists rc, s'. split; [exact A|]. split; [exact B|]. split; [|exact D]. rewrite C.
    assert (rf / 2 * t <= rf * t) by (apply Nat.mul_le_mono_r, Nat.div_le_upper_bound; lia).
    replace (Nat.min (rf * t + rp) (rf / 2 * t + rp)) with (rf / 2 * t + rp) by lia. replace (Nat.min (rf * t + rp) (rf / 2 * t)) with (rf / 2 * t) by lia.
    replace (rf / 2 * t + rp - rf / 2 * t) with rp by lia. nia.
  Qed.
  Theorem generate_poseidon_ends t rf rp s : reg s -> exists rc s', reg s' /\ Forall inr rc /\ length rc = (rf + rp) * t /\
    forall fuel, big fuel -> generate_constants_poseidon fuel n t rf rp p s = Ok (rc, s').
  Proof.
    intros H. destruct (constants_end 1 0 0 ltac:(lia) ((rf + rp) * t) s H) as (rc & s' & A & B & C & D).
    exists rc, s'. split; [exact A|]. split; [exact B|]. split; [rewrite C; lia|]. intros fuel Hf. unfold generate_constants_poseidon. rewrite <- (D fuel Hf).
    apply for_range_ext. intros i [rc0 s0] _. apply bind_ext. intros [v s1] _. cbn. destruct i; reflexivity.
  Qed.
  (** lists of values taken without rejection always end *)
End Constants.
Theorem list_ends n k s : reg s -> exists l s', reg s' /\ length l = k /\ Forall (fun v => (0 <= v < 2 ^ Z.of_nat n)%Z) l /\ forall fuel, 79 <= fuel -> grain_list fuel n k s = Ok (l, s').
Proof.
  revert s. induction k as [|k IH]; intros s H.
  - exists [], s. split; [exact H|]. split; [reflexivity|]. split; [constructor|]. reflexivity.
  - destruct (IH (sg (0 + n) s) (sg_reg _ s H)) as (l & s' & A & B & C & D). exists (val s n 0 :: l), s'. split; [exact A|]. split; [cbn [length]; f_equal; exact B|]. split.
    + constructor; [|exact C]. unfold val. pose proof (bits_range (map (os s) (seq 0 n))) as R. rewrite map_length, seq_length in R. exact R.
    + intros fuel Hf. cbn [grain_list]. unfold grain_random_bits. change s with (sg 0 s) at 1. rewrite bits_os by assumption. cbn [bind]. rewrite D by exact Hf. reflexivity.
Qed.
Theorem separation f b n t rf rp : small_params f b n t rf rp -> reg (grain_start f b n t rf rp) /\
  forall f' b' n' t' rf' rp', small_params f' b' n' t' rf' rp' ->
    grain_start f b n t rf rp = grain_start f' b' n' t' rf' rp' -> (f, b, n, t, rf, rp) = (f', b', n', t', rf', rp').
Proof. intros H. split; [apply start_reg|]. intros f' b' n' t' rf' rp'. apply start_inj, H. Qed.
Lemma moduli_pos p : In p moduli -> (0 < p)%Z.
Proof. intros H. unfold moduli in H. cbn [In] in H. destruct H as [<-|[<-|[<-|[<-|[<-|[<-|[]]]]]]]; apply Z.ltb_lt; vm_compute; reflexivity. Qed.
Theorem constants p n : In p moduli -> (2 ^ (Z.of_nat n - 1) <= p < 2 ^ Z.of_nat n)%Z -> forall f b t rf rp, small_params f b n t rf rp -> 1 <= t ->
  exists rc s', reg s' /\ Forall (inr p) rc /\ length rc = (rf + rp) * t /\ forall fuel, big fuel -> generate_constants fuel n t rf rp p (grain_start f b n t rf rp) = Ok (rc, s').
Proof. intros Hp Hn f b t rf rp _ Ht. exact (generate_ends n p (drawable_shipped p n Hp Hn) (moduli_pos p Hp) t rf rp _ Ht (start_reg f b n t rf rp)). Qed.
Theorem constants_poseidon p n : In p moduli -> (2 ^ (Z.of_nat n - 1) <= p < 2 ^ Z.of_nat n)%Z -> forall f b t rf rp, small_params f b n t rf rp ->
  exists rc s', reg s' /\ Forall (inr p) rc /\ length rc = (rf + rp) * t /\ forall fuel, big fuel -> generate_constants_poseidon fuel n t rf rp p (grain_start f b n t rf rp) = Ok (rc, s').
Proof. intros Hp Hn f b t rf rp _. exact (generate_poseidon_ends n p (drawable_shipped p n Hp Hn) (moduli_pos p Hp) t rf rp _ (start_reg f b n t rf rp)). Qed.
Theorem never tries s v s' : draw_below 79 tries 3 0 s <> Ok (v, s').
Proof.
  revert s. induction tries as [|m IH]; intros s; cbn [draw_below]; [discriminate|]. unfold grain_random_bits.
  destruct (grain_bits 79 3 s) as [[l s1]| |]; cbn [bind]; [|discriminate|discriminate]. pose proof (bits_range l). destruct (0 <=? bits_to_Z l)%Z eqn:E; [apply IH|]. apply Z.leb_gt in E. lia.
Qed.
