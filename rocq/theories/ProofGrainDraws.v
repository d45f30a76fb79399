(** * ProofGrainDraws: drawing field elements from the generator ends (C93) *)
From Coq Require Import Znumtheory Zpow_facts.
From Verif Require Import Base ModelFields ModelGrain ProofGrainPoly ProofGrainCycle ProofGrainCycle2 ProofGrainCycle3.
Local Open Scope nat_scope.

Definition nx (s : list bool) : bool * list bool := match grain_next 79 s with Ok r => r | _ => (false, s) end.
Fixpoint sg (j : nat) (s : list bool) : list bool := match j with O => s | S m => sg m (snd (nx s)) end.
Definition os (s : list bool) (j : nat) : bool := fst (nx (sg j s)).
Lemma nx_ok s : reg s -> reg (snd (nx s)) /\ forall fuel, 79 <= fuel -> grain_next fuel s = Ok (nx s).
Proof.
  intros H. destruct (no_stall s H) as [b [s' [R E]]]. assert (N : nx s = (b, s')) by (unfold nx; rewrite (E 79) by lia; reflexivity). rewrite N. split; [exact R|exact E].
Qed.
Lemma sg_add a : forall b s, sg (a + b) s = sg b (sg a s).
Proof. induction a as [|a IH]; intros b s; [reflexivity|]. cbn [Nat.add sg]. apply IH. Qed.
Lemma sg_S j s : sg (S j) s = snd (nx (sg j s)).
Proof. rewrite <- Nat.add_1_r, sg_add. reflexivity. Qed.
Lemma sg_reg j : forall s, reg s -> reg (sg j s).
Proof. induction j as [|j IH]; intros s H; [exact H|]. cbn [sg]. apply IH, nx_ok, H. Qed.
Lemma bits_os s fuel n : reg s -> 79 <= fuel -> forall j, grain_bits fuel n (sg j s) = Ok (map (os s) (seq j n), sg (j + n) s).
Proof.
  intros H Hf. induction n as [|n IH]; intros j; [cbn [grain_bits seq map]; rewrite Nat.add_0_r; reflexivity|].
  cbn [grain_bits seq map]. destruct (nx_ok (sg j s) (sg_reg j s H)) as [_ E]. rewrite (E fuel Hf). cbn [bind].
  rewrite (surjective_pairing (nx (sg j s))), <- sg_S, IH. cbn [bind]. rewrite Nat.add_succ_r. reflexivity.
Qed.
Lemma map_seq_nth (f : nat -> bool) a n i : i < n -> nth i (map f (seq a n)) false = f (a + i).
Proof. intros H. rewrite (nth_indep _ false (f 0)) by (rewrite map_length, seq_length; exact H). rewrite map_nth, seq_nth by exact H. reflexivity. Qed.
Lemma os_period s M : reg s -> N.of_nat M = (2 ^ 79)%N -> (forall j, os s (j + M) = os s j) /\ N.of_nat (count_occ Bool.bool_dec (map (os s) (seq 0 M)) true) = (2 ^ 78)%N.
Proof.
  intros H HM. destruct (balanced s M 79 H HM ltac:(lia)) as [l [s' [A [B [_ [C _]]]]]].
  pose proof (bits_os s 79 M H ltac:(lia) 0) as G. cbn [sg] in G. rewrite A in G. injection G as El Es. cbn [Nat.add] in Es.
  pose proof (bits_os s 79 M H ltac:(lia) M) as G. rewrite <- Es, B in G. injection G as El' Es'.
  split; [|rewrite <- El; exact C]. intros j. destruct (Nat.lt_ge_cases j M) as [L|L].
  - replace (os s j) with (os s (0 + j)) by reflexivity. rewrite <- (map_seq_nth (os s) 0 M j L), <- El, El', map_seq_nth by exact L. f_equal. lia.
  - unfold os. do 2 f_equal. replace (j + M) with (M + M + (j - M)) by lia. replace j with (M + (j - M)) at 2 by lia. rewrite !(sg_add _ (j - M)). f_equal. congruence.
Qed.
Lemma os_mul s M y : (forall j, os s (j + M) = os s j) -> forall j, os s (j + y * M) = os s j.
Proof. intros H. induction y as [|y IH]; intros j; [f_equal; lia|]. replace (j + S y * M) with (j + y * M + M) by lia. rewrite H. apply IH. Qed.

(** ** Values below p *)
Definition val (s : list bool) (n j : nat) : Z := bits_to_Z (map (os s) (seq j n)).
Lemma draw_at s n p fuel : reg s -> 79 <= fuel -> forall i j tries, i < tries -> (val s n (j + i * n) < p)%Z -> (forall k, k < i -> (p <= val s n (j + k * n))%Z) ->
  draw_below fuel tries n p (sg j s) = Ok (val s n (j + i * n), sg (j + i * n + n) s).
Proof.
  intros H Hf. induction i as [|i IH]; intros j tries Ht V Z; (destruct tries as [|tries]; [lia|]); cbn [draw_below]; unfold grain_random_bits; rewrite bits_os by assumption; cbn [bind].
  - fold (val s n j). rewrite Nat.mul_0_l, Nat.add_0_r in *. destruct (p <=? val s n j)%Z eqn:E; [apply Z.leb_le in E; lia|]. reflexivity.
  - fold (val s n j). pose proof (Z 0 ltac:(lia)) as Z0. rewrite Nat.mul_0_l, Nat.add_0_r in Z0. apply Z.leb_le in Z0. rewrite Z0.
    rewrite (IH (j + n) tries); [|lia|replace (j + n + i * n) with (j + S i * n) by lia; exact V|intros k Hk; replace (j + n + k * n) with (j + S k * n) by lia; apply Z; lia].
    replace (j + n + i * n) with (j + S i * n) by lia. reflexivity.
Qed.
Definition heavy (n g : nat) (p : Z) : Prop := forall l, length l = n -> (p <= bits_to_Z l)%Z -> g < 2 * count_occ Bool.bool_dec (firstn g l) true.
Lemma solve_mod a K m : 0 < a -> 0 < K -> Nat.gcd a K = 1 -> exists i y y', i < K /\ i * a + K * y' = m + K * y.
Proof.
  intros Ha HK G. destruct (Nat.gcd_bezout_pos a K Ha) as [x [y E]]. rewrite G in E.
  exists ((x * m) mod K), (y * m), (a * (x * m / K)). split; [apply Nat.mod_upper_bound; lia|].
  pose proof (Nat.div_mod (x * m) K ltac:(lia)) as D. nia.
Qed.
Lemma firstn_seq_map (f : nat -> bool) g : forall n a, g <= n -> firstn g (map f (seq a n)) = map f (seq a g).
Proof. induction g as [|g IH]; intros [|n] a H; cbn [firstn seq map]; try reflexivity; try lia. rewrite IH by lia. reflexivity. Qed.
Lemma below_exists s n p M g K a : reg s -> N.of_nat M = (2 ^ 79)%N -> M = g * K -> n = g * a -> 0 < a -> Nat.gcd a K = 1 -> heavy n g p ->
  exists i, i < K /\ (val s n (0 + i * n) < p)%Z.
Proof.
  intros H HM EM En Ha G HV. destruct (os_period s M H HM) as [Per Ones].
  assert (M0 : 0 < M) by (destruct M; [discriminate HM|lia]). assert (K0 : 0 < K) by (destruct K; lia).
  destruct (existsb (fun i => (val s n (0 + i * n) <? p)%Z) (seq 0 K)) eqn:X.
  - apply existsb_exists in X. destruct X as [i [Hi Ei]]. apply in_seq in Hi. apply Z.ltb_lt in Ei. exists i. split; [lia|exact Ei].
  - exfalso.
    assert (Z : forall i, i < K -> (p <= val s n (0 + i * n))%Z).
    { intros i Hi. apply Z.nlt_ge. intros C. apply Z.ltb_lt in C. enough (Y : existsb (fun i => (val s n (0 + i * n) <? p)%Z) (seq 0 K) = true) by (rewrite X in Y; discriminate Y).
      apply existsb_exists. exists i. split; [apply in_seq; lia|exact C]. }
    assert (W : forall m, g < 2 * count_occ Bool.bool_dec (map (os s) (seq (m * g) g)) true).
    { intros m. destruct (solve_mod a K m Ha K0 G) as [i [y [y' [Hi E]]]]. pose proof (HV _ ltac:(rewrite map_length, seq_length; reflexivity) (Z i Hi)) as Q.
      rewrite firstn_seq_map in Q by nia. replace (map (os s) (seq (m * g) g)) with (map (os s) (seq (0 + i * n) g)); [exact Q|].
      apply (nth_ext _ _ false false); rewrite ?map_length, ?seq_length; [reflexivity|]. intros r Hr. rewrite !map_seq_nth by exact Hr.
      rewrite <- (os_mul s M y' Per), <- (os_mul s M y Per (m * g + r)). f_equal. nia. }
    assert (T : forall m, m * g + m <= 2 * count_occ Bool.bool_dec (map (os s) (seq 0 (m * g))) true).
    { induction m as [|m IH]; [cbn; lia|]. replace (S m * g) with (m * g + g) by lia. rewrite seq_app, map_app, count_occ_app. specialize (W m). cbn [Nat.add]. lia. }
    specialize (T K). replace (K * g) with M in T by lia.
    assert (Two : N.of_nat (2 * count_occ Bool.bool_dec (map (os s) (seq 0 M)) true) = N.of_nat M) by (rewrite Nat2N.inj_mul, Ones, HM; reflexivity).
    apply Nat2N.inj in Two. lia.
Qed.
Lemma bits_acc l : forall acc, fold_left (fun v (b : bool) => (2 * v + if b then 1 else 0)%Z) l acc = (acc * 2 ^ Z.of_nat (length l) + bits_to_Z l)%Z.
Proof.
  unfold bits_to_Z. induction l as [|b l IH]; intros acc; [cbn; lia|]. cbn [fold_left length]. rewrite IH, (IH (2 * 0 + _)%Z). rewrite Nat2Z.inj_succ, Z.pow_succ_r by lia. ring.
Qed.
Lemma bits_app l r : bits_to_Z (l ++ r) = (bits_to_Z l * 2 ^ Z.of_nat (length r) + bits_to_Z r)%Z.
Proof. unfold bits_to_Z at 1. rewrite fold_left_app. apply bits_acc. Qed.
Lemma bits_cons b l : bits_to_Z (b :: l) = ((if b then 1 else 0) * 2 ^ Z.of_nat (length l) + bits_to_Z l)%Z.
Proof. exact (bits_app [b] l). Qed.
Lemma bits_range l : (0 <= bits_to_Z l < 2 ^ Z.of_nat (length l))%Z.
Proof.
  induction l as [|b l IH]; [cbn; lia|]. rewrite bits_cons. cbn [length]. rewrite Nat2Z.inj_succ, Z.pow_succ_r by lia. destruct b; lia.
Qed.
Lemma bits_top l : bits_to_Z l = (2 ^ Z.of_nat (length l) - 1)%Z -> count_occ Bool.bool_dec l true = length l.
Proof.
  induction l as [|b l IH]; [reflexivity|]. rewrite bits_cons. cbn [length]. rewrite Nat2Z.inj_succ, Z.pow_succ_r by lia. pose proof (bits_range l) as R. intros E.
  destruct b; [|lia]. cbn [count_occ]. destruct (Bool.bool_dec true true) as [_|N]; [|congruence]. f_equal. apply IH. lia.
Qed.
Lemma bits_pos l : (0 < bits_to_Z l)%Z -> 1 <= count_occ Bool.bool_dec l true.
Proof.
  induction l as [|b l IH]; [cbn; lia|]. rewrite bits_cons. cbn [count_occ]. destruct b; destruct (Bool.bool_dec _ true); try discriminate; try congruence; intros H; [lia|]. apply IH. lia.
Qed.

Definition drawable (n : nat) (p : Z) : Prop := forall s, reg s -> exists v s', reg s' /\ (0 <= v < p)%Z /\
  forall fuel tries, 79 <= fuel -> (2 ^ 79 <= N.of_nat tries)%N -> draw_below fuel tries n p s = Ok (v, s').
Theorem draw_ends n p M g K a : N.of_nat M = (2 ^ 79)%N -> M = g * K -> n = g * a -> 0 < a -> Nat.gcd a K = 1 -> heavy n g p -> drawable n p.
Proof.
  intros HM EM En Ha G HV s H. destruct (below_exists s n p M g K a H HM EM En Ha G HV) as [i0 [Hi0 V0]].
  destruct (least (fun i => (val s n (0 + i * n) <? p)%Z) K) as [i [Hi [V Z]]]; [exists i0; split; [exact Hi0|apply Z.ltb_lt, V0]|].
  apply Z.ltb_lt in V. exists (val s n (0 + i * n)), (sg (0 + i * n + n) s). split; [apply sg_reg, H|]. split; [split; [apply bits_range|exact V]|]. intros fuel tries Hf Ht.
  apply (draw_at s n p fuel H Hf i 0 tries); [|exact V|intros k Hk; apply Z.ltb_ge, Z, Hk].
  assert (g0 : 0 < g) by (destruct g; [rewrite EM in HM; discriminate HM|lia]). assert (M <= tries) by lia. nia.
Qed.

Lemma gcd_pow2 a K e : Nat.odd a = true -> N.of_nat K = (2 ^ e)%N -> Nat.gcd a K = 1.
Proof.
  intros Ho HK. assert (R : rel_prime (Z.of_nat a) (Z.of_nat K)).
  { assert (EK : Z.of_nat K = (2 ^ Z.of_N e)%Z) by (rewrite <- nat_N_Z, HK, N2Z.inj_pow; reflexivity). rewrite EK. apply rel_prime_Zpower_r; [lia|].
    apply rel_prime_sym, prime_rel_prime; [exact prime_2|]. intros [c Ec]. apply Nat.odd_spec in Ho. destruct Ho as [m Em]. lia. }
  destruct (Nat.gcd_divide_l a K) as [x X]. destruct (Nat.gcd_divide_r a K) as [y Y]. set (d := Nat.gcd a K) in *.
  destruct R as [_ _ R]. specialize (R (Z.of_nat d) ltac:(exists (Z.of_nat x); rewrite <- Nat2Z.inj_mul, <- X; reflexivity) ltac:(exists (Z.of_nat y); rewrite <- Nat2Z.inj_mul, <- Y; reflexivity)).
  apply Z.divide_1_r in R. lia.
Qed.
Lemma drawable_by n p g a e : n = g * a -> Nat.odd a = true -> (N.of_nat g * 2 ^ e = 2 ^ 79)%N -> heavy n g p -> drawable n p.
Proof.
  intros En Ho He HV. assert (EK : N.of_nat (N.to_nat (2 ^ e)) = (2 ^ e)%N) by apply N2Nat.id. revert EK. generalize (N.to_nat (2 ^ e)) as K. intros K EK.
  apply (draw_ends n p (g * K) g K a); [rewrite Nat2N.inj_mul, EK; exact He|reflexivity|exact En|destruct a; [discriminate Ho|lia]|apply (gcd_pow2 a K e Ho EK)|exact HV].
Qed.
Theorem drawable_odd n p : Nat.odd n = true -> (2 ^ (Z.of_nat n - 1) <= p)%Z -> drawable n p.
Proof.
  intros Ho Hp. apply (drawable_by n p 1 n 79); [lia|exact Ho|reflexivity|]. intros [|b l] HL HV; [cbn in HL; subst n; discriminate Ho|].
  cbn [length] in HL. rewrite bits_cons in HV. pose proof (bits_range l) as R. replace (Z.of_nat n - 1)%Z with (Z.of_nat (length l)) in Hp by lia.
  destruct b; [cbn; lia|lia].
Qed.
Lemma heavy_bn256 : heavy 254 2 p_bn256.
Proof.
  intros [|b [|c l]] HL HV; try discriminate HL. injection HL as HL. rewrite !bits_cons in HV. cbn [length] in HV. rewrite HL in HV. pose proof (bits_range l) as R. rewrite HL in R.
  assert (P : (2 ^ Z.of_nat 253 + 2 ^ Z.of_nat 252 <= p_bn256)%Z) by (apply Z.leb_le; vm_compute; reflexivity).
  assert (Q : (2 ^ Z.of_nat 253 = 2 * 2 ^ Z.of_nat 252)%Z) by (vm_compute; reflexivity).
  destruct b, c; [cbn; lia|lia|lia|lia].
Qed.
Lemma heavy_goldilocks : heavy 64 64 p_goldilocks.
Proof.
  intros l HL HV. rewrite firstn_all2 by lia. rewrite <- (firstn_skipn 32 l) in HV |- *. rewrite bits_app in HV. rewrite count_occ_app.
  assert (L1 : length (firstn 32 l) = 32) by (rewrite firstn_length; lia). assert (L2 : length (skipn 32 l) = 32) by (rewrite skipn_length; lia).
  pose proof (bits_range (firstn 32 l)) as R1. pose proof (bits_range (skipn 32 l)) as R2. rewrite L1 in R1. rewrite L2 in R2, HV.
  change (2 ^ Z.of_nat 32)%Z with 4294967296%Z in *. unfold p_goldilocks in HV.
  assert (E1 : bits_to_Z (firstn 32 l) = 4294967295%Z) by lia. assert (E2 : (0 < bits_to_Z (skipn 32 l))%Z) by lia.
  pose proof (bits_top (firstn 32 l) ltac:(rewrite L1; exact E1)) as T. pose proof (bits_pos _ E2). lia.
Qed.
Definition moduli : list Z := [p_babybear; p_bls12; p_bn256; p_goldilocks; p_pallas; p_vesta].
Lemma bits_unique n m p : (2 ^ (Z.of_nat n - 1) <= p < 2 ^ Z.of_nat n)%Z -> (2 ^ (Z.of_nat m - 1) <= p < 2 ^ Z.of_nat m)%Z -> n = m.
Proof.
  assert (A : forall x y, x < y -> (p < 2 ^ Z.of_nat x)%Z -> (2 ^ (Z.of_nat y - 1) <= p)%Z -> False).
  { intros x y L B C. pose proof (Z.pow_le_mono_r 2 (Z.of_nat x) (Z.of_nat y - 1) ltac:(lia) ltac:(lia)). lia. }
  intros [H1 H2] [H3 H4]. destruct (Nat.lt_trichotomy n m) as [L|[L|L]]; [exfalso; exact (A _ _ L H2 H3)|exact L|exfalso; exact (A _ _ L H4 H1)].
Qed.
Theorem drawable_shipped p n : In p moduli -> (2 ^ (Z.of_nat n - 1) <= p < 2 ^ Z.of_nat n)%Z -> drawable n p.
Proof.
  intros Hp Hn.
  assert (B : forall m, ((2 ^ (Z.of_nat m - 1) <=? p) && (p <? 2 ^ Z.of_nat m) = true)%Z -> n = m).
  { intros m E. apply andb_true_iff in E. destruct E as [E1 E2]. apply Z.leb_le in E1. apply Z.ltb_lt in E2. exact (bits_unique n m p Hn (conj E1 E2)). }
  unfold moduli in Hp. cbn [In] in Hp.
  destruct Hp as [<-|[<-|[<-|[<-|[<-|[<-|[]]]]]]].
  - rewrite (B 31) in * by (vm_compute; reflexivity). apply drawable_odd; [reflexivity|apply Hn].
  - rewrite (B 255) in * by (vm_compute; reflexivity). apply drawable_odd; [reflexivity|apply Hn].
  - rewrite (B 254) by (vm_compute; reflexivity). exact (drawable_by 254 p_bn256 2 127 78 eq_refl eq_refl eq_refl heavy_bn256).
  - rewrite (B 64) by (vm_compute; reflexivity). exact (drawable_by 64 p_goldilocks 64 1 73 eq_refl eq_refl eq_refl heavy_goldilocks).
  - rewrite (B 255) in * by (vm_compute; reflexivity). apply drawable_odd; [reflexivity|apply Hn].
  - rewrite (B 255) in * by (vm_compute; reflexivity). apply drawable_odd; [reflexivity|apply Hn].
Qed.
