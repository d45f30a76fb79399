(** * ProofScriptDouble: binary64 evaluation of the script's inequalities (C91) *)
From Coq Require Import Reals Lra Lia ZArith List Bool.
From Verif Require Import SpecRounds SpecDouble ModelScript ModelScriptFloat ModelScriptDouble ProofRounds ProofScript ProofDouble ProofScriptFloat.
Local Open Scope R_scope.

(** ** nearest binary64 numbers *)
Lemma nearest_int k v : (Z.abs k <= 2 ^ 53)%Z -> nearest (IZR k) v -> v = IZR k.
Proof.
  intros Hk [_ H]. specialize (H (IZR k) (double_int k Hk)). rewrite Rminus_eq_0, Rabs_R0 in H.
  pose proof (Rabs_pos (v - IZR k)). assert (E : Rabs (v - IZR k) = 0) by lra. destruct (Req_dec (v - IZR k) 0) as [Z|Z]; [lra|]. apply Rabs_no_R0 in Z. contradiction.
Qed.
Lemma nearest_self k : (Z.abs k <= 2 ^ 53)%Z -> nearest (IZR k) (IZR k).
Proof. intros H. split; [apply double_int, H|]. intros w _. rewrite Rminus_eq_0, Rabs_R0. apply Rabs_pos. Qed.
Lemma nearest_abs k x v : (0 <= k <= 53)%Z -> Rabs x <= IZR (2 ^ k) -> nearest x v -> Rabs (v - x) <= / IZR (2 ^ (54 - k)).
Proof.
  intros Hk Hx [_ H]. set (j := (53 - k)%Z). pose proof (pow_ge_1 j ltac:(unfold j; lia)) as J.
  assert (E : IZR (2 ^ (54 - k)) = 2 * IZR (2 ^ j)). { rewrite <- mult_IZR. f_equal. unfold j. rewrite <- Z.pow_succ_r by lia. f_equal. lia. }
  set (b := IZR (2 ^ j)) in *. set (q := Int_part (x * b + / 2)).
  destruct (base_Int_part (x * b + / 2)) as [A B]. fold q in A, B.
  assert (Xb : Rabs (x * b) <= IZR (2 ^ 53)).
  { rewrite Rabs_mult, (Rabs_pos_eq b) by lra. replace (2 ^ 53)%Z with (2 ^ k * 2 ^ j)%Z by (unfold j; rewrite <- Z.pow_add_r by lia; f_equal; lia). rewrite mult_IZR. fold b. apply Rmult_le_compat_r; lra. }
  apply Rabs_le_inv' in Xb.
  assert (Q : (Z.abs q <= 2 ^ 53)%Z).
  { apply Z.abs_le. split.
    - enough (- 2 ^ 53 - 1 < q)%Z by lia. apply lt_IZR. rewrite minus_IZR, opp_IZR. lra.
    - enough (q < 2 ^ 53 + 1)%Z by lia. apply lt_IZR. rewrite plus_IZR. lra. }
  specialize (H (IZR q / b) (double_frac q j Q ltac:(unfold j; lia))). eapply Rle_trans; [exact H|]. rewrite E.
  apply Rabs_le. assert (G : IZR q / b - x = (IZR q - x * b) / b) by (field; lra). rewrite G.
  assert (Hb : 0 < / b) by (apply Rinv_0_lt_compat; lra). rewrite Rinv_mult. unfold Rdiv. split; nra.
Qed.
Lemma nearest_opp x v : nearest x v -> nearest (- x) (- v).
Proof.
  intros [D H]. assert (N : forall y, double y -> double (- y)).
  { intros y [m [e [A [B E]]]]. exists (- m)%Z, e. rewrite Z.abs_opp. split; [exact A|]. split; [exact B|]. rewrite E, opp_IZR. ring. }
  split; [apply N, D|]. intros w Hw. specialize (H (- w) (N w Hw)). rewrite <- (Rabs_Ropp (- v - - x)), <- (Rabs_Ropp (w - - x)).
  replace (- (- v - - x)) with (v - x) by ring. replace (- (w - - x)) with (- w - x) by ring. exact H.
Qed.
Lemma nearest_low x : 0 <= x -> x * IZR (2 ^ 1074) < IZR (2 ^ 53) -> exists v, nearest x v.
Proof.
  intros H0 Hx. pose proof (pow_ge_1 1074 ltac:(lia)) as J. set (j := 1074%Z) in *. set (b := IZR (2 ^ j)) in *. set (X := x * b) in *.
  assert (X0 : 0 <= X) by (unfold X; apply Rmult_le_pos; lra).
  set (q := Int_part (X + / 2)).
  assert (Q : (0 <= q <= 2 ^ 53)%Z).
  { destruct (base_Int_part (X + / 2)) as [A B]. fold q in A, B. split.
    - apply Z.lt_succ_r, lt_IZR. unfold Z.succ. rewrite plus_IZR. lra.
    - apply Z.lt_succ_r, lt_IZR. unfold Z.succ. rewrite plus_IZR. lra. }
  assert (S : forall a, Rabs (a * b - X) = Rabs (a - x) * b).
  { intros a. unfold X. replace (a * b - x * b) with ((a - x) * b) by ring. rewrite Rabs_mult, (Rabs_pos_eq b) by lra. reflexivity. }
  exists (IZR q / b). split; [apply double_frac; unfold j; lia|].
  intros w [m [e [Hm [He Ew]]]]. apply (Rmult_le_reg_r b); [lra|]. rewrite <- !S. replace (IZR q / b * b) with (IZR q) by (field; lra).
  replace (w * b) with (IZR (m * 2 ^ (e + j))); [apply Int_half_near|].
  rewrite mult_IZR, <- p2_IZR by (unfold j; lia). rewrite powerRZ_add by lra. rewrite Ew. unfold b. rewrite <- p2_IZR by (unfold j; lia). ring.
Qed.
Lemma nearest_pos n : forall j x, (n + j = 1074)%nat -> 0 <= x -> x * IZR (2 ^ Z.of_nat j) < IZR (2 ^ 53) -> exists v, nearest x v.
Proof.
  induction n as [|n IH]; intros j x Hn H0 Hx.
  - apply nearest_low; [exact H0|]. replace 1074%Z with (Z.of_nat j) by lia. exact Hx.
  - destruct (Rle_lt_dec (IZR (2 ^ 52)) (x * IZR (2 ^ Z.of_nat j))) as [L|L].
    + apply (nearest_exists x (Z.of_nat j)); [lia|lra].
    + apply (IH (S j)); [lia|exact H0|]. replace (Z.of_nat (S j)) with (Z.succ (Z.of_nat j)) by lia. rewrite Z.pow_succ_r, mult_IZR by lia.
      replace (2 ^ 53)%Z with (2 * 2 ^ 52)%Z by reflexivity. rewrite mult_IZR. lra.
Qed.
Lemma nearest_ex x : Rabs x < IZR (2 ^ 53) -> exists v, nearest x v.
Proof.
  intros H. destruct (Rle_lt_dec 0 x) as [P|P].
  - apply (nearest_pos 1074 0); [reflexivity|exact P|]. change (2 ^ Z.of_nat 0)%Z with 1%Z. rewrite Rabs_pos_eq in H by exact P. lra.
  - destruct (nearest_pos 1074 0 (- x)) as [v Hv]; [reflexivity|lra| |].
    + change (2 ^ Z.of_nat 0)%Z with 1%Z. rewrite Rabs_left in H by exact P. lra.
    + exists (- v). apply nearest_opp in Hv. rewrite Ropp_involutive in Hv. exact Hv.
Qed.

(** ** errors *)
Definition near (e x v : R) : Prop := Rabs (v - x) <= e.
Lemma near_iff e x v : near e x v <-> - e <= v - x <= e.
Proof. unfold near. split; [apply Rabs_le_inv'|apply Rabs_le]. Qed.
Lemma big_53 : IZR (2 ^ 53) = 9007199254740992. Proof. reflexivity. Qed.

(** one operation, on values up to 2000000 *)
Lemma op_ex e x y : near e x y -> e <= 1 -> - 2000000 <= x <= 2000000 -> exists v, nearest y v.
Proof. intros H He Hx. apply near_iff in H. apply nearest_ex. rewrite big_53. apply Rabs_def1; lra. Qed.
Lemma op_near e x y v : near e x y -> e <= 1 -> - 2000000 <= x <= 2000000 -> nearest y v -> near (e + 1 / 10000000) x v.
Proof.
  intros H He Hx Hv. apply near_iff in H. apply (nearest_abs 21) in Hv; [|lia|].
  - apply Rabs_le_inv' in Hv. change (54 - 21)%Z with 33%Z in Hv. change (2 ^ 33)%Z with 8589934592%Z in Hv. apply near_iff. lra.
  - change (2 ^ 21)%Z with 2097152%Z. apply Rabs_le. lra.
Qed.
Lemma near_refl x : near 0 x x.
Proof. apply near_iff. lra. Qed.
Lemma near_le e f x v : near e x v -> e <= f -> near f x v.
Proof. unfold near. lra. Qed.
Lemma near_mul ea eb A B a b a0 b0 : near ea a0 a -> near eb b0 b -> - A <= a0 <= A -> - B <= b0 <= B -> 0 <= A -> 0 <= B ->
  near (A * eb + B * ea + ea * eb) (a0 * b0) (a * b).
Proof.
  intros Ha Hb HA HB A0 B0. unfold near in *. replace (a * b - a0 * b0) with (a0 * (b - b0) + b0 * (a - a0) + (a - a0) * (b - b0)) by ring.
  assert (Xa : Rabs a0 <= A) by (apply Rabs_le; lra). assert (Xb : Rabs b0 <= B) by (apply Rabs_le; lra).
  pose proof (Rabs_pos a0). pose proof (Rabs_pos b0). pose proof (Rabs_pos (a - a0)). pose proof (Rabs_pos (b - b0)).
  eapply Rle_trans; [apply Rabs_triang|]. apply Rplus_le_compat.
  - eapply Rle_trans; [apply Rabs_triang|]. rewrite !Rabs_mult. apply Rplus_le_compat; apply Rmult_le_compat; assumption.
  - rewrite Rabs_mult. apply Rmult_le_compat; assumption.
Qed.
Lemma near_min e a b a0 b0 : near e a0 a -> near e b0 b -> near e (Rmin a0 b0) (Rmin a b).
Proof. intros Ha Hb. apply near_iff in Ha, Hb. apply near_iff. unfold Rmin. destruct (Rle_dec a b), (Rle_dec a0 b0); lra. Qed.

(** ** logarithms *)
Lemma half_ln2 : 1 / 2 <= ln 2 < 9 / 10.
Proof. split; [|exact ln2_lt]. pose proof (ln_gap 1 ltac:(lia)) as G. change (1 + 1)%Z with 2%Z in G. rewrite ln_1 in G. lra. Qed.
Lemma ln_bounds z k : (2 <= z < 2 ^ k)%Z -> (0 <= k)%Z -> 1 / 2 <= ln (IZR z) <= IZR k.
Proof.
  intros [H1 H2] Hk. pose proof half_ln2. split.
  - pose proof (ln_le_Z 2 z ltac:(lia) H1). lra.
  - apply ln_lt_Z in H2; [|lia]. rewrite ln_pow_Z in H2 by lia. assert (0 <= IZR k) by (apply IZR_le; exact Hk). nra.
Qed.
Lemma log_value_ex x : log_value x (ln x).
Proof. unfold log_value. rewrite Rminus_eq_0, Rabs_R0. apply Rmult_le_pos; [apply Rabs_pos|]. left. apply Rinv_0_lt_compat. lra. Qed.
Lemma pow40 : 2 ^ 40 = 1099511627776. Proof. lra. Qed.
Lemma log_ratio_near lx lb X B : Rabs (lx - X) <= Rabs X / 2 ^ 40 -> Rabs (lb - B) <= Rabs B / 2 ^ 40 -> 1 / 2 <= B ->
  near (3 / 2 ^ 40 * Rabs (X / B)) (X / B) (lx / lb).
Proof.
  intros Hx Hb HB. rewrite pow40 in *. rewrite (Rabs_pos_eq B) in Hb by lra. apply Rabs_le_inv' in Hb. assert (Lb : 0 < lb) by lra.
  assert (EB : Rabs (X / B) = Rabs X * / B) by (unfold Rdiv; rewrite Rabs_mult, Rabs_inv, (Rabs_pos_eq B) by lra; reflexivity).
  unfold near. rewrite EB. replace (lx / lb - X / B) with (((lx - X) * B - X * (lb - B)) / (lb * B)) by (field; lra).
  unfold Rdiv at 1. rewrite Rabs_mult, Rabs_inv, (Rabs_pos_eq (lb * B)) by nra.
  apply (Rmult_le_reg_r (lb * B)); [nra|]. rewrite Rmult_assoc, Rinv_l, Rmult_1_r by nra.
  replace (3 / 1099511627776 * (Rabs X * / B) * (lb * B)) with (3 / 1099511627776 * Rabs X * lb) by (field; lra).
  pose proof (Rabs_pos X) as PX.
  apply Rle_trans with (Rabs X / 1099511627776 * B + Rabs X * (B / 1099511627776)).
  - eapply Rle_trans; [apply Rabs_triang|]. rewrite Rabs_Ropp, !Rabs_mult, (Rabs_pos_eq B) by lra. apply Rplus_le_compat.
    + apply Rmult_le_compat_r; lra.
    + apply Rmult_le_compat_l; [exact PX|]. apply Rabs_le. lra.
  - assert (2 / 3 * B <= lb) by lra. nra.
Qed.
Lemma log_base_rel k x b v : (0 <= k <= 11)%Z -> Rabs (ln x / ln b) <= IZR (2 ^ k) - 1 / 2 -> 1 / 2 <= ln b -> log_base x b v ->
  Rabs (v - Rlog b x) <= 3 / 2 ^ 40 * Rabs (Rlog b x) + / IZR (2 ^ (54 - k)).
Proof.
  intros Hk HX HB [lx [lb [H1 [H2 H3]]]]. pose proof (log_ratio_near lx lb (ln x) (ln b) H1 H2 HB) as N. fold (Rlog b x) in *. unfold near in N.
  assert (P : IZR (2 ^ k) <= 2048) by (change 2048 with (IZR (2 ^ 11)); apply IZR_le, Z.pow_le_mono_r; lia).
  apply (nearest_abs k) in H3; [|lia|].
  - replace (v - Rlog b x) with ((v - lx / lb) + (lx / lb - Rlog b x)) by ring. eapply Rle_trans; [apply Rabs_triang|]. lra.
  - replace (lx / lb) with ((lx / lb - Rlog b x) + Rlog b x) by ring. eapply Rle_trans; [apply Rabs_triang|].
    rewrite pow40 in N. pose proof (Rabs_pos (Rlog b x)). lra.
Qed.
Lemma log_base_near x b v : Rabs (ln x / ln b) <= 2047 -> 1 / 2 <= ln b -> log_base x b v -> near (1 / 100000000) (Rlog b x) v.
Proof.
  intros HX HB H. pose proof (log_base_rel 11 x b v ltac:(lia)) as N. change (2 ^ 11)%Z with 2048%Z in N. specialize (N ltac:(lra) HB H).
  change (54 - 11)%Z with 43%Z in N. change (2 ^ 43)%Z with 8796093022208%Z in N. rewrite pow40 in N. fold (Rlog b x) in HX. unfold near. lra.
Qed.
Lemma log_base_ex x b : Rabs (ln x / ln b) <= 2047 -> exists v, log_base x b v.
Proof.
  intros HX. destruct (nearest_ex (ln x / ln b)) as [v Hv]; [rewrite big_53; lra|]. exists v, (ln x), (ln b). split; [apply log_value_ex|]. split; [apply log_value_ex|exact Hv].
Qed.

Lemma ln_div x y : 0 < x -> 0 < y -> ln (x / y) = ln x - ln y.
Proof. intros Hx Hy. unfold Rdiv. rewrite ln_mult, ln_Rinv by (try apply Rinv_0_lt_compat; assumption). ring. Qed.
Lemma ln_power x n : 0 < x -> ln (x ^ n) = INR n * ln x.
Proof. intros H. induction n as [|n IH]; [cbn; rewrite ln_1; ring|]. cbn [pow]. rewrite ln_mult, IH, S_INR by (try apply pow_lt; assumption). ring. Qed.
Lemma ln_le_sub y : 0 < y -> ln y <= y - 1.
Proof. intros H. pose proof (exp_ineq1_le (ln y)) as E. rewrite exp_ln in E by exact H. lra. Qed.
Lemma binom_log_near o u c v : (u <= o)%nat -> binomial_value o u (Some c) -> log_base c 2 v -> near (1 / 10000) (Rlog 2 (C o u)) v /\ - 1 <= Rlog 2 (C o u) <= 1024.
Proof.
  intros Hu [H1 H2] Hv. set (K := C o u) in *. pose proof half_ln2 as L2.
  assert (K1 : 1 <= K). { pose proof (C_mono 0 0 u (o - u) (le_n _)) as G. rewrite C_0 in G. replace (0 + u + (o - u))%nat with o in G by lia. exact G. }
  assert (E20 : 2 ^ 20 = 1048576) by lra. rewrite E20 in H2. apply Rabs_le_inv' in H2.
  assert (Pc : 0 < c) by lra. assert (N1 : ln c - ln K <= 1 / 1048576).
  { rewrite <- ln_div by lra. eapply Rle_trans; [apply ln_le_sub, Rdiv_lt_0_compat; lra|]. apply (Rmult_le_reg_r K); [lra|]. unfold Rdiv at 1. rewrite Rmult_minus_distr_r, Rmult_assoc, Rinv_l by lra. lra. }
  assert (N2 : ln K - ln c <= 2 / 1048576).
  { rewrite <- ln_div by lra. eapply Rle_trans; [apply ln_le_sub, Rdiv_lt_0_compat; lra|]. apply (Rmult_le_reg_r c); [lra|]. unfold Rdiv at 1. rewrite Rmult_minus_distr_r, Rmult_assoc, Rinv_l by lra. lra. }
  assert (B0 : 0 <= ln K) by (rewrite <- ln_1; apply ln_le; lra).
  assert (B1 : ln K <= 1024 * ln 2).
  { replace (1024 * ln 2) with (INR 1024 * ln 2) by (rewrite INR_IZR_INZ; reflexivity). rewrite <- ln_power by lra. apply ln_le; lra. }
  assert (Q : forall z a, a <= 2000 -> - (a * ln 2) <= z <= a * ln 2 -> - a <= z / ln 2 <= a).
  { intros z a _ Hz. split; (apply (Rmult_le_reg_r (ln 2)); [lra|]; unfold Rdiv; rewrite Rmult_assoc, Rinv_l by lra; lra). }
  assert (R0 : - (1 / 100000) <= (ln c - ln K) / ln 2 <= 1 / 100000) by (apply Q; lra).
  assert (R1 : -1024 <= ln K / ln 2 <= 1024) by (apply Q; lra).
  assert (R2 : 0 <= ln K / ln 2) by (apply Rmult_le_pos; [exact B0|left; apply Rinv_0_lt_compat; lra]).
  assert (R3 : ln c / ln 2 = ln K / ln 2 + (ln c - ln K) / ln 2) by (field; lra).
  split; [|unfold Rlog; lra]. apply log_base_near in Hv; [|apply Rabs_le; lra|lra]. apply near_iff in Hv. apply near_iff. unfold Rlog in *. lra.
Qed.
