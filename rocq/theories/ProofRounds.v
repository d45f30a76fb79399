(** * Round numbers of the GMiMC and Neptune instances (C26, C31) *)
From Coq Require Import Reals Lra.
From Verif Require Import Base ModelFields SpecRounds.
Local Open Scope R_scope.

Lemma ln_pow_Z d k : (0 < d)%Z -> (0 <= k)%Z -> ln (IZR (d ^ k)) = IZR k * ln (IZR d).
Proof.
  intros Hd Hk. rewrite <- (Z2Nat.id k) by exact Hk. generalize (Z.to_nat k). clear k Hk. intros n.
  induction n as [|n IH]; [cbn; rewrite ln_1; lra|]. rewrite Nat2Z.inj_succ, Z.pow_succ_r by lia.
  rewrite mult_IZR, ln_mult, IH by (apply IZR_lt; [exact Hd | apply Z.pow_pos_nonneg; lia] || (apply IZR_lt; try exact Hd; apply Z.pow_pos_nonneg; lia)).
  rewrite succ_IZR. ring.
Qed.
Lemma ln_lt_Z a b : (0 < a)%Z -> (a < b)%Z -> ln (IZR a) < ln (IZR b).
Proof. intros. apply ln_increasing; apply IZR_lt; lia. Qed.
Lemma ln_le_Z a b : (0 < a)%Z -> (a <= b)%Z -> ln (IZR a) <= ln (IZR b).
Proof. intros Ha H. destruct (Z.eq_dec a b) as [->|]; [lra|]. left. apply ln_lt_Z; lia. Qed.
Lemma ln_pos_Z d : (1 < d)%Z -> 0 < ln (IZR d).
Proof. intros H. rewrite <- ln_1. apply (ln_lt_Z 1 d); lia. Qed.

(** d^(k-1) b < a <= d^k b  gives  k - 1 < log_d (a/b) <= k *)
Lemma log_ratio d a b k : (1 < d)%Z -> (0 < a)%Z -> (0 < b)%Z -> (0 < k)%Z ->
  (d ^ (k - 1) * b < a)%Z -> (a <= d ^ k * b)%Z ->
  IZR (k - 1) < (ln (IZR a) - ln (IZR b)) / ln (IZR d) <= IZR k.
Proof.
  intros Hd Ha Hb Hk L U. assert (P := ln_pos_Z d Hd).
  assert (P1 : (0 < d ^ (k - 1))%Z) by (apply Z.pow_pos_nonneg; lia).
  assert (P2 : (0 < d ^ k)%Z) by (apply Z.pow_pos_nonneg; lia).
  apply ln_lt_Z in L; [|nia]. apply ln_le_Z in U; [|exact Ha].
  rewrite mult_IZR, ln_mult, ln_pow_Z in L by (try lia; apply IZR_lt; assumption).
  rewrite mult_IZR, ln_mult, ln_pow_Z in U by (try lia; apply IZR_lt; assumption).
  split.
  - apply (Rmult_lt_reg_r (ln (IZR d))); [exact P|]. unfold Rdiv. rewrite Rmult_assoc, Rinv_l by lra. lra.
  - apply (Rmult_le_reg_r (ln (IZR d))); [exact P|]. unfold Rdiv. rewrite Rmult_assoc, Rinv_l by lra. lra.
Qed.

Lemma gm_formula p t d k n : (1 < Z.of_nat d)%Z -> (1 < p)%Z -> (0 < k)%Z ->
  (Z.of_nat d ^ (k - 1) <? p * p)%Z = true -> (p * p <=? Z.of_nat d ^ k)%Z = true ->
  n = Z.max (2 + 2 * (Z.of_nat t + Z.of_nat t * Z.of_nat t)) (k + 2 * Z.of_nat t) ->
  gmimc_rounds_formula p t d n.
Proof.
  intros Hd Hp Hk L U ->. apply Z.ltb_lt in L. apply Z.leb_le in U. exists k. split; [|reflexivity].
  unfold is_ceil, Rlog. rewrite INR_IZR_INZ. assert (P := ln_pos_Z _ Hd).
  destruct (log_ratio (Z.of_nat d) (p * p) 1 k Hd ltac:(nia) ltac:(lia) Hk ltac:(lia) ltac:(lia)) as [A B].
  rewrite ln_1, mult_IZR, ln_mult in A by (apply IZR_lt; lia). rewrite ln_1, mult_IZR, ln_mult in B by (apply IZR_lt; lia).
  rewrite minus_IZR in A. replace (2 * (ln (IZR p) / ln (IZR (Z.of_nat d)))) with ((ln (IZR p) + ln (IZR p) - 0) / ln (IZR (Z.of_nat d))) by (field; lra).
  split; lra.
Qed.

(** the real formulas determine the integer *)
Lemma is_ceil_fun x n n' : is_ceil x n -> is_ceil x n' -> n = n'.
Proof.
  intros [A B] [A' B']. assert (IZR n - 1 < IZR n') by lra. assert (IZR n' - 1 < IZR n) by lra.
  rewrite <- minus_IZR in *. apply lt_IZR in H. apply lt_IZR in H0. lia.
Qed.
Lemma gm_formula_fun p t d n n' : gmimc_rounds_formula p t d n -> gmimc_rounds_formula p t d n' -> n = n'.
Proof. intros [k [A ->]] [k' [A' ->]]. rewrite (is_ceil_fun _ _ _ A A'). reflexivity. Qed.
Lemma np_formula_fun kappa p t d n n' : neptune_rounds_formula kappa p t d n -> neptune_rounds_formula kappa p t d n' -> n = n'.
Proof.
  intros [m [A B]] [m' [A' B']]. rewrite (is_ceil_fun _ _ _ A A') in B. exact (is_ceil_fun _ _ _ B B').
Qed.

(** min(kappa, log_2 p) = kappa when 2^kappa <= p, = log_2 p when p <= 2^kappa *)
Lemma np_formula_big p t d m n : (1 < Z.of_nat d)%Z -> (0 < Z.of_nat t)%Z -> (2 ^ 128 <=? p)%Z = true ->
  (0 < m - 3 - Z.of_nat t)%Z ->
  (Z.of_nat d ^ (m - 3 - Z.of_nat t - 1) <? 2 ^ 122 * Z.of_nat t)%Z = true ->
  (2 ^ 122 * Z.of_nat t <=? Z.of_nat d ^ (m - 3 - Z.of_nat t))%Z = true ->
  (8 * (n - 1) < 9 * m)%Z -> (9 * m <= 8 * n)%Z ->
  neptune_rounds_formula 128 p t d n.
Proof.
  intros Hd Ht Hp Hm L U C1 C2. apply Z.leb_le in Hp. apply Z.ltb_lt in L. apply Z.leb_le in U. exists m.
  assert (P := ln_pos_Z _ Hd). assert (P2 := ln_pos_Z 2 ltac:(lia)).
  destruct (log_ratio (Z.of_nat d) (2 ^ 122 * Z.of_nat t) 1 (m - 3 - Z.of_nat t) Hd ltac:(lia) ltac:(lia) Hm ltac:(lia) ltac:(lia)) as [A B].
  rewrite ln_1, mult_IZR, ln_mult, ln_pow_Z in A by (try lia; apply IZR_lt; lia).
  rewrite ln_1, mult_IZR, ln_mult, ln_pow_Z in B by (try lia; apply IZR_lt; lia).
  rewrite !minus_IZR in A. rewrite !minus_IZR in B.
  split.
  - unfold is_ceil, Rlog. rewrite !INR_IZR_INZ.
    assert (M : Rmin 128 (ln (IZR p) / ln 2) = 128).
    { apply Rmin_left. apply ln_le_Z in Hp; [|lia]. rewrite ln_pow_Z in Hp by lia.
      apply (Rmult_le_reg_r (ln 2)); [exact P2|]. unfold Rdiv. rewrite Rmult_assoc, Rinv_l by lra. lra. }
    rewrite M. set (x := (122 * ln 2 + ln (IZR (Z.of_nat t)) - 0) / ln (IZR (Z.of_nat d))) in *.
    replace (ln 2 / ln (IZR (Z.of_nat d)) * (128 - 6) + 3 + IZR (Z.of_nat t) + ln (IZR (Z.of_nat t)) / ln (IZR (Z.of_nat d)))
      with (x + 3 + IZR (Z.of_nat t)) by (unfold x; field; lra). lra.
  - unfold is_ceil. apply IZR_lt in C1. apply IZR_le in C2. rewrite mult_IZR, minus_IZR, mult_IZR in C1. rewrite !mult_IZR in C2. lra.
Qed.

Lemma np_formula_small p t d m n : (1 < Z.of_nat d)%Z -> (0 < Z.of_nat t)%Z -> (1 < p)%Z -> (p <=? 2 ^ 128)%Z = true ->
  (0 < m - 3 - Z.of_nat t)%Z ->
  (Z.of_nat d ^ (m - 3 - Z.of_nat t - 1) * 2 ^ 6 <? p * Z.of_nat t)%Z = true ->
  (p * Z.of_nat t <=? Z.of_nat d ^ (m - 3 - Z.of_nat t) * 2 ^ 6)%Z = true ->
  (8 * (n - 1) < 9 * m)%Z -> (9 * m <= 8 * n)%Z ->
  neptune_rounds_formula 128 p t d n.
Proof.
  intros Hd Ht Hp1 Hp Hm L U C1 C2. apply Z.leb_le in Hp. apply Z.ltb_lt in L. apply Z.leb_le in U. exists m.
  assert (P := ln_pos_Z _ Hd). assert (P2 := ln_pos_Z 2 ltac:(lia)).
  destruct (log_ratio (Z.of_nat d) (p * Z.of_nat t) (2 ^ 6) (m - 3 - Z.of_nat t) Hd ltac:(nia) ltac:(lia) Hm L U) as [A B].
  rewrite mult_IZR, ln_mult, ln_pow_Z in A by (try lia; apply IZR_lt; lia).
  rewrite mult_IZR, ln_mult, ln_pow_Z in B by (try lia; apply IZR_lt; lia).
  rewrite !minus_IZR in A. rewrite !minus_IZR in B.
  split.
  - unfold is_ceil, Rlog. rewrite !INR_IZR_INZ.
    assert (M : Rmin 128 (ln (IZR p) / ln 2) = ln (IZR p) / ln 2).
    { apply Rmin_right. apply ln_le_Z in Hp; [|lia]. rewrite ln_pow_Z in Hp by lia.
      apply (Rmult_le_reg_r (ln 2)); [exact P2|]. unfold Rdiv. rewrite Rmult_assoc, Rinv_l by lra. lra. }
    rewrite M. set (x := (ln (IZR p) + ln (IZR (Z.of_nat t)) - 6 * ln 2) / ln (IZR (Z.of_nat d))) in *.
    replace (ln 2 / ln (IZR (Z.of_nat d)) * (ln (IZR p) / ln 2 - 6) + 3 + IZR (Z.of_nat t) + ln (IZR (Z.of_nat t)) / ln (IZR (Z.of_nat d)))
      with (x + 3 + IZR (Z.of_nat t)) by (unfold x; field; lra). lra.
  - unfold is_ceil. apply IZR_lt in C1. apply IZR_le in C2. rewrite mult_IZR, minus_IZR, mult_IZR in C1. rewrite !mult_IZR in C2. lra.
Qed.

(** ** the shipped instances *)
Definition log_check (p d k : Z) : bool := (d ^ (k - 1) <? p * p)%Z && (p * p <=? d ^ k)%Z.
Lemma log_babybear : log_check p_babybear 7 23 = true. Proof. vm_cast_no_check (eq_refl true). Qed.
Lemma log_goldilocks : log_check p_goldilocks 7 46 = true. Proof. vm_cast_no_check (eq_refl true). Qed.
Lemma log_bls12 : log_check p_bls12 5 220 = true. Proof. vm_cast_no_check (eq_refl true). Qed.
Lemma log_bn256 : log_check p_bn256 5 219 = true. Proof. vm_cast_no_check (eq_refl true). Qed.
Lemma log_pallas : log_check p_pallas 5 219 = true. Proof. vm_cast_no_check (eq_refl true). Qed.
Lemma log_vesta : log_check p_vesta 5 219 = true. Proof. vm_cast_no_check (eq_refl true). Qed.

Definition rounded_up (i : gm_instance) : Prop := In (gi_p i) [p_bn256; p_pallas; p_vesta] /\ (gi_t i <= 9)%nat.

Definition gm_ok (i : gm_instance) : Prop :=
  exists n, gmimc_rounds_formula (gi_p i) (gi_t i) (gi_d i) n /\
    (rounded_up i -> Z.of_nat (gi_rounds i) = (n + 1)%Z) /\
    (~ rounded_up i -> Z.of_nat (gi_rounds i) = n).

Lemma gm_ok_intro (up : bool) p t d r k n : (if up then rounded_up (gm_inst p t d r) else ~ rounded_up (gm_inst p t d r)) ->
  log_check p (Z.of_nat d) k = true -> (1 <? Z.of_nat d)%Z && (1 <? p)%Z && (0 <? k)%Z = true ->
  (n =? Z.max (2 + 2 * (Z.of_nat t + Z.of_nat t * Z.of_nat t)) (k + 2 * Z.of_nat t))%Z = true ->
  (Z.of_nat r =? if up then n + 1 else n)%Z = true -> gm_ok (gm_inst p t d r).
Proof.
  intros Hup HK HB Hn Hr. apply andb_true_iff in HK. destruct HK as [K1 K2]. apply andb_true_iff in HB. destruct HB as [HB B3].
  apply andb_true_iff in HB. destruct HB as [B1 B2]. apply Z.ltb_lt in B1, B2, B3. apply Z.eqb_eq in Hn. apply Z.eqb_eq in Hr.
  exists n. split; [apply (gm_formula p t d k n); assumption|]. cbn [gi_rounds gm_inst]. destruct up; split; intros H; (exact Hr || contradiction).
Qed.

Ltac gm_inst_tac K k :=
  first [ eapply (gm_ok_intro false _ _ _ _ k); [intros [H1 H2]; cbn in H1, H2; (lia || (destruct H1 as [H1|[H1|[H1|[]]]]; discriminate H1)) | exact K | vm_compute; reflexivity | apply Z.eqb_refl | vm_compute; reflexivity ]
        | eapply (gm_ok_intro true _ _ _ _ k); [split; cbn; [tauto|lia] | exact K | vm_compute; reflexivity | apply Z.eqb_refl | vm_compute; reflexivity ] ].
Ltac gm_inst_all K k := repeat (apply Forall_cons; [gm_inst_tac K k|]); apply Forall_nil.

Theorem gm_instances_ok : Forall gm_ok gm_instances.
Proof.
  unfold gm_instances. repeat (apply Forall_app; split).
  - gm_inst_all log_babybear 23%Z.
  - gm_inst_all log_bls12 220%Z.
  - gm_inst_all log_bn256 219%Z.
  - gm_inst_all log_goldilocks 46%Z.
  - gm_inst_all log_pallas 219%Z.
  - gm_inst_all log_vesta 219%Z.
Qed.

Definition np_short (i : np_instance) : Prop := (ni_p i = p_bn256 \/ ni_p i = p_vesta) /\ (ni_t i = 4)%nat.
Definition np_ok (i : np_instance) : Prop :=
  exists n, neptune_rounds_formula 128 (ni_p i) (ni_t i) (ni_d i) n /\
    (np_short i -> Z.of_nat (ni_rp i) = (n - 1)%Z) /\ (~ np_short i -> Z.of_nat (ni_rp i) = n).

Ltac np_tac n m :=
  exists n; split;
  [ cbn [ni_p ni_t ni_d np_inst];
    (apply (np_formula_big _ _ _ m n); try (vm_compute; reflexivity); vm_compute; discriminate) ||
    (apply (np_formula_small _ _ _ m n); try (vm_compute; reflexivity); vm_compute; discriminate)
  | split; [intros [[H1|H1] H2]; cbn in H1, H2; (reflexivity || discriminate) | intros H; try reflexivity; exfalso; apply H; split; cbn; auto ] ].

Theorem np_instances_ok : Forall np_ok np_instances.
Proof.
  unfold np_instances.
  apply Forall_cons; [np_tac 69%Z 61%Z|].
  apply Forall_cons; [np_tac 69%Z 61%Z|].
  apply Forall_cons; [np_tac 74%Z 65%Z|].
  apply Forall_cons; [np_tac 38%Z 33%Z|].
  apply Forall_cons; [np_tac 42%Z 37%Z|].
  apply Forall_cons; [np_tac 48%Z 42%Z|].
  apply Forall_cons; [np_tac 52%Z 46%Z|].
  apply Forall_cons; [np_tac 34%Z 30%Z|].
  apply Forall_cons; [np_tac 43%Z 38%Z|].
  apply Forall_cons; [np_tac 69%Z 61%Z|].
  apply Forall_cons; [np_tac 74%Z 65%Z|].
  apply Forall_cons; [np_tac 69%Z 61%Z|].
  apply Forall_nil.
Qed.

Theorem np_instances_refuted :
  ~ Forall (fun i => exists n, neptune_rounds_formula 128 (ni_p i) (ni_t i) (ni_d i) n /\
                               (n <= Z.of_nat (ni_rp i))%Z) np_instances.
Proof.
  intros H. inversion H as [|i l [n [Hn L]] _]. subst.
  assert (E := np_instances_ok). inversion E as [|i' l' [m [Hm [S _]]] _]. subst.
  rewrite (np_formula_fun _ _ _ _ _ _ Hn Hm) in L. cbn in L. specialize (S ltac:(split; cbn; auto)). cbn in S. lia.
Qed.
