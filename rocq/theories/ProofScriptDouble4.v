(** * ProofScriptDouble4: the number of bits of the field as computed by the script (C91) *)
From Coq Require Import Reals Lra Lia ZArith List Bool.
From Verif Require Import ModelFields SpecRounds SpecDouble ModelScript ModelScriptFloat ModelScriptDouble ProofRounds ProofScript ProofDouble ProofScriptFloat ProofScriptDouble ProofScriptDouble2.
Import ListNotations.
Local Open Scope R_scope.

Lemma pos_pow n : (0 <= n)%Z -> (0 < 2 ^ n)%Z. Proof. intros H. apply Z.pow_pos_nonneg; lia. Qed.
Lemma log_upper p n K : (0 < p)%Z -> (2 <= K)%Z -> (0 <= n)%Z -> (p * K <= 2 ^ n * (K - 1))%Z -> Rlog 2 (IZR p) <= IZR n - / IZR K.
Proof.
  intros Hp HK Hn H. pose proof half_ln2 as L2. pose proof (pos_pow n Hn) as P. apply ln_le_Z in H; [|nia].
  assert (Kr : 2 <= IZR K) by (apply IZR_le; exact HK). assert (Pr : 0 < IZR p) by (apply IZR_lt; exact Hp). assert (Qr : 0 < IZR (2 ^ n)) by (apply IZR_lt; exact P).
  rewrite !mult_IZR, minus_IZR, !ln_mult, ln_pow_Z in H by (lra || lia).
  pose proof (ln_le_sub ((IZR K - 1) / IZR K) ltac:(apply Rdiv_lt_0_compat; lra)) as G. rewrite ln_div in G by lra.
  replace ((IZR K - 1) / IZR K - 1) with (- / IZR K) in G by (field; lra).
  assert (Ki : 0 < / IZR K) by (apply Rinv_0_lt_compat; lra).
  unfold Rlog. apply (Rmult_le_reg_r (ln 2)); [lra|]. unfold Rdiv. rewrite Rmult_assoc, Rinv_l by lra. nra.
Qed.
Lemma log_lower p n K : (1 <= K)%Z -> (0 <= n)%Z -> (2 ^ n * (K + 1) <= p * K)%Z -> IZR n + / IZR (K + 1) <= Rlog 2 (IZR p).
Proof.
  intros HK Hn H. pose proof half_ln2 as L2. pose proof (pos_pow n Hn) as P. assert (Hp : (0 < p)%Z) by nia. apply ln_le_Z in H; [|nia].
  assert (Kr : 1 <= IZR K) by (apply IZR_le; exact HK). assert (Pr : 0 < IZR p) by (apply IZR_lt; exact Hp). assert (Qr : 0 < IZR (2 ^ n)) by (apply IZR_lt; exact P).
  rewrite !mult_IZR, plus_IZR, !ln_mult, ln_pow_Z in H by (lra || lia).
  pose proof (ln_le_sub (IZR K / (IZR K + 1)) ltac:(apply Rdiv_lt_0_compat; lra)) as G. rewrite ln_div in G by lra.
  replace (IZR K / (IZR K + 1) - 1) with (- / (IZR K + 1)) in G by (field; lra).
  assert (Ki : 0 < / (IZR K + 1)) by (apply Rinv_0_lt_compat; lra). rewrite plus_IZR.
  unfold Rlog. apply (Rmult_le_reg_r (ln 2)); [lra|]. unfold Rdiv. rewrite Rmult_assoc, Rinv_l by lra. nra.
Qed.

Lemma bits_near p n k K1 K2 v : (0 < p)%Z -> (2 <= n <= 256)%Z -> (0 <= k <= 8)%Z -> (2 <= K1)%Z -> (1 <= K2)%Z ->
  (p * K1 <= 2 ^ n * (K1 - 1))%Z -> (2 ^ (n - 1) * (K2 + 1) <= p * K2)%Z ->
  IZR n <= IZR (2 ^ k) - 1 / 2 + / IZR K1 ->
  3 / 2 ^ 40 * IZR n + / IZR (2 ^ (54 - k)) <= / IZR K1 -> 3 / 2 ^ 40 * IZR n + / IZR (2 ^ (54 - k)) < / IZR (K2 + 1) ->
  log_base (IZR p) 2 v -> Rceil v = n.
Proof.
  intros Hp Hn Hk H1 H2 U L B E1 E2 Hv. apply (log_upper p n K1 Hp H1 ltac:(lia)) in U. apply (log_lower p (n - 1) K2 H2 ltac:(lia)) in L.
  rewrite minus_IZR in L. assert (K1p : 0 < / IZR K1) by (apply Rinv_0_lt_compat, IZR_lt; lia). assert (K2p : 0 < / IZR (K2 + 1)) by (apply Rinv_0_lt_compat, IZR_lt; lia).
  assert (N2 : 2 <= IZR n) by (apply IZR_le; lia). pose proof half_ln2.
  assert (Hb : Rabs (Rlog 2 (IZR p)) <= IZR n) by (apply Rabs_le; lra).
  pose proof (log_base_rel k (IZR p) 2 v ltac:(lia)) as R. fold (Rlog 2 (IZR p)) in R. specialize (R ltac:(apply Rabs_le; lra) ltac:(lra) Hv).
  apply Rabs_le_inv' in R. rewrite pow40 in *.
  apply Rceil_eq. split; lra.
Qed.

Theorem field_bits v : (log_base (IZR p_babybear) 2 v -> Rceil v = 31%Z) /\ (log_base (IZR p_goldilocks) 2 v -> Rceil v = 64%Z) /\
  (log_base (IZR p_bls12) 2 v -> Rceil v = 255%Z) /\ (log_base (IZR p_bn256) 2 v -> Rceil v = 254%Z).
Proof.
  repeat split.
  - apply (bits_near p_babybear 31 5 32 4); try (vm_compute; reflexivity || lia || discriminate).
    all: try (apply Z.leb_le; vm_compute; reflexivity). all: try (repeat split; apply Z.leb_le; vm_compute; reflexivity). all: rewrite ?pow40; try change (2 ^ 5)%Z with 32%Z; try change (2 ^ (54 - 5))%Z with 562949953421312%Z; try change (4 + 1)%Z with 5%Z; lra.
  - apply (bits_near p_goldilocks 64 7 4294967298 2).
    all: try (apply Z.leb_le; vm_compute; reflexivity). all: try (apply Z.ltb_lt; vm_compute; reflexivity). all: try (repeat split; apply Z.leb_le; vm_compute; reflexivity). all: rewrite ?pow40; try change (2 ^ 7)%Z with 128%Z; try change (2 ^ (54 - 7))%Z with 140737488355328%Z; try change (2 + 1)%Z with 3%Z; lra.
  - apply (bits_near p_bls12 255 8 16 4).
    all: try (apply Z.leb_le; vm_compute; reflexivity). all: try (apply Z.ltb_lt; vm_compute; reflexivity). all: try (repeat split; apply Z.leb_le; vm_compute; reflexivity). all: rewrite ?pow40; try change (2 ^ 8)%Z with 256%Z; try change (2 ^ (54 - 8))%Z with 70368744177664%Z; try change (4 + 1)%Z with 5%Z; lra.
  - apply (bits_near p_bn256 254 8 16 4).
    all: try (apply Z.leb_le; vm_compute; reflexivity). all: try (apply Z.ltb_lt; vm_compute; reflexivity). all: try (repeat split; apply Z.leb_le; vm_compute; reflexivity). all: rewrite ?pow40; try change (2 ^ 8)%Z with 256%Z; try change (2 ^ (54 - 8))%Z with 70368744177664%Z; try change (4 + 1)%Z with 5%Z; lra.
Qed.

(** Pallas and Vesta: 2^254 < p < 2^254 (1 + 2^-120) *)
Definition slight (p : Z) : Prop := (2 ^ 254 < p /\ p * 2 ^ 120 <= 2 ^ 254 * (2 ^ 120 + 1))%Z.
Lemma slight_log p : slight p -> 254 * ln 2 < ln (IZR p) <= 254 * ln 2 + / IZR (2 ^ 120).
Proof.
  intros [H1 H2]. assert (P : (0 < 2 ^ 254)%Z) by (apply pos_pow; lia). split.
  - apply ln_lt_Z in H1; [|exact P]. rewrite ln_pow_Z in H1 by lia. exact H1.
  - assert (Q : (0 < 2 ^ 120)%Z) by (apply pos_pow; lia). set (K := (2 ^ 120)%Z) in *. apply ln_le_Z in H2; [|nia].
    assert (Kr : 0 < IZR K) by (apply IZR_lt; exact Q). assert (Pr : 0 < IZR p) by (apply IZR_lt; lia). assert (Qr : 0 < IZR (2 ^ 254)) by (apply IZR_lt; exact P).
    rewrite !mult_IZR, plus_IZR, !ln_mult, ln_pow_Z in H2 by (lra || lia).
    pose proof (ln_le_sub ((IZR K + 1) / IZR K) ltac:(apply Rdiv_lt_0_compat; lra)) as G. rewrite ln_div in G by lra.
    replace ((IZR K + 1) / IZR K - 1) with (/ IZR K) in G by (field; lra). lra.
Qed.
Lemma double_254 v : double v -> Rabs (v - 254) <= / IZR (2 ^ 60) -> v = 254.
Proof.
  intros [m [e [Hm [He E]]]] H. change (2 ^ 60)%Z with 1152921504606846976%Z in H. apply Rabs_le_inv' in H.
  assert (Mr : Rabs (IZR m) <= 9007199254740992) by (rewrite <- abs_IZR; apply IZR_le; change (2 ^ 53)%Z with 9007199254740992%Z in Hm; lia). apply Rabs_le_inv' in Mr.
  destruct (Z.le_gt_cases (-45) e) as [L|L].
  - assert (Z1 : v * IZR (2 ^ 45) = IZR (m * 2 ^ (e + 45))).
    { rewrite mult_IZR, <- !p2_IZR by lia. rewrite powerRZ_add by lra. rewrite E. ring. }
    change (IZR (2 ^ 45)) with 35184372088832 in Z1.
    assert (Z2 : (m * 2 ^ (e + 45) = 254 * 35184372088832)%Z).
    { assert (254 * 35184372088832 - 1 < m * 2 ^ (e + 45))%Z by (apply lt_IZR; rewrite <- Z1, minus_IZR, mult_IZR; lra).
      assert (m * 2 ^ (e + 45) < 254 * 35184372088832 + 1)%Z by (apply lt_IZR; rewrite <- Z1, plus_IZR, mult_IZR; lra). lia. }
    rewrite Z2, mult_IZR in Z1. lra.
  - exfalso. replace e with (- (- e))%Z in E by lia. rewrite p2_neg in E by lia. set (i := (- e)%Z) in *.
    assert (I : IZR (2 ^ 46) <= IZR (2 ^ i)) by (apply IZR_le, Z.pow_le_mono_r; lia). change (IZR (2 ^ 46)) with 70368744177664 in I.
    assert (G : v * IZR (2 ^ i) = IZR m) by (rewrite E; field; lra). nra.
Qed.
Theorem slight_bits p : slight p -> (forall v, nearest (Rlog 2 (IZR p)) v -> v = 254 /\ Rceil v = 254%Z) /\ (exists v, log_base (IZR p) 2 v /\ Rceil v = 254%Z) /\
  Rceil (Rlog 2 (IZR p)) = 255%Z.
Proof.
  intros H. pose proof (slight_log p H) as [A B]. pose proof half_ln2 as L2. assert (I0 : 0 < / IZR (2 ^ 120)) by (apply Rinv_0_lt_compat, IZR_lt, pos_pow; lia).
  assert (I1 : / IZR (2 ^ 120) <= / IZR (2 ^ 62)). { apply Rinv_le_contravar; [apply IZR_lt, pos_pow; lia|]. apply IZR_le, Z.pow_le_mono_r; lia. }
  change (IZR (2 ^ 62)) with 4611686018427387904 in I1. set (i := / IZR (2 ^ 120)) in *. clearbody i.
  assert (R : 254 < Rlog 2 (IZR p) <= 254 + 2 * i).
  { unfold Rlog. split; [apply (Rmult_lt_reg_r (ln 2)); [lra|]|apply (Rmult_le_reg_r (ln 2)); [lra|]]; unfold Rdiv; rewrite Rmult_assoc, Rinv_l by lra; nra. }
  assert (C0 : Rceil 254 = 254%Z) by (apply Rceil_eq; split; lra).
  split; [|split].
  - intros v [D N]. assert (E : v = 254).
    { apply double_254; [exact D|]. specialize (N 254 (double_int 254 ltac:(lia))). rewrite (Rabs_left (254 - Rlog 2 (IZR p))) in N by lra. apply Rabs_le_inv' in N.
      change (IZR (2 ^ 60)) with 1152921504606846976. apply Rabs_le. lra. }
    split; [exact E|]. rewrite E. exact C0.
  - exists 254. split; [|exact C0]. exists (254 * ln 2), (ln 2). split; [|split; [apply log_value_ex|]].
    + unfold log_value. rewrite pow40. rewrite (Rabs_pos_eq (ln (IZR p))) by lra. apply Rabs_le. lra.
    + replace (254 * ln 2 / ln 2) with (IZR 254) by (field; lra). apply nearest_self. lia.
  - apply Rceil_eq. split; lra.
Qed.
Theorem pasta_bits p : In p [p_pallas; p_vesta] -> (forall v, nearest (Rlog 2 (IZR p)) v -> Rceil v = 254%Z) /\ (exists v, log_base (IZR p) 2 v /\ Rceil v = 254%Z) /\
  Rceil (Rlog 2 (IZR p)) = 255%Z.
Proof.
  intros H. assert (S : slight p). { destruct H as [<-|[<-|[]]]; split; (apply Z.ltb_lt || apply Z.leb_le); vm_compute; reflexivity. }
  destruct (slight_bits p S) as [A B]. split; [|exact B]. intros v Hv. apply A, Hv.
Qed.

Theorem pasta_bits_all p : In p [p_pallas; p_vesta] -> (2 ^ (Z.of_nat 255 - 1) <= p < 2 ^ Z.of_nat 255)%Z /\ Rceil (Rlog 2 (IZR p)) = 255%Z /\
  (forall v, nearest (Rlog 2 (IZR p)) v -> Rceil v = 254%Z) /\ (exists v, log_base (IZR p) 2 v /\ Rceil v = 254%Z).
Proof.
  intros H. destruct (pasta_bits p H) as [A [B C]]. split; [|exact (conj C (conj A B))].
  destruct H as [<-|[<-|[]]]; split; (apply Z.leb_le || apply Z.ltb_lt); vm_compute; reflexivity.
Qed.
Theorem inequalities p n t al M rf rp : sizes p n t al M -> (4 <= rf < 100)%Z /\ Z.even rf = true /\ (1 <= rp < 2 ^ 20)%Z ->
  (exists b, sat_double p n t rf rp al M b) /\ (forall b, sat_double p n t rf rp al M b -> sat_computed p n t rf rp al M b).
Proof. intros HS [A [B C]]. split; [exact (sat_double_exists p n t rf rp al M HS A B C)|]. intros b. exact (sat_double_computed p n t rf rp al M b HS A B C). Qed.
Lemma ex_sizes : sizes p_goldilocks 64 12 7 128 /\ (4 <= 6 < 100)%Z /\ Z.even 6 = true /\ (1 <= 20 < 2 ^ 20)%Z.
Proof. repeat split; (apply Z.leb_le || apply Z.ltb_lt); vm_compute; reflexivity. Qed.
Lemma ex_log : exists v, log_base (IZR p_goldilocks) 2 v.
Proof.
  apply log_base_ex. fold (Rlog 2 (IZR p_goldilocks)).
  pose proof (log_upper p_goldilocks 65 2 ltac:(reflexivity) ltac:(lia) ltac:(lia) ltac:(apply Z.leb_le; vm_compute; reflexivity)) as V.
  pose proof (log_lower p_goldilocks 63 2 ltac:(lia) ltac:(lia) ltac:(apply Z.leb_le; vm_compute; reflexivity)) as W. change (2 + 1)%Z with 3%Z in W. apply Rabs_le. lra.
Qed.
Lemma ex_third : ~ double (1 / 3) /\ exists v, nearest (1 / 3) v /\ v <> 1 / 3.
Proof.
  assert (N : ~ double (1 / 3)).
  { intros [m [e [_ [_ E]]]].
    assert (P3 : forall j, (0 <= j)%Z -> ((2 ^ j) mod 3 = 1 \/ (2 ^ j) mod 3 = 2)%Z).
    { intros j Hj. pattern j. apply natlike_ind; [left; reflexivity| |exact Hj]. intros i Hi IH. rewrite Z.pow_succ_r by exact Hi. rewrite <- Z.mul_mod_idemp_r by lia.
      destruct IH as [-> | ->]; [right|left]; reflexivity. }
    destruct (Z.le_gt_cases 0 e) as [H|H].
    - rewrite p2_IZR, <- mult_IZR in E by exact H.
      assert (Q : (1 = 3 * (m * 2 ^ e))%Z) by (apply eq_IZR; rewrite (mult_IZR 3); lra). lia.
    - replace e with (- (- e))%Z in E by lia. rewrite p2_neg in E by lia. set (j := (- e)%Z) in *. pose proof (pow_ge_1 j ltac:(lia)) as J.
      assert (R : 1 / 3 * IZR (2 ^ j) = IZR m) by (rewrite E; field; lra).
      assert (Q : (2 ^ j = m * 3)%Z) by (apply eq_IZR; rewrite mult_IZR; lra). destruct (P3 j ltac:(lia)) as [G|G]; rewrite Q, Z.mod_mul in G by lia; discriminate G. }
  split; [exact N|]. destruct (nearest_ex (1 / 3)) as [v Hv]; [rewrite Rabs_pos_eq by lra; change (IZR (2 ^ 53)) with 9007199254740992; lra|]. exists v. split; [exact Hv|]. intros ->. apply N, Hv.
Qed.
