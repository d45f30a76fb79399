(** * ProofScriptFloat: rounding errors do not change the round numbers (C75) *)
From Coq Require Import Reals Lra Lia ZArith List Bool.
From Verif Require Import SpecRounds SpecDouble ModelScript ModelScriptFloat ProofRounds ProofScript ProofDouble.
Import ListNotations.
Local Open Scope Z_scope.

(** ** distance of a logarithm from the integers *)
Definition clear (x s : R) (k : Z) : Prop := (IZR (k - 1) + s < x /\ x + s < IZR k)%R.

Definition pow_clear (d k a s : Z) : bool :=
  let c := 1000 / (s * (Z.log2 d + 1)) - 1 in
  (1 <=? k) && (1 <=? c) && (d ^ (k - 1) * (c + 1) <? a * c) && (a * (c + 1) <? d ^ k * c).

Lemma ln_le x y : (0 < x)%R -> (x <= y)%R -> (ln x <= ln y)%R.
Proof. intros H [L| ->]; [left; apply ln_increasing; assumption|right; reflexivity]. Qed.
Lemma ln2_lt : (ln 2 < 9 / 10)%R.
Proof.
  rewrite <- (ln_exp (9 / 10)). apply ln_increasing; [lra|]. replace (9 / 10)%R with (9 / 20 + 9 / 20)%R by lra. rewrite exp_plus.
  pose proof (exp_ineq1_le (9 / 20)). nra.
Qed.
Lemma ln_gap c : 1 <= c -> (/ IZR (c + 1) <= ln (IZR (c + 1)) - ln (IZR c))%R.
Proof.
  intros H. assert (H0 : (0 < IZR c)%R) by (apply IZR_lt; lia). rewrite plus_IZR.
  pose proof (exp_ineq1_le (- / (IZR c + 1))) as E.
  assert (Q : (1 + - / (IZR c + 1) = IZR c / (IZR c + 1))%R) by (field; lra). rewrite Q in E.
  assert (P : (0 < IZR c / (IZR c + 1))%R) by (apply Rdiv_lt_0_compat; lra).
  apply ln_le in E; [|exact P]. rewrite ln_exp in E. unfold Rdiv in E. rewrite ln_mult, ln_Rinv in E; [lra|lra|lra|apply Rinv_0_lt_compat; lra].
Qed.
Lemma ln_lt_log2 d : 1 < d -> (ln (IZR d) < IZR (Z.log2 d + 1))%R.
Proof.
  intros H. destruct (Z.log2_spec d ltac:(lia)) as [_ B]. pose proof (Z.log2_nonneg d) as N. apply ln_lt_Z in B; [|lia].
  rewrite ln_pow_Z in B by lia. unfold Z.succ in B. pose proof ln2_lt.
  assert (0 < IZR (Z.log2 d + 1))%R by (apply IZR_lt; lia). nra.
Qed.

Lemma pow_clear_ok d k a s : 1 < d -> 0 < a -> 1 <= s -> pow_clear d k a s = true -> clear (ln (IZR a) / ln (IZR d)) (IZR s / 1000) k.
Proof.
  unfold pow_clear. cbv zeta. set (c := 1000 / (s * (Z.log2 d + 1)) - 1). rewrite !andb_true_iff, !Z.leb_le, !Z.ltb_lt.
  intros Hd Ha Hs [[[Hk Hc] H1] H2]. pose proof (Z.log2_nonneg d) as N.
  assert (Hc3 : (c + 1) * (s * (Z.log2 d + 1)) <= 1000).
  { unfold c. replace (1000 / (s * (Z.log2 d + 1)) - 1 + 1) with (1000 / (s * (Z.log2 d + 1))) by lia. rewrite Z.mul_comm. apply Z.mul_div_le. nia. }
  assert (P1 : 0 < d ^ (k - 1)) by (apply Z.pow_pos_nonneg; lia). assert (P2 : 0 < d ^ k) by (apply Z.pow_pos_nonneg; lia).
  apply ln_lt_Z in H1; [|nia]. apply ln_lt_Z in H2; [|nia]. rewrite !mult_IZR in H1, H2.
  assert (Q : forall x, 0 < x -> (0 < IZR x)%R) by (intros; apply IZR_lt; lia).
  rewrite !ln_mult in H1, H2 by (apply Q; lia). rewrite ln_pow_Z in H1, H2 by lia.
  pose proof (ln_gap c Hc) as G. pose proof (ln_lt_log2 d Hd) as L. pose proof (ln_pos_Z d Hd) as L0.
  assert (S : (IZR s / 1000 * ln (IZR d) <= / IZR (c + 1))%R).
  { apply IZR_le in Hc3. rewrite !mult_IZR in Hc3. pose proof (Q (c + 1) ltac:(lia)) as C0. pose proof (Q s ltac:(lia)) as S0.
    apply (Rmult_le_reg_r (IZR (c + 1))); [exact C0|]. rewrite Rinv_l by lra.
    apply Rle_trans with (IZR s / 1000 * IZR (Z.log2 d + 1) * IZR (c + 1))%R; [|lra].
    apply Rmult_le_compat_r; [lra|]. apply Rmult_le_compat_l; lra. }
  unfold clear. set (l := ln (IZR d)) in *.
  split; apply (Rmult_lt_reg_r l); try exact L0; unfold Rdiv; rewrite ?Rmult_plus_distr_r, ?(Rmult_assoc (ln (IZR a))), Rinv_l by lra; unfold Rdiv in S; lra.
Qed.

Lemma clear_Rceil y s k x v z : (0 <= s)%R -> clear y s k -> (x = y + IZR z)%R -> (Rabs (v - x) <= s)%R -> Rceil v = Rceil x.
Proof.
  intros Hs [A B] -> H. apply Rabs_le_inv' in H. rewrite minus_IZR in A.
  transitivity (k + z); [|symmetry]; apply Rceil_eq; unfold is_ceil; rewrite plus_IZR; lra.
Qed.

(** ** the binomial coefficient keeps away from the bound *)
Definition big2 (A B f g : Z) : bool := A * (g * g) <? B * (f * f).
Fixpoint bin_cmp (A B : Z) (early : bool) (fuel : nat) (o k f g : Z) : bool :=
  match fuel with
  | O => big2 A B f g
  | S m => if (if early then big2 A B f g else false) then true else bin_cmp A B early m o (k + 1) (f * (o - k)) (g * (k + 1))
  end.
Lemma big2_ok A B f g c : 0 < g -> (IZR f = c * IZR g)%R -> big2 A B f g = true <-> (IZR A < IZR B * (c * c))%R.
Proof.
  intros Hg E. unfold big2. rewrite Z.ltb_lt. assert (G : (0 < IZR g)%R) by (apply IZR_lt; lia).
  assert (G2 : (0 < IZR g * IZR g)%R) by nra.
  split; intros H.
  - apply IZR_lt in H. rewrite !mult_IZR, E in H. apply (Rmult_lt_reg_r (IZR g * IZR g)); [exact G2|].
    replace (IZR B * (c * c) * (IZR g * IZR g))%R with (IZR B * (c * IZR g * (c * IZR g)))%R by ring. exact H.
  - apply lt_IZR. rewrite !mult_IZR, E. replace (IZR B * (c * IZR g * (c * IZR g)))%R with (IZR B * (c * c) * (IZR g * IZR g))%R by ring.
    apply Rmult_lt_compat_r; [exact G2|exact H].
Qed.
Lemma bin_cmp_ok A B early o : 0 < B -> forall fuel k f g, (k + fuel <= o)%nat -> (early = true -> (2 * (k + fuel) <= o + 1)%nat) ->
  0 < g -> (IZR f = C o k * IZR g)%R ->
  bin_cmp A B early fuel (Z.of_nat o) (Z.of_nat k) f g = true <-> (IZR A < IZR B * (C o (k + fuel) * C o (k + fuel)))%R.
Proof.
  intros HB. induction fuel as [|m IH]; intros k f g Hk He Hg E; cbn [bin_cmp].
  - rewrite Nat.add_0_r. apply big2_ok; assumption.
  - assert (R : bin_cmp A B early m (Z.of_nat o) (Z.of_nat k + 1) (f * (Z.of_nat o - Z.of_nat k)) (g * (Z.of_nat k + 1)) = true
               <-> (IZR A < IZR B * (C o (k + S m) * C o (k + S m)))%R).
    { replace (Z.of_nat k + 1) with (Z.of_nat (S k)) by lia. replace (k + S m)%nat with (S k + m)%nat by lia. apply IH; try lia.
      - intros Q. specialize (He Q). lia.
      - rewrite !mult_IZR, E, <- Nat2Z.inj_sub, <- !INR_IZR_INZ by lia.
        pose proof (C_step o k ltac:(lia)) as St.
        replace (C o (S k) * (IZR g * INR (S k)))%R with (C o (S k) * INR (S k) * IZR g)%R by ring. rewrite St. ring. }
    change (if early then big2 A B f g else false) with (early && big2 A B f g). destruct (early && big2 A B f g) eqn:Q; [|exact R].
    apply andb_true_iff in Q. destruct Q as [Q1 Q2]. apply (big2_ok A B f g _ Hg E) in Q2. split; [intros _|reflexivity].
    assert (P := C_pos o k ltac:(lia)). assert (L := C_rise o k (S m) (He Q1) Hk). eapply Rlt_le_trans; [exact Q2|].
    apply Rmult_le_compat_l; [apply IZR_le; lia|]. apply Rmult_le_compat; lra.
Qed.

Definition Cz (o u : Z) : R := C (Z.to_nat o) (Z.to_nat u).
Definition bin_ratio (A B o u : Z) : bool := bin_cmp A B (2 * u <=? o + 1) (Z.to_nat u) o 0 1 1.
Lemma bin_ratio_ok A B o u : 0 < B -> 0 <= u <= o -> bin_ratio A B o u = true <-> (IZR A < IZR B * (Cz o u * Cz o u))%R.
Proof.
  intros HB Hu. unfold bin_ratio, Cz. rewrite <- (Z2Nat.id o) at 2 by lia. change 0 with (Z.of_nat 0) at 1.
  rewrite (bin_cmp_ok A B _ (Z.to_nat o)); [reflexivity|exact HB|lia| |lia|rewrite C_0; lra].
  intros H. apply Z.leb_le in H. lia.
Qed.

(** away from 2 log2 C = M - 1 by more than 1/1000, on either side *)
Definition away (M : Z) (c : R) : Prop := (IZR (1001 * 2 ^ (M - 1)) < 1000 * (c * c) \/ 1001 * (c * c) <= IZR (1000 * 2 ^ (M - 1)))%R.
(** the bound lies between k - 1 and k partial rounds *)
Definition bin_away (t al M rf k : Z) : bool :=
  (1 <=? k) && bin_ratio (1001 * 2 ^ (M - 1)) 1000 (over t al rf k) (under t al rf k) &&
  ((k =? 1) || negb (bin_ratio (1000 * 2 ^ (M - 1)) 1001 (over t al rf (k - 1)) (under t al rf (k - 1)))).

Lemma over_under t al rf rp : 2 <= t -> 0 <= al -> 1 <= rf -> 0 <= rp -> 0 <= under t al rf rp <= over t al rf rp.
Proof.
  intros Ht Ha Hf Hp. unfold under, over. assert (0 <= t / 3) by (apply Z.div_pos; lia). assert (0 <= rf / 2) by (apply Z.div_pos; lia).
  assert (0 <= t / 3 * (rf / 2)) by nia. assert (0 <= (rf - 1) * t) by nia. lia.
Qed.

Lemma Cz_mono t al rf a b : 2 <= t -> 0 <= al -> 1 <= rf -> 1 <= a <= b ->
  (0 < Cz (over t al rf a) (under t al rf a) <= Cz (over t al rf b) (under t al rf b))%R.
Proof.
  intros Ht Ha Hf H. assert (O := over_under t al rf a Ht Ha Hf ltac:(lia)). split; [apply C_pos; lia|].
  unfold Cz. replace (over t al rf b) with (over t al rf a + (b - a) + (b - a)) by (unfold over; ring).
  replace (under t al rf b) with (under t al rf a + (b - a)) by (unfold under; ring).
  rewrite !Z2Nat.inj_add by lia. apply C_mono. lia.
Qed.
Lemma bin_away_ok t al M rf k : 2 <= t -> 0 <= al -> 1 <= rf -> bin_away t al M rf k = true ->
  forall rp, 1 <= rp -> away M (Cz (over t al rf rp) (under t al rf rp)).
Proof.
  intros Ht Ha Hf H rp Hrp. unfold bin_away in H. rewrite !andb_true_iff, orb_true_iff, Z.leb_le, Z.eqb_eq, negb_true_iff in H.
  destruct H as [[Hk U] L]. assert (Ok := over_under t al rf k Ht Ha Hf ltac:(lia)). apply bin_ratio_ok in U; [|lia|exact Ok].
  destruct (Z.le_gt_cases k rp) as [Q|Q].
  - left. destruct (Cz_mono t al rf k rp Ht Ha Hf ltac:(lia)) as [P1 P2]. eapply Rlt_le_trans; [exact U|].
    apply Rmult_le_compat_l; [lra|]. apply Rmult_le_compat; lra.
  - right. destruct L as [L|L]; [lia|]. assert (Oj := over_under t al rf (k - 1) Ht Ha Hf ltac:(lia)).
    assert (L' : (1001 * (Cz (over t al rf (k - 1)) (under t al rf (k - 1)) * Cz (over t al rf (k - 1)) (under t al rf (k - 1))) <= IZR (1000 * 2 ^ (M - 1)))%R).
    { apply Rnot_lt_le. intros X. apply (bin_ratio_ok (1000 * 2 ^ (M - 1)) 1001 _ _ ltac:(lia) Oj) in X. congruence. }
    destruct (Cz_mono t al rf rp (k - 1) Ht Ha Hf ltac:(lia)) as [P1 P2]. eapply Rle_trans; [|exact L'].
    apply Rmult_le_compat_l; [lra|]. apply Rmult_le_compat; lra.
Qed.

Definition clear_ok (p n t al M : Z) (T : thresholds) : bool :=
  (2 <=? t) && (3 <=? al) && Z.odd al && (1 <? p) && (2 <=? M) && (M <=? 1000) && (1 <=? n) &&
  (M <=? (Z.log2 p - (al - 1) / 2 - 1) * (t + 1)) &&
  pow_clear al (th_2a T) (2 ^ Z.min M n) 1 && pow_clear al (th_2b T) t 1 &&
  pow_clear al (th_3 T) (Z.min (2 ^ M) p) 1 &&
  (if 2 ^ (2 * M) <=? p ^ (t + 1) then pow_clear (al ^ (t + 1)) (th_4 T) (2 ^ M) 1 else pow_clear (al ^ 2) (th_4 T) p 1) &&
  pow_clear (al ^ 2) (th_5 T) (2 ^ M) (t - 1).
(** [ks]: the values of k for 6, 8, ..., 98 full rounds *)
Definition away_ok (t al M : Z) (ks : list Z) : bool :=
  forallb (fun h => bin_away t al M (2 * Z.of_nat h) (nth (h - 3) ks 0)) (seq 3 47).

Lemma away_log M c : 2 <= M -> (0 < c)%R -> away M c -> forall v, (Rabs (v - 2 * Rlog 2 c) <= 1 / 1000)%R ->
  (M <= Rceil v <-> M <= Rceil (2 * Rlog 2 c)).
Proof.
  intros HM Hc A v Hv. apply Rabs_le_inv' in Hv. rewrite !le_Rceil.
  assert (L2 : (0 < ln 2 < 9 / 10)%R) by (split; [apply (ln_pos_Z 2); lia|exact ln2_lt]).
  assert (P : (0 < IZR (2 ^ (M - 1)))%R) by (apply IZR_lt; apply Z.pow_pos_nonneg; lia).
  assert (EM : ln (IZR (2 ^ (M - 1))) = (IZR (M - 1) * ln 2)%R) by (apply (ln_pow_Z 2); lia).
  assert (Ec : ln (c * c) = (2 * ln c)%R) by (rewrite ln_mult by exact Hc; ring).
  assert (Cc : (0 < c * c)%R) by nra.
  pose proof (ln_gap 1000 ltac:(lia)) as G. change (1000 + 1) with 1001 in G.
  assert (X : (Rlog 2 c = ln c / ln 2)%R) by reflexivity. set (x := (2 * Rlog 2 c)%R) in *.
  assert (Ex : (2 * ln c = x * ln 2)%R) by (unfold x; rewrite X; field; lra).
  unfold away in A. rewrite !mult_IZR in A.
  destruct A as [A|A].
  - apply ln_increasing in A; [|nra]. rewrite !ln_mult in A by (lra || exact P || exact Cc || nra). rewrite EM in A.
    rewrite <- ?(ln_mult c c Hc Hc) in A. assert (A' : (ln 1001 - ln 1000 + IZR (M - 1) * ln 2 < x * ln 2)%R) by lra.
    split; intros _; nra.
  - apply ln_le in A; [|nra]. rewrite !ln_mult in A by (lra || exact P || exact Cc || nra). rewrite EM in A.
    assert (A' : (ln 1001 - ln 1000 + x * ln 2 <= IZR (M - 1) * ln 2)%R) by lra.
    split; intros ?; exfalso; nra.
Qed.
