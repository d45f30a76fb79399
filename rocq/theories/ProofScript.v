(** * ProofScript: deciding the inequalities of the script, and its search (C53) *)
From Coq Require Import Reals Lra Lia ZArith List Bool.
From Verif Require Import SpecRounds ModelScript ProofRounds.
Import ListNotations.
Local Open Scope Z_scope.

(** ** floor and ceil *)
Lemma Rceil_ok x : is_ceil x (Rceil x).
Proof.
  unfold is_ceil, Rceil. destruct (base_Int_part (- x)) as [A B]. rewrite opp_IZR. lra.
Qed.
Lemma Rceil_eq x k : is_ceil x k -> Rceil x = k.
Proof. intros H. exact (is_ceil_fun _ _ _ (Rceil_ok x) H). Qed.
Lemma Rceil_le x z : Rceil x <= z <-> (x <= IZR z)%R.
Proof.
  destruct (Rceil_ok x) as [A B]. split; intros H.
  - apply IZR_le in H. lra.
  - apply Z.lt_succ_r, lt_IZR. unfold Z.succ. rewrite plus_IZR. lra.
Qed.
Lemma le_ceil x c z : is_ceil x c -> ((x <= IZR z)%R <-> c <= z).
Proof. intros H. rewrite <- (Rceil_eq _ _ H). symmetry. apply Rceil_le. Qed.
Lemma le_Rceil x z : z <= Rceil x <-> (IZR (z - 1) < x)%R.
Proof.
  rewrite minus_IZR. destruct (Rceil_ok x) as [A B]. split; intros H.
  - apply IZR_le in H. lra.
  - apply Z.lt_succ_r, lt_IZR. unfold Z.succ. rewrite plus_IZR. lra.
Qed.
Lemma Rfloor_eq x k : (IZR k <= x < IZR k + 1)%R -> Rfloor x = k.
Proof.
  intros H. unfold Rfloor. destruct (base_Int_part x) as [A B].
  assert (Int_part x < k + 1) by (apply lt_IZR; rewrite plus_IZR; lra).
  assert (k < Int_part x + 1) by (apply lt_IZR; rewrite plus_IZR; lra). lia.
Qed.

(** ** binomial coefficients *)
Lemma C_pos n k : (k <= n)%nat -> (0 < C n k)%R.
Proof. intros H. unfold C. apply Rdiv_lt_0_compat; [apply INR_fact_lt_0|]. apply Rmult_lt_0_compat; apply INR_fact_lt_0. Qed.
Lemma C_0 n : C n 0 = 1%R.
Proof. unfold C. rewrite Nat.sub_0_r. cbn [fact INR]. field. apply INR_fact_neq_0. Qed.
Lemma C_nn n : C n n = 1%R.
Proof. unfold C. rewrite Nat.sub_diag. cbn [fact INR]. field. apply INR_fact_neq_0. Qed.
Lemma C_diag_le n k : (k <= n)%nat -> (C n k <= C (S n) (S k))%R.
Proof.
  intros H. destruct (Nat.eq_dec k n) as [->|N].
  - rewrite !C_nn. lra.
  - rewrite <- pascal by lia. pose proof (C_pos n (S k) ltac:(lia)). lra.
Qed.
Lemma C_up_le n k : (k <= n)%nat -> (C n k <= C (S n) k)%R.
Proof.
  intros H. destruct k as [|k]; [rewrite !C_0; lra|]. rewrite <- pascal by lia. pose proof (C_pos n k ltac:(lia)). lra.
Qed.
Lemma C_mono o u a b : (u <= o)%nat -> (C o u <= C (o + a + b) (u + a))%R.
Proof.
  intros H. induction b as [|b IH].
  - rewrite Nat.add_0_r. induction a as [|a IH]; [rewrite !Nat.add_0_r; lra|].
    eapply Rle_trans; [exact IH|]. rewrite !Nat.add_succ_r. apply C_diag_le. lia.
  - eapply Rle_trans; [exact IH|]. rewrite (Nat.add_succ_r (o + a) b). apply C_up_le. lia.
Qed.

Lemma sq_mono x y a : (0 < x)%R -> (x <= y)%R -> (a < x * x)%R -> (a < y * y)%R.
Proof. intros. nra. Qed.

(** f / g = C o k *)
Definition big (b : Z) (f g : Z) : bool := 2 ^ b * (g * g) <? f * f.
Fixpoint bin_gt (b : Z) (fuel : nat) (early : bool) (o k f g : Z) : bool :=
  match fuel with
  | O => big b f g
  | S m => if (if early then big b f g else false) then true else bin_gt b m early o (k + 1) (f * (o - k)) (g * (k + 1))
  end.

Lemma big_ok b f g c : 0 <= b -> 0 < f -> 0 < g -> (IZR f = c * IZR g)%R -> big b f g = true <-> (IZR (2 ^ b) < c * c)%R.
Proof.
  intros Hb Hf Hg E. unfold big. rewrite Z.ltb_lt. assert (G : (0 < IZR g)%R) by (apply IZR_lt; lia).
  split; intros H.
  - apply IZR_lt in H. rewrite !mult_IZR, E in H. apply (Rmult_lt_reg_r (IZR g * IZR g)); [nra|].
    replace (c * c * (IZR g * IZR g))%R with (c * IZR g * (c * IZR g))%R by ring. exact H.
  - apply lt_IZR. rewrite !mult_IZR, E. replace (c * IZR g * (c * IZR g))%R with (c * c * (IZR g * IZR g))%R by ring.
    apply Rmult_lt_compat_r; [nra|exact H].
Qed.

Lemma C_step o k : (k < o)%nat -> (C o (S k) * INR (S k) = C o k * INR (o - k))%R.
Proof. intros H. rewrite pascal_step3 by exact H. pose proof (lt_0_INR (S k) ltac:(lia)). field. lra. Qed.
Lemma C_rise o k j : (2 * (k + j) <= o + 1)%nat -> (k + j <= o)%nat -> (C o k <= C o (k + j))%R.
Proof.
  induction j as [|j IH]; intros H1 H2; [rewrite Nat.add_0_r; lra|].
  eapply Rle_trans; [apply IH; lia|]. rewrite Nat.add_succ_r. pose proof (C_step o (k + j) ltac:(lia)) as E.
  pose proof (C_pos o (k + j) ltac:(lia)) as P. assert (L : (INR (S (k + j)) <= INR (o - (k + j)))%R) by (apply le_INR; lia).
  pose proof (lt_0_INR (S (k + j)) ltac:(lia)). apply (Rmult_le_reg_r (INR (S (k + j)))); [assumption|]. rewrite E. nra.
Qed.

Lemma bin_gt_ok b early o : 0 <= b -> forall fuel k f g, (k + fuel <= o)%nat -> (early = true -> (2 * (k + fuel) <= o + 1)%nat) ->
  0 < f -> 0 < g -> (IZR f = C o k * IZR g)%R ->
  bin_gt b fuel early (Z.of_nat o) (Z.of_nat k) f g = true <-> (IZR (2 ^ b) < C o (k + fuel) * C o (k + fuel))%R.
Proof.
  intros Hb. induction fuel as [|m IH]; intros k f g Hk He Hf Hg E; cbn [bin_gt].
  - rewrite Nat.add_0_r. apply big_ok; assumption.
  - assert (R : bin_gt b m early (Z.of_nat o) (Z.of_nat k + 1) (f * (Z.of_nat o - Z.of_nat k)) (g * (Z.of_nat k + 1)) = true
               <-> (IZR (2 ^ b) < C o (k + S m) * C o (k + S m))%R).
    { replace (Z.of_nat k + 1) with (Z.of_nat (S k)) by lia. replace (k + S m)%nat with (S k + m)%nat by lia. apply IH; try lia.
      - intros Q. specialize (He Q). lia.
      - apply Z.mul_pos_pos; lia.
      - rewrite !mult_IZR, E, <- Nat2Z.inj_sub, <- !INR_IZR_INZ by lia.
        pose proof (C_step o k ltac:(lia)) as St.
        replace (C o (S k) * (IZR g * INR (S k)))%R with (C o (S k) * INR (S k) * IZR g)%R by ring. rewrite St. ring. }
    change (if early then big b f g else false) with (early && big b f g). destruct (early && big b f g) eqn:B; [|exact R].
    apply andb_true_iff in B. destruct B as [B1 B2]. apply (big_ok b f g _ Hb Hf Hg E) in B2.
    split; [intros _|reflexivity]. apply (sq_mono (C o k)); [apply C_pos; lia|apply C_rise; [apply He; exact B1|exact Hk]|exact B2].
Qed.

Definition bin_big (b o u : Z) : bool := (u <=? o) && bin_gt b (Z.to_nat u) (2 * u <=? o + 1) o 0 1 1.
Lemma bin_big_ok b o u : 0 <= b -> 0 <= u <= o -> bin_big b o u = true <-> (IZR (2 ^ b) < C (Z.to_nat o) (Z.to_nat u) * C (Z.to_nat o) (Z.to_nat u))%R.
Proof.
  intros Hb Hu. unfold bin_big. replace (u <=? o) with true by (symmetry; apply Z.leb_le; lia). cbn [andb].
  rewrite <- (Z2Nat.id o) at 2 by lia. change 0 with (Z.of_nat 0) at 1.
  rewrite (bin_gt_ok b _ (Z.to_nat o)); [reflexivity|exact Hb|lia| |lia|lia|rewrite C_0; lra].
  intros H. apply Z.leb_le in H. lia.
Qed.

(** ** thresholds *)
Record thresholds := Thr { th_rf : Z; th_2a : Z; th_2b : Z; th_3 : Z; th_4 : Z; th_5 : Z; th_rp0 : Z }.

Definition pow_between (d k a : Z) : bool := (0 <? k) && (d ^ (k - 1) <? a) && (a <=? d ^ k).

Definition over (t al rf rp : Z) : Z := (rf - 1) * t + rp + t / 3 + t / 3 * (rf / 2) + rp + al.
Definition under (t al rf rp : Z) : Z := t / 3 * (rf / 2) + rp + al.

(** the thresholds are those of p, n, t, alpha *)
Definition thr_ok (p n t al M : Z) (T : thresholds) : bool :=
  (2 <=? t) && (3 <=? al) && Z.odd al && (1 <? p) && (2 <=? M) && (1 <=? n) &&
  (th_rf T =? if M <=? (Z.log2 p - (al - 1) / 2) * (t + 1) then 6 else 10) &&
  pow_between al (th_2a T) (2 ^ Z.min M n) && pow_between al (th_2b T) t &&
  pow_between al (th_3 T) (Z.min (2 ^ M) p) &&
  (if 2 ^ (2 * M) <=? p ^ (t + 1) then pow_between (al ^ (t + 1)) (th_4 T) (2 ^ M) else pow_between (al ^ 2) (th_4 T) p) &&
  pow_between (al ^ 2) (th_5 T) (2 ^ M) &&
  (1 <=? th_rp0 T) && bin_big (M - 1) (over t al 6 (th_rp0 T)) (under t al 6 (th_rp0 T)).

Definition sat_b (t al M : Z) (T : thresholds) (rf rp : Z) : bool :=
  if (th_rf T <=? rf) && (1 + th_2a T + th_2b T <=? rf + rp) && (th_3 T <=? rf + rp) && (t - 1 + th_4 T <=? rf + rp) &&
     (t - 2 + th_5 T <=? rf * (t - 1) + rp)
  then if th_rp0 T <=? rp then true else bin_big (M - 1) (over t al rf rp) (under t al rf rp)
  else false.
Lemma lazy_and_or (a b c : bool) : (if a then if b then true else c else false) = a && (b || c).
Proof. destruct a, b; reflexivity. Qed.

Lemma log_between d k a : 1 < d -> 0 < a -> pow_between d k a = true -> is_ceil (ln (IZR a) / ln (IZR d)) k.
Proof.
  unfold pow_between. rewrite !andb_true_iff, !Z.ltb_lt, Z.leb_le. intros Hd Ha [[H1 H2] H3].
  destruct (log_ratio d a 1 k Hd Ha ltac:(lia) H1 ltac:(lia) ltac:(lia)) as [A B].
  rewrite ln_1, Rminus_0_r in A, B. rewrite minus_IZR in A. split; assumption.
Qed.

Lemma sat_b_ok p n t al M T rf rp : thr_ok p n t al M T = true -> 4 <= rf -> Z.even rf = true -> 1 <= rp ->
  sat_b t al M T rf rp = true <-> sat_inequiv_alpha p n t rf rp al M.
Proof.
  intros HT Hrf Hev Hrp. unfold thr_ok in HT. rewrite ?andb_true_iff in HT. repeat match type of HT with _ /\ _ => destruct HT as [HT ?Hb] end.
  apply Z.leb_le in HT, Hb11, Hb8, Hb7, Hb0. apply Z.ltb_lt in Hb9. apply Z.eqb_eq in Hb6.
  assert (La : (0 < ln (IZR al))%R) by (apply ln_pos_Z; lia). assert (L2 : (0 < ln 2)%R) by (apply (ln_pos_Z 2); lia).
  assert (Lp : (0 < ln (IZR p))%R) by (apply ln_pos_Z; lia).
  assert (P2M : 0 < 2 ^ M) by (apply Z.pow_pos_nonneg; lia).
  assert (EM : ln (IZR (2 ^ M)) = (IZR M * ln 2)%R) by (apply (ln_pow_Z 2); lia).
  (* R_F_1 *)
  assert (E1 : Rfloor (Rlog 2 (IZR p) - (IZR al - 1) / 2)%R = Z.log2 p - (al - 1) / 2).
  { apply Rfloor_eq. destruct (Z.log2_spec p ltac:(lia)) as [A B].
    apply ln_le_Z in A; [|apply Z.pow_pos_nonneg; [lia|apply Z.log2_nonneg]]. apply ln_lt_Z in B; [|lia].
    rewrite ln_pow_Z in A by (try lia; apply Z.log2_nonneg). rewrite ln_pow_Z in B by (pose proof (Z.log2_nonneg p); lia).
    rewrite succ_IZR in B. apply Z.odd_spec in Hb10. destruct Hb10 as [h ->]. replace ((2 * h + 1 - 1) / 2) with h by (rewrite Z.add_simpl_r, Z.mul_comm, Z.div_mul; lia).
    rewrite minus_IZR, plus_IZR, mult_IZR. unfold Rlog.
    assert (IZR (Z.log2 p) <= ln (IZR p) / ln 2 < IZR (Z.log2 p) + 1)%R; [|lra].
    split; [apply (Rmult_le_reg_r (ln 2))|apply (Rmult_lt_reg_r (ln 2))]; try exact L2;
      unfold Rdiv; rewrite Rmult_assoc, Rinv_l by lra; lra. }
  (* R_F_2 *)
  assert (E2a : Rceil (Rlog (IZR al) 2 * IZR (Z.min M n))%R = th_2a T).
  { apply Rceil_eq. apply log_between in Hb5; [|lia|apply Z.pow_pos_nonneg; lia].
    rewrite ln_pow_Z in Hb5 by lia. unfold Rlog. replace (ln 2 / ln (IZR al) * IZR (Z.min M n))%R with (IZR (Z.min M n) * ln 2 / ln (IZR al))%R by (field; lra). exact Hb5. }
  assert (E2b : Rceil (Rlog (IZR al) (IZR t)) = th_2b T).
  { apply Rceil_eq. apply log_between in Hb4; [exact Hb4|lia|lia]. }
  (* R_F_3 *)
  assert (E3 : is_ceil (Rlog (IZR al) 2 * Rmin (IZR M) (Rlog 2 (IZR p)))%R (th_3 T)).
  { apply log_between in Hb3; [|lia|lia].
    replace (Rlog (IZR al) 2 * Rmin (IZR M) (Rlog 2 (IZR p)))%R with (ln (IZR (Z.min (2 ^ M) p)) / ln (IZR al))%R; [exact Hb3|].
    unfold Rlog. destruct (Z.le_ge_cases (2 ^ M) p) as [L|L].
    - rewrite Z.min_l by exact L. apply ln_le_Z in L; [|lia]. rewrite EM in *. rewrite Rmin_left.
      + field. lra.
      + apply (Rmult_le_reg_r (ln 2)); [exact L2|]. unfold Rdiv. rewrite Rmult_assoc, Rinv_l by lra. lra.
    - rewrite Z.min_r by exact L. apply ln_le_Z in L; [|lia]. rewrite EM in L. rewrite Rmin_right.
      + field. lra.
      + apply (Rmult_le_reg_r (ln 2)); [exact L2|]. unfold Rdiv. rewrite Rmult_assoc, Rinv_l by lra. lra. }
  (* R_F_4 *)
  assert (Tp : (0 < IZR t + 1)%R) by (rewrite <- plus_IZR; apply IZR_lt; lia).
  assert (E4 : is_ceil (Rlog (IZR al) 2 * Rmin (IZR M / (IZR t + 1)) (Rlog 2 (IZR p) / 2))%R (th_4 T)).
  { assert (Ep : ln (IZR (p ^ (t + 1))) = ((IZR t + 1) * ln (IZR p))%R) by (rewrite ln_pow_Z, plus_IZR by lia; reflexivity).
    assert (EMM : ln (IZR (2 ^ (2 * M))) = (2 * IZR M * ln 2)%R) by (rewrite (ln_pow_Z 2), mult_IZR by lia; reflexivity).
    assert (Q1 : 1 < al ^ (t + 1)) by (apply Z.pow_gt_1; lia). assert (Q2 : 1 < al ^ 2) by (apply Z.pow_gt_1; lia).
    assert (P1 : 0 < p ^ (t + 1)) by (apply Z.pow_pos_nonneg; lia). assert (P3 : 0 < 2 ^ (2 * M)) by (apply Z.pow_pos_nonneg; lia).
    unfold Rlog. destruct (2 ^ (2 * M) <=? p ^ (t + 1)) eqn:C4.
    - apply Z.leb_le in C4. apply ln_le_Z in C4; [|exact P3]. rewrite Ep, EMM in C4. apply log_between in Hb2; [|exact Q1|exact P2M].
      rewrite EM, ln_pow_Z, plus_IZR in Hb2 by lia. rewrite Rmin_left.
      + replace (ln 2 / ln (IZR al) * (IZR M / (IZR t + 1)))%R with (IZR M * ln 2 / ((IZR t + 1) * ln (IZR al)))%R by (field; lra). exact Hb2.
      + apply (Rmult_le_reg_r (2 * (IZR t + 1) * ln 2)); [nra|].
        replace (IZR M / (IZR t + 1) * (2 * (IZR t + 1) * ln 2))%R with (2 * IZR M * ln 2)%R by (field; lra).
        replace (ln (IZR p) / ln 2 / 2 * (2 * (IZR t + 1) * ln 2))%R with ((IZR t + 1) * ln (IZR p))%R by (field; lra). exact C4.
    - apply Z.leb_gt in C4. apply ln_lt_Z in C4; [|exact P1]. rewrite Ep, EMM in C4. apply log_between in Hb2; [|exact Q2|lia].
      rewrite ln_pow_Z in Hb2 by lia. rewrite Rmin_right.
      + replace (ln 2 / ln (IZR al) * (ln (IZR p) / ln 2 / 2))%R with (ln (IZR p) / (2 * ln (IZR al)))%R by (field; lra). exact Hb2.
      + apply (Rmult_le_reg_r (2 * (IZR t + 1) * ln 2)); [nra|].
        replace (IZR M / (IZR t + 1) * (2 * (IZR t + 1) * ln 2))%R with (2 * IZR M * ln 2)%R by (field; lra).
        replace (ln (IZR p) / ln 2 / 2 * (2 * (IZR t + 1) * ln 2))%R with ((IZR t + 1) * ln (IZR p))%R by (field; lra). lra. }
  (* R_F_5 *)
  assert (E5 : is_ceil (IZR M / (2 * Rlog 2 (IZR al)))%R (th_5 T)).
  { apply log_between in Hb1; [|apply Z.pow_gt_1; lia|exact P2M]. rewrite EM, ln_pow_Z in Hb1 by lia. unfold Rlog.
    replace (IZR M / (2 * (ln (IZR al) / ln 2)))%R with (IZR M * ln 2 / (2 * ln (IZR al)))%R by (field; lra). exact Hb1. }
  (* binomial *)
  assert (Hodd : 0 <= t / 3) by (apply Z.div_pos; lia).
  apply Z.even_spec in Hev. destruct Hev as [h Hh].
  assert (Eh : rf / 2 = h) by (rewrite Hh, Z.mul_comm; apply Z.div_mul; lia).
  assert (Ho : forall h rp, 2 <= h -> 1 <= rp -> 0 <= t / 3 * h + rp + al <= (2 * h - 1) * t + rp + t / 3 + t / 3 * h + rp + al).
  { intros h' rp' H1 H2. assert (0 <= t / 3 * h') by nia. assert (0 <= (2 * h' - 1) * t) by nia. lia. }
  assert (CB : forall o u, 0 <= u <= o -> M <= Rceil (2 * Rlog 2 (C (Z.to_nat o) (Z.to_nat u))) <-> (IZR (2 ^ (M - 1)) < C (Z.to_nat o) (Z.to_nat u) * C (Z.to_nat o) (Z.to_nat u))%R).
  { intros o u Hou. rewrite le_Rceil. set (c := C (Z.to_nat o) (Z.to_nat u)). assert (Pc : (0 < c)%R) by (apply C_pos; lia).
    assert (Pb : (0 < IZR (2 ^ (M - 1)))%R) by (apply IZR_lt; apply Z.pow_pos_nonneg; lia).
    assert (E : ln (IZR (2 ^ (M - 1))) = (IZR (M - 1) * ln 2)%R) by (apply (ln_pow_Z 2); lia).
    assert (Ec : ln (c * c) = (2 * ln c)%R) by (rewrite ln_mult by exact Pc; ring). unfold Rlog.
    split; intros H.
    - apply ln_lt_inv; [exact Pb|nra|]. rewrite E, Ec. apply (Rmult_lt_compat_r (ln 2)) in H; [|exact L2].
      replace (2 * (ln c / ln 2) * ln 2)%R with (2 * ln c)%R in H by (field; lra). exact H.
    - apply ln_increasing in H; [|exact Pb]. rewrite E, Ec in H. apply (Rmult_lt_reg_r (ln 2)); [exact L2|].
      replace (2 * (ln c / ln 2) * ln 2)%R with (2 * ln c)%R by (field; lra). exact H. }
  assert (B6 : 6 <= th_rf T) by (rewrite Hb6; destruct (_ <=? _); lia).
  unfold sat_inequiv_alpha. cbv zeta. rewrite E1, E2a, E2b, <- Hb6. rewrite !Z.max_lub_iff, !Rceil_le.
  rewrite CB by (rewrite Eh; replace (rf - 1) with (2 * h - 1) by lia; apply Ho; lia).
  unfold sat_b. rewrite lazy_and_or, !andb_true_iff, orb_true_iff, !Z.leb_le. fold (over t al rf rp). fold (under t al rf rp).
  assert (Q2 : 1 + th_2a T + th_2b T - rp <= rf <-> 1 + th_2a T + th_2b T <= rf + rp) by lia.
  assert (Q3 : (Rlog (IZR al) 2 * Rmin (IZR M) (Rlog 2 (IZR p)) - IZR rp <= IZR rf)%R <-> th_3 T <= rf + rp).
  { rewrite <- (le_ceil _ _ (rf + rp) E3), plus_IZR. split; intros; lra. }
  assert (Q4 : (IZR t - 1 + Rlog (IZR al) 2 * Rmin (IZR M / (IZR t + 1)) (Rlog 2 (IZR p) / 2) - IZR rp <= IZR rf)%R <-> t - 1 + th_4 T <= rf + rp).
  { assert (X := le_ceil _ _ (rf + rp - t + 1) E4). rewrite plus_IZR, minus_IZR, plus_IZR in X.
    split; intros H; [assert (th_4 T <= rf + rp - t + 1) by (apply X; lra); lia|].
    assert (th_4 T <= rf + rp - t + 1) as Y by lia. apply X in Y. lra. }
  assert (Q5 : ((IZR t - 2 + IZR M / (2 * Rlog 2 (IZR al)) - IZR rp) / (IZR t - 1) <= IZR rf)%R <-> t - 2 + th_5 T <= rf * (t - 1) + rp).
  { assert (X := le_ceil _ _ (rf * (t - 1) + rp - t + 2) E5). rewrite plus_IZR, minus_IZR, plus_IZR, mult_IZR, minus_IZR in X.
    assert (T1 : (0 < IZR t - 1)%R) by (rewrite <- minus_IZR; apply IZR_lt; lia).
    set (y := (IZR M / (2 * Rlog 2 (IZR al)))%R) in *.
    assert (Y : ((IZR t - 2 + y - IZR rp) / (IZR t - 1) <= IZR rf)%R <-> (IZR t - 2 + y - IZR rp <= IZR rf * (IZR t - 1))%R).
    { split; intros H.
      - apply (Rmult_le_compat_r (IZR t - 1)) in H; [|lra]. replace ((IZR t - 2 + y - IZR rp) / (IZR t - 1) * (IZR t - 1))%R with (IZR t - 2 + y - IZR rp)%R in H by (field; lra). exact H.
      - apply (Rmult_le_reg_r (IZR t - 1)); [exact T1|]. replace ((IZR t - 2 + y - IZR rp) / (IZR t - 1) * (IZR t - 1))%R with (IZR t - 2 + y - IZR rp)%R by (field; lra). exact H. }
    rewrite Y. split; intros H; [assert (th_5 T <= rf * (t - 1) + rp - t + 2) by (apply X; lra); lia|].
    assert (th_5 T <= rf * (t - 1) + rp - t + 2) as Z by lia. apply X in Z. lra. }
  rewrite Q2, Q3, Q4, Q5.
  assert (QB : th_rf T <= rf -> (th_rp0 T <= rp \/ bin_big (M - 1) (over t al rf rp) (under t al rf rp) = true) <->
    (IZR (2 ^ (M - 1)) < C (Z.to_nat (over t al rf rp)) (Z.to_nat (under t al rf rp)) * C (Z.to_nat (over t al rf rp)) (Z.to_nat (under t al rf rp)))%R).
  { intros HR. assert (Hou : forall h rp, 2 <= h -> 1 <= rp -> 0 <= under t al (2 * h) rp <= over t al (2 * h) rp).
    { intros h' rp' H1 H2. unfold under, over. rewrite (Z.mul_comm 2 h'), Z.div_mul by lia. rewrite (Z.mul_comm h' 2). apply Ho; assumption. }
    assert (BB := bin_big_ok (M - 1) (over t al rf rp) (under t al rf rp) ltac:(lia)). 
    assert (Hr : 0 <= under t al rf rp <= over t al rf rp) by (rewrite Hh; apply Hou; lia).
    specialize (BB Hr). rewrite <- BB.
    split; [|intros H; right; exact H]. intros [H|H]; [|exact H]. apply BB.
    apply (bin_big_ok (M - 1) _ _ ltac:(lia) (Hou 3 (th_rp0 T) ltac:(lia) Hb0)) in Hb.
    eapply sq_mono; [| |exact Hb]; [apply C_pos; pose proof (Hou 3 (th_rp0 T) ltac:(lia) Hb0); change (2 * 3) with 6 in *; lia|].
    pose proof (Hou 3 (th_rp0 T) ltac:(lia) Hb0) as B0. change (2 * 3) with 6 in *.
    set (a := t / 3 * (h - 3) + (rp - th_rp0 T)). set (b := 2 * t * (h - 3) + (rp - th_rp0 T)).
    assert (H3 : 3 <= h) by lia. assert (0 <= a) by (unfold a; nia). assert (0 <= b) by (unfold b; nia).
    assert (Eu : under t al rf rp = under t al 6 (th_rp0 T) + a).
    { unfold under, a. rewrite Eh. change (6 / 2) with 3. ring. }
    assert (Eo : over t al rf rp = over t al 6 (th_rp0 T) + a + b).
    { unfold over, a, b. rewrite Eh, Hh. change (6 / 2) with 3. ring. }
    rewrite Eu, Eo. rewrite !Z2Nat.inj_add by lia. apply C_mono. lia. }
  split.
  - intros [[[[[A1 A2] A3] A4] A5] A6]. split; [repeat split; assumption|]. apply QB; assumption.
  - intros [[A1 [A2 [A3 [A4 A5]]]] A6]. split; [repeat split; assumption|]. apply QB; assumption.
Qed.

(** ** The search *)
Lemma fold_ext (f g : Z -> Z -> bool) t mar l1 l2 :
  (forall rf rp, 4 <= rf -> Z.even rf = true -> 1 <= rp -> f rf rp = g rf rp) ->
  (forall x, In x l1 -> 4 <= x) -> (forall x, In x l2 -> 1 <= x) -> forall b,
  fold_left (fun b R_P_t => snd (fold_left (search_step f t mar) l1 (R_P_t, b))) l2 b =
  fold_left (fun b R_P_t => snd (fold_left (search_step g t mar) l1 (R_P_t, b))) l2 b.
Proof.
  intros E H4 H1.
  assert (S : forall rp b rf, 4 <= rf -> 1 <= rp -> search_step f t mar (rp, b) rf = search_step g t mar (rp, b) rf /\ 1 <= fst (search_step f t mar (rp, b) rf)).
  { intros rp b rf H5 H2. unfold search_step. destruct (Z.even rf) eqn:Ev; [|split; [reflexivity|exact H2]].
    rewrite <- E by assumption. split; [reflexivity|]. destruct (f rf rp); cbn [fst]; [|exact H2].
    destruct mar; [|exact H2]. apply Z.div_le_lower_bound; lia. }
  assert (I : forall l, (forall x, In x l -> 4 <= x) -> forall rp b, 1 <= rp -> fold_left (search_step f t mar) l (rp, b) = fold_left (search_step g t mar) l (rp, b)).
  { induction l as [|x l IH]; intros Hl rp b Hrp; [reflexivity|]. cbn [fold_left].
    destruct (S rp b x (Hl x (or_introl eq_refl)) Hrp) as [S1 S2]. rewrite <- S1.
    destruct (search_step f t mar (rp, b) x) as [rp' b']. apply IH; [intros y Hy; apply Hl; right; exact Hy|exact S2]. }
  induction l2 as [|x l IH]; intros b; [reflexivity|]. cbn [fold_left]. rewrite (I l1 H4 x b (H1 x (or_introl eq_refl))).
  apply IH. intros y Hy. apply H1. right. exact Hy.
Qed.
Lemma range_ge a b x : In x (range a b) -> Z.of_nat a <= x.
Proof. unfold range. intros H. apply in_map_iff in H. destruct H as [k [<- Hk]]. apply in_seq in Hk. lia. Qed.
Lemma search_ext (f g : Z -> Z -> bool) t mar :
  (forall rf rp, 4 <= rf -> Z.even rf = true -> 1 <= rp -> f rf rp = g rf rp) ->
  find_FD_round_numbers f t mar = find_FD_round_numbers g t mar.
Proof.
  intros E. exact (f_equal (fun b => (fd_rf b, fd_rp b)) (fold_ext f g t mar (range 4 100) (range 1 500) E (range_ge 4 100) (range_ge 1 500) (Found 0 0 None 0))).
Qed.

(** a test decides the inequalities *)
Definition decides (sat : Z -> Z -> bool) (p n t al M : Z) : Prop :=
  forall rf rp, 4 <= rf -> Z.even rf = true -> 1 <= rp -> (sat rf rp = true <-> sat_inequiv_alpha p n t rf rp al M).

(** ** Values of R_P_t above a found minimum do not matter *)
Definition search_to (f : Z -> Z -> bool) (t : Z) (l0 l : list Z) (b : found) : found :=
  fold_left (fun b R_P_t => snd (fold_left (search_step f t true) l0 (R_P_t, b))) l b.

Lemma find_search f t : find_FD_round_numbers f t true =
  (fd_rf (search_to f t (range 4 100) (range 1 500) (Found 0 0 None 0)), fd_rp (search_to f t (range 4 100) (range 1 500) (Found 0 0 None 0))).
Proof. unfold find_FD_round_numbers. cbv zeta. unfold search_to. reflexivity. Qed.
Lemma search_to_app f t l0 l1 l2 b : search_to f t l0 (l1 ++ l2) b = search_to f t l0 l2 (search_to f t l0 l1 b).
Proof. apply fold_left_app. Qed.
Lemma range_split a k b : (a <= k <= b)%nat -> range a b = range a k ++ range k b.
Proof.
  intros H. unfold range. rewrite <- map_app. f_equal. replace (b - a)%nat with ((k - a) + (b - k))%nat by lia.
  rewrite seq_app. f_equal. f_equal. lia.
Qed.

Lemma inner_unchanged f t c m b l : 0 <= t -> (forall rf rp, f rf rp = true -> c <= rf) -> fd_cost b = Some m ->
  forall rp, 1 <= rp -> m < t * (c + 2) + rp -> snd (fold_left (search_step f t true) l (rp, b)) = b.
Proof.
  intros Ht Hf Hm. induction l as [|x l IH]; intros rp H1 Hrp; [reflexivity|]. cbn [fold_left].
  assert (E : search_step f t true (rp, b) x = (rp, b) \/ exists rp', rp <= rp' /\ search_step f t true (rp, b) x = (rp', b)).
  { unfold search_step. destruct (Z.even x); [|left; reflexivity]. destruct (f x rp) eqn:Ef; [|left; reflexivity]. right.
    apply Hf in Ef. set (rp' := (rp * 1075 + 999) / 1000). exists rp'.
    assert (rp <= rp') by (apply Z.div_le_lower_bound; lia). split; [assumption|]. rewrite Hm. unfold get_sbox_cost.
    assert (t * (c + 2) <= t * (x + 2)) by nia.
    replace (t * (x + 2) + rp' <? m) with false by (symmetry; apply Z.ltb_ge; lia).
    replace (t * (x + 2) + rp' =? m) with false by (symmetry; apply Z.eqb_neq; lia). reflexivity. }
  destruct E as [->|[rp' [Hle ->]]]; apply IH; lia.
Qed.
Lemma outer_unchanged f t c m b l0 l : 0 <= t -> (forall rf rp, f rf rp = true -> c <= rf) -> fd_cost b = Some m ->
  (forall rp, In rp l -> 1 <= rp /\ m < t * (c + 2) + rp) -> search_to f t l0 l b = b.
Proof.
  intros Ht Hf Hm. unfold search_to. induction l as [|x l IH]; intros Hl; [reflexivity|]. cbn [fold_left].
  destruct (Hl x (or_introl eq_refl)) as [H1 H2]. rewrite (inner_unchanged f t c m b _ Ht Hf Hm x H1 H2).
  apply IH. intros rp Hrp. apply Hl. right. exact Hrp.
Qed.

(** the search cut off at K *)
Definition search_b (t al M : Z) (T : thresholds) (K : nat) (rf rp : Z) : bool :=
  let b := search_to (sat_b t al M T) t (range 4 100) (range 1 K) (Found 0 0 None 0) in
  (0 <=? t) && (1 <=? K)%nat && (K <=? 500)%nat && (fd_rf b =? rf) && (fd_rp b =? rp) &&
  match fd_cost b with None => false | Some m => m <? t * (th_rf T + 2) + Z.of_nat K end.

Lemma sat_b_rf t al M T rf rp : sat_b t al M T rf rp = true -> th_rf T <= rf.
Proof. unfold sat_b. rewrite lazy_and_or, !andb_true_iff, !Z.leb_le. tauto. Qed.

Lemma search_b_ok t al M T K rf rp : search_b t al M T K rf rp = true -> find_FD_round_numbers (sat_b t al M T) t true = (rf, rp).
Proof.
  unfold search_b. cbv zeta. intros H. rewrite ?andb_true_iff in H. repeat match type of H with _ /\ _ => destruct H as [H ?Hb] end.
  apply Z.leb_le in H. apply Nat.leb_le in Hb3, Hb2. apply Z.eqb_eq in Hb1, Hb0.
  destruct (fd_cost _) as [m|] eqn:Em in Hb; [|discriminate]. apply Z.ltb_lt in Hb.
  assert (E : search_to (sat_b t al M T) t (range 4 100) (range 1 500) (Found 0 0 None 0) = search_to (sat_b t al M T) t (range 4 100) (range 1 K) (Found 0 0 None 0)).
  { rewrite (range_split 1 K 500) by lia. rewrite search_to_app. apply (outer_unchanged _ t (th_rf T) m); [exact H| |exact Em|].
    - intros a b. apply sat_b_rf.
    - intros a Ha. apply range_ge in Ha. lia. }
  rewrite find_search, E, Hb1, Hb0. reflexivity.
Qed.

Definition rounds_b (p n t al M rf rp : Z) (T : thresholds) (rf0 rp0 : Z) : bool :=
  thr_ok p n t al M T &&
  (4 <=? rf0) && Z.even rf0 && (1 <=? rp0) && sat_b t al M T rf0 rp0 && (rf =? rf0 + 2) && (rp =? (rp0 * 1075 + 999) / 1000).

Theorem rounds_ok p n t al M rf rp T rf0 rp0 K : search_b t al M T K rf rp = true -> rounds_b p n t al M rf rp T rf0 rp0 = true ->
  (exists sat, decides sat p n t al M) /\
  (forall sat, decides sat p n t al M -> find_FD_round_numbers sat t true = (rf, rp)) /\
  (exists a b, sat_inequiv_alpha p n t a b al M /\ rf = a + 2 /\ is_ceil (1075 / 1000 * IZR b)%R rp).
Proof.
  unfold rounds_b. intros HS H. rewrite ?andb_true_iff in H. repeat match type of H with _ /\ _ => destruct H as [H ?Hb] end.
  assert (D : decides (sat_b t al M T) p n t al M) by (intros a b H1 H2 H3; apply sat_b_ok; assumption).
  apply Z.leb_le in Hb4, Hb2. apply Z.eqb_eq in Hb0, Hb.
  split; [exists (sat_b t al M T); exact D|]. split.
  - intros sat HD. rewrite (search_ext sat (sat_b t al M T)); [exact (search_b_ok _ _ _ _ _ _ _ HS)|].
    intros a b H1 H2 H3. apply eq_true_iff_eq. rewrite (HD a b H1 H2 H3), (D a b H1 H2 H3). reflexivity.
  - exists rf0, rp0. split; [apply D; assumption|]. split; [exact Hb0|].
    assert (A : 1000 * (rp - 1) < 1075 * rp0 <= 1000 * rp).
    { rewrite Hb. pose proof (Z.div_mod (rp0 * 1075 + 999) 1000 ltac:(lia)). pose proof (Z.mod_pos_bound (rp0 * 1075 + 999) 1000 ltac:(lia)). lia. }
    destruct A as [A1 A2]. apply IZR_lt in A1. apply IZR_le in A2. rewrite !mult_IZR, minus_IZR in A1. rewrite !mult_IZR in A2. split; lra.
Qed.
