(** * ProofDouble: the product with 1.075 in binary64 (C75) *)
From Coq Require Import Reals Lra Lia ZArith.
From Verif Require Import SpecRounds SpecDouble ModelScript ModelScriptFloat ProofScript.
Local Open Scope R_scope.

Lemma p2_IZR e : (0 <= e)%Z -> powerRZ 2 e = IZR (2 ^ e).
Proof.
  intros H. destruct e as [|q|q]; [reflexivity| |lia].
  cbn [powerRZ]. rewrite <- (positive_nat_Z q), <- pow_IZR. reflexivity.
Qed.
Lemma p2_neg j : (0 <= j)%Z -> powerRZ 2 (- j) = / IZR (2 ^ j).
Proof. intros H. rewrite powerRZ_neg', p2_IZR by exact H. reflexivity. Qed.
Lemma pow_ge_1 j : (0 <= j)%Z -> 1 <= IZR (2 ^ j).
Proof. intros H. apply IZR_le. pose proof (Z.pow_pos_nonneg 2 j ltac:(lia) H). lia. Qed.

Lemma double_frac m j : (Z.abs m <= 2 ^ 53)%Z -> (0 <= j <= 1074)%Z -> double (IZR m / IZR (2 ^ j)).
Proof.
  intros Hm Hj. destruct (Z.eq_dec (Z.abs m) (2 ^ 53)) as [E|N].
  - destruct (Z.le_gt_cases 1 j) as [J|J].
    + exists (m / 2)%Z, (- (j - 1))%Z. assert (Em : (m = 2 * (m / 2))%Z).
      { destruct (Z.abs_eq_or_opp m) as [A|A]; rewrite A in E.
        - rewrite E. reflexivity.
        - replace m with (- 2 ^ 53)%Z by lia. reflexivity. }
      split; [|split; [lia|]].
      * lia.
      * rewrite p2_neg by lia. rewrite Em at 1. rewrite mult_IZR. replace (2 ^ j)%Z with (2 * 2 ^ (j - 1))%Z by (rewrite <- Z.pow_succ_r by lia; f_equal; lia).
        rewrite mult_IZR. pose proof (pow_ge_1 (j - 1) ltac:(lia)). field. lra.
    + replace j with 0%Z by lia. exists (m / 2)%Z, 1%Z. assert (Em : (m = 2 * (m / 2))%Z).
      { destruct (Z.abs_eq_or_opp m) as [A|A]; rewrite A in E.
        - rewrite E. reflexivity.
        - replace m with (- 2 ^ 53)%Z by lia. reflexivity. }
      split; [lia|split; [lia|]]. rewrite Em at 1. rewrite mult_IZR, p2_IZR by lia. change (2 ^ 1)%Z with 2%Z. change (2 ^ 0)%Z with 1%Z. field.
  - exists m, (- j)%Z. split; [lia|]. split; [lia|]. rewrite p2_neg by lia. reflexivity.
Qed.
Lemma double_int k : (Z.abs k <= 2 ^ 53)%Z -> double (IZR k).
Proof. intros H. pose proof (double_frac k 0 H ltac:(lia)) as D. change (2 ^ 0)%Z with 1%Z in D. unfold Rdiv in D; rewrite Rinv_1, Rmult_1_r in D. exact D. Qed.

Lemma c_err c : nearest (1075 / 1000) c -> Rabs (c - 1075 / 1000) <= 1 / 5 / IZR (2 ^ 52).
Proof.
  intros [_ H]. specialize (H (IZR 4841369599423283 / IZR (2 ^ 52)) (double_frac 4841369599423283 52 ltac:(lia) ltac:(lia))).
  eapply Rle_trans; [exact H|]. apply Rabs_le. change (2 ^ 52)%Z with 4503599627370496%Z. split; lra.
Qed.

Lemma nearest_near x v w : nearest x v -> double w -> Rabs (v - w) <= 2 * Rabs (w - x).
Proof.
  intros [_ H] Hw. specialize (H w Hw). replace (v - w) with ((v - x) - (w - x)) by ring.
  eapply Rle_trans; [apply Rabs_triang|]. rewrite Rabs_Ropp. lra.
Qed.

Lemma Rabs_le_inv' x a : Rabs x <= a -> - a <= x <= a.
Proof. intros H. unfold Rabs in H. destruct (Rcase_abs x); lra. Qed.

Lemma scale_ok n k : (1 <= n < 2 ^ 20)%Z -> scaled n k -> k = ((n * 1075 + 999) / 1000)%Z.
Proof.
  intros Hn [c [r [Hc [Hr ->]]]]. apply c_err in Hc. apply Rabs_le_inv' in Hc. change (2 ^ 52)%Z with 4503599627370496%Z in Hc.
  set (q := ((n * 1075 + 999) / 1000)%Z).
  assert (Hq : (1000 * (q - 1) < 1075 * n <= 1000 * q)%Z).
  { unfold q. pose proof (Z.div_mod (n * 1075 + 999) 1000 ltac:(lia)). pose proof (Z.mod_pos_bound (n * 1075 + 999) 1000 ltac:(lia)). lia. }
  assert (Rn : 1 <= IZR n < 1048576) by (change (2 ^ 20)%Z with 1048576%Z in Hn; split; [apply IZR_le|apply IZR_lt]; lia).
  set (y := IZR n * c) in *.
  assert (Hy : IZR n * (1075 / 1000) - IZR n / 5 / 4503599627370496 <= y <= IZR n * (1075 / 1000) + IZR n / 5 / 4503599627370496).
  { unfold y. split; nra. }
  apply Rceil_eq. unfold is_ceil.
  destruct (Z.eq_dec (1075 * n) (1000 * q)) as [E|N].
  - assert (Rq : 1075 * IZR n = 1000 * IZR q) by (rewrite <- !mult_IZR; f_equal; exact E).
    cut (r = IZR q); [intros ->; lra|].
    pose proof (nearest_near y r (IZR q) Hr (double_int q ltac:(lia))) as Nr.
    assert (Hd : Rabs (IZR q - y) <= IZR n / 5 / 4503599627370496) by (apply Rabs_le; lra).
    assert (Nr' : Rabs (r - IZR q) <= 2 * (IZR n / 5 / 4503599627370496)) by lra. apply Rabs_le_inv' in Nr'.
    destruct Hr as [[m [e [Hm [He Er]]]] _]. destruct (Z.le_gt_cases 0 e) as [P|P].
    + rewrite p2_IZR, <- mult_IZR in Er by exact P. rewrite Er in *. f_equal.
      assert (m * 2 ^ e < q + 1)%Z by (apply lt_IZR; rewrite plus_IZR; lra).
      assert (q < m * 2 ^ e + 1)%Z by (apply lt_IZR; rewrite plus_IZR; lra). lia.
    + replace e with (- (- e))%Z in Er by lia. rewrite p2_neg in Er by lia. set (j := (- e)%Z) in *.
      pose proof (pow_ge_1 j ltac:(lia)) as J. set (x := (2 ^ j)%Z) in *.
      destruct (Z.eq_dec m (q * x)) as [Em|Em].
      { rewrite Er, Em, mult_IZR. field. lra. }
      exfalso. assert (D : 1 <= Rabs (IZR m - IZR q * IZR x)).
      { rewrite <- mult_IZR, <- minus_IZR, <- abs_IZR. apply IZR_le. lia. }
      assert (Erx : r * IZR x = IZR m) by (rewrite Er; field; lra).
      assert (Mx : IZR m < 9007199254740992) by (apply IZR_lt; change (2 ^ 53)%Z with 9007199254740992%Z in Hm; lia).
      rewrite <- Erx in D, Mx.
      replace (r * IZR x - IZR q * IZR x) with ((r - IZR q) * IZR x) in D by ring. rewrite Rabs_mult, (Rabs_pos_eq (IZR x)) in D by lra.
      assert (B : Rabs (r - IZR q) <= 2 * (IZR n / 5 / 4503599627370496)) by (apply Rabs_le; lra).
      set (a := Rabs (r - IZR q)) in *. assert (D2 : 1 <= 2 * (IZR n / 5 / 4503599627370496) * IZR x) by nra.
      assert (L : (IZR q - 2 * (IZR n / 5 / 4503599627370496)) * IZR x <= r * IZR x) by (apply Rmult_le_compat_r; lra).
      set (nx := IZR n * IZR x). assert (D3 : 5 * 4503599627370496 <= 2 * nx) by (unfold nx; nra).
      replace (IZR q) with (1075 / 1000 * IZR n) in L by lra.
      replace ((1075 / 1000 * IZR n - 2 * (IZR n / 5 / 4503599627370496)) * IZR x) with (nx * (1075 / 1000 - 2 / 5 / 4503599627370496)) in L by (unfold nx; field).
      nra.
  - assert (N1 : (1000 * (q - 1) + 25 <= 1075 * n)%Z) by lia.
    assert (N2 : (1075 * n + 25 <= 1000 * q)%Z) by lia.
    apply IZR_le in N1, N2. rewrite ?plus_IZR, !mult_IZR, ?minus_IZR in N1. rewrite plus_IZR, !mult_IZR in N2.
    set (m := Int_part (y * 1024)). destruct (base_Int_part (y * 1024)) as [A B]. fold m in A, B.
    assert (Hm : (0 <= m + 1 /\ m < 2 ^ 40)%Z).
    { change (2 ^ 40)%Z with 1099511627776%Z. split; [apply le_IZR; rewrite plus_IZR|apply lt_IZR]; lra. }
    destruct Hr as [_ Hr]. specialize (Hr (IZR m / IZR (2 ^ 10)) (double_frac m 10 ltac:(lia) ltac:(lia))).
    change (2 ^ 10)%Z with 1024%Z in Hr.
    assert (W : Rabs (IZR m / 1024 - y) <= 1 / 1024) by (apply Rabs_le; lra).
    assert (V : Rabs (r - y) <= 1 / 1024) by lra. apply Rabs_le_inv' in V. lra.
Qed.

(** ** nearest numbers exist *)
Lemma Int_half_near x z : let q := Int_part (x + / 2) in Rabs (IZR q - x) <= Rabs (IZR z - x).
Proof.
  cbv zeta. destruct (base_Int_part (x + / 2)) as [A B]. set (q := Int_part (x + / 2)) in *.
  destruct (Z.lt_trichotomy z q) as [L|[->|L]]; [|lra|].
  - assert (IZR z <= IZR q - 1) by (rewrite <- minus_IZR; apply IZR_le; lia).
    rewrite (Rabs_left1 (IZR z - x)) by lra. apply Rabs_le. lra.
  - assert (IZR q + 1 <= IZR z) by (rewrite <- plus_IZR; apply IZR_le; lia).
    rewrite (Rabs_right (IZR z - x)) by lra. apply Rabs_le. lra.
Qed.

Lemma nearest_exists x j : (0 <= j <= 1074)%Z -> IZR (2 ^ 52) <= x * IZR (2 ^ j) < IZR (2 ^ 53) -> exists v, nearest x v.
Proof.
  intros Hj Hx. pose proof (pow_ge_1 j ltac:(lia)) as J. set (b := IZR (2 ^ j)) in *. set (X := x * b) in *.
  set (q := Int_part (X + / 2)).
  assert (Q : (2 ^ 52 <= q <= 2 ^ 53)%Z).
  { destruct (base_Int_part (X + / 2)) as [A B]. fold q in A, B. split.
    - apply Z.lt_succ_r, lt_IZR. unfold Z.succ. rewrite plus_IZR. lra.
    - apply Z.lt_succ_r, lt_IZR. unfold Z.succ. rewrite plus_IZR. lra. }
  assert (S : forall a, Rabs (a * b - X) = Rabs (a - x) * b).
  { intros a. unfold X. replace (a * b - x * b) with ((a - x) * b) by ring. rewrite Rabs_mult, (Rabs_pos_eq b) by lra. reflexivity. }
  exists (IZR q / b). split; [apply double_frac; lia|].
  intros w [m [e [Hm [He Ew]]]]. apply (Rmult_le_reg_r b); [lra|]. rewrite <- !S. replace (IZR q / b * b) with (IZR q) by (field; lra).
  destruct (Z.le_gt_cases (- j) e) as [L|L].
  - replace (w * b) with (IZR (m * 2 ^ (e + j))); [apply Int_half_near|].
    rewrite mult_IZR, <- p2_IZR by lia. rewrite powerRZ_add by lra. rewrite Ew. unfold b. rewrite <- p2_IZR by lia. ring.
  - eapply Rle_trans; [apply (Int_half_near X (2 ^ 52))|].
    assert (w * b <= IZR (2 ^ 52)).
    { replace e with (- (- e))%Z in Ew by lia. rewrite p2_neg in Ew by lia. set (i := (- e)%Z) in *.
      pose proof (pow_ge_1 i ltac:(lia)) as I1. assert (Ei : IZR (2 ^ i) = b * IZR (2 ^ (i - j))) by (unfold b; rewrite <- mult_IZR, <- Z.pow_add_r by lia; do 2 f_equal; lia).
      replace (i - j)%Z with (Z.succ (i - j - 1)) in Ei by lia. rewrite Z.pow_succ_r, mult_IZR in Ei by lia.
      pose proof (pow_ge_1 (i - j - 1) ltac:(lia)) as K. set (k := IZR (2 ^ (i - j - 1))) in *.
      assert (Mm : IZR m <= 9007199254740992) by (apply IZR_le; change (2 ^ 53)%Z with 9007199254740992%Z in Hm; lia).
      rewrite Ew, Ei. replace (IZR m * / (b * (2 * k)) * b) with (IZR m / (2 * k)) by (field; lra).
      change (2 ^ 52)%Z with 4503599627370496%Z. apply (Rmult_le_reg_r (2 * k)); [lra|]. unfold Rdiv. rewrite Rmult_assoc, Rinv_l by lra. lra. }
    rewrite (Rabs_left1 (IZR (2 ^ 52) - X)), (Rabs_left1 (w * b - X)) by lra. lra.
Qed.

Lemma scaled_exists n : (1 <= n < 2 ^ 20)%Z -> scaled n ((n * 1075 + 999) / 1000).
Proof.
  intros Hn. destruct (nearest_exists (1075 / 1000) 52 ltac:(lia)) as [c Hc].
  { change (2 ^ 52)%Z with 4503599627370496%Z. change (2 ^ 53)%Z with 9007199254740992%Z. lra. }
  pose proof (c_err c Hc) as B. apply Rabs_le_inv' in B. change (2 ^ 52)%Z with 4503599627370496%Z in B.
  assert (Rn : 1 <= IZR n < 1048576) by (change (2 ^ 20)%Z with 1048576%Z in Hn; split; [apply IZR_le|apply IZR_lt]; lia).
  set (y := IZR n * c). assert (Hy : 1 <= y < 2097152) by (unfold y; nra).
  set (k := Int_part y). destruct (base_Int_part y) as [K1 K2]. fold k in K1, K2.
  assert (Hk : (1 <= k < 2097152)%Z).
  { split; [apply Z.lt_succ_r, lt_IZR; unfold Z.succ; rewrite plus_IZR; lra|apply lt_IZR; lra]. }
  destruct (Z.log2_spec k ltac:(lia)) as [L1 L2].
  assert (L3 : (Z.log2 k < 21)%Z) by (apply Z.log2_lt_pow2; [lia|change (2 ^ 21)%Z with 2097152%Z; lia]).
  pose proof (Z.log2_nonneg k) as L0. set (l := Z.log2 k) in *.
  destruct (nearest_exists y (52 - l) ltac:(lia)) as [r Hr].
  { assert (E : IZR (2 ^ 52) = IZR (2 ^ l) * IZR (2 ^ (52 - l))) by (rewrite <- mult_IZR, <- Z.pow_add_r by lia; do 2 f_equal; lia).
    assert (E' : IZR (2 ^ 53) = IZR (2 ^ Z.succ l) * IZR (2 ^ (52 - l))) by (rewrite <- mult_IZR, <- Z.pow_add_r by lia; do 2 f_equal; lia).
    rewrite E, E'. pose proof (pow_ge_1 (52 - l) ltac:(lia)). apply IZR_le in L1.
    assert (L2' : (k + 1 <= 2 ^ Z.succ l)%Z) by lia. apply IZR_le in L2'. rewrite plus_IZR in L2'.
    split; [apply Rmult_le_compat_r; lra|apply Rmult_lt_compat_r; lra]. }
  assert (S : scaled n (Rceil r)) by (exists c, r; split; [exact Hc|split; [exact Hr|reflexivity]]).
  rewrite <- (scale_ok n _ Hn S). exact S.
Qed.
