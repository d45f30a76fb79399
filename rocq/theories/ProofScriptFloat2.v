(** * ProofScriptFloat2: the answers and the search with rounding errors (C75) *)
From Coq Require Import Reals Lra Lia ZArith List Bool.
From Verif Require Import SpecRounds SpecDouble ModelScript ModelScriptFloat ProofRounds ProofScript ProofDouble ProofScriptFloat.
Import ListNotations.
Local Open Scope Z_scope.

Lemma sat_computed_ok p n t al M T ks rf rp b : clear_ok p n t al M T = true -> away_ok t al M ks = true ->
  4 <= rf < 100 -> Z.even rf = true -> 1 <= rp -> sat_computed p n t rf rp al M b -> (b = true <-> sat_inequiv_alpha p n t rf rp al M).
Proof.
  intros HT HA Hrf Hev Hrp HS. unfold clear_ok in HT. rewrite ?andb_true_iff in HT. repeat match type of HT with _ /\ _ => destruct HT as [HT ?Hb] end.
  apply Z.leb_le in HT, Hb10, Hb7, Hb6, Hb5, Hb4. apply Z.ltb_lt in Hb8.
  assert (La : (0 < ln (IZR al))%R) by (apply ln_pos_Z; lia). assert (L2 : (0 < ln 2)%R) by (apply (ln_pos_Z 2); lia).
  assert (Lp : (0 < ln (IZR p))%R) by (apply ln_pos_Z; lia).
  assert (P2M : 0 < 2 ^ M) by (apply Z.pow_pos_nonneg; lia).
  assert (EM : ln (IZR (2 ^ M)) = (IZR M * ln 2)%R) by (apply (ln_pow_Z 2); lia).
  destruct HS as [v1 [v2a [v2b [v3 [v4 [v5 [v6 [H1 [H2a [H2b [H3 [H4 [H5 [H6 Eb]]]]]]]]]]]]]].
  unfold computed in *.
  (* R_F_1 *)
  assert (E1 : (IZR (Z.log2 p - (al - 1) / 2) <= Rlog 2 (IZR p) - (IZR al - 1) / 2)%R).
  { destruct (Z.log2_spec p ltac:(lia)) as [A _]. apply ln_le_Z in A; [|apply Z.pow_pos_nonneg; [lia|apply Z.log2_nonneg]].
    rewrite ln_pow_Z in A by (try lia; apply Z.log2_nonneg).
    apply Z.odd_spec in Hb9. destruct Hb9 as [h ->]. replace ((2 * h + 1 - 1) / 2) with h by (rewrite Z.add_simpl_r, Z.mul_comm, Z.div_mul; lia).
    rewrite minus_IZR, plus_IZR, mult_IZR. unfold Rlog.
    assert (IZR (Z.log2 p) <= ln (IZR p) / ln 2)%R; [|lra].
    apply (Rmult_le_reg_r (ln 2)); try exact L2. unfold Rdiv; rewrite Rmult_assoc, Rinv_l by lra; lra. }
  assert (F1 : forall v, (Rabs (v - (Rlog 2 (IZR p) - (IZR al - 1) / 2)) <= 1 / 1000)%R -> (M <=? Rfloor v * (t + 1)) = true).
  { intros v Hv. apply Rabs_le_inv' in Hv. apply Z.leb_le. set (w := Z.log2 p - (al - 1) / 2) in *.
    assert (w - 1 <= Rfloor v).
    { unfold Rfloor. destruct (base_Int_part v) as [A B]. apply Z.lt_succ_r. apply lt_IZR. unfold Z.succ. rewrite plus_IZR, minus_IZR. lra. }
    nia. }
  rewrite (F1 v1 H1) in Eb. assert (F1x := F1 (Rlog 2 (IZR p) - (IZR al - 1) / 2)%R ltac:(rewrite Rminus_eq_0, Rabs_R0; lra)).
  (* R_F_2 *)
  assert (E2a : Rceil v2a = Rceil (Rlog (IZR al) 2 * IZR (Z.min M n))%R).
  { apply (clear_Rceil (Rlog (IZR al) 2 * IZR (Z.min M n)) (1 / 1000) (th_2a T) _ _ 0); [lra| |lra|exact H2a].
    apply pow_clear_ok in Hb3; [|lia|apply Z.pow_pos_nonneg; lia|lia].
    rewrite ln_pow_Z in Hb3 by lia. unfold Rlog. replace (ln 2 / ln (IZR al) * IZR (Z.min M n))%R with (IZR (Z.min M n) * ln 2 / ln (IZR al))%R by (field; lra). exact Hb3. }
  assert (E2b : Rceil v2b = Rceil (Rlog (IZR al) (IZR t))).
  { apply (clear_Rceil (Rlog (IZR al) (IZR t)) (1 / 1000) (th_2b T) _ _ 0); [lra| |lra|exact H2b].
    apply pow_clear_ok in Hb2; [exact Hb2|lia|lia|lia]. }
  (* R_F_3 *)
  assert (E3 : Rceil v3 = Rceil (Rlog (IZR al) 2 * Rmin (IZR M) (Rlog 2 (IZR p)) - IZR rp)%R).
  { apply (clear_Rceil (Rlog (IZR al) 2 * Rmin (IZR M) (Rlog 2 (IZR p))) (1 / 1000) (th_3 T) _ _ (- rp)); [lra| |rewrite opp_IZR; ring|exact H3].
    apply pow_clear_ok in Hb1; [|lia|lia|lia].
    replace (Rlog (IZR al) 2 * Rmin (IZR M) (Rlog 2 (IZR p)))%R with (ln (IZR (Z.min (2 ^ M) p)) / ln (IZR al))%R; [exact Hb1|].
    unfold Rlog. destruct (Z.le_ge_cases (2 ^ M) p) as [L|L].
    - rewrite Z.min_l by exact L. apply ln_le_Z in L; [|lia]. rewrite EM in *. rewrite Rmin_left.
      + field. lra.
      + apply (Rmult_le_reg_r (ln 2)); [exact L2|]. unfold Rdiv. rewrite Rmult_assoc, Rinv_l by lra. lra.
    - rewrite Z.min_r by exact L. apply ln_le_Z in L; [|lia]. rewrite EM in L. rewrite Rmin_right.
      + field. lra.
      + apply (Rmult_le_reg_r (ln 2)); [exact L2|]. unfold Rdiv. rewrite Rmult_assoc, Rinv_l by lra. lra. }
  (* R_F_4 *)
  assert (Tp : (0 < IZR t + 1)%R) by (rewrite <- plus_IZR; apply IZR_lt; lia).
  assert (E4 : Rceil v4 = Rceil (IZR t - 1 + Rlog (IZR al) 2 * Rmin (IZR M / (IZR t + 1)) (Rlog 2 (IZR p) / 2) - IZR rp)%R).
  { apply (clear_Rceil (Rlog (IZR al) 2 * Rmin (IZR M / (IZR t + 1)) (Rlog 2 (IZR p) / 2)) (1 / 1000) (th_4 T) _ _ (t - 1 - rp)); [lra| |rewrite !minus_IZR; ring|exact H4].
    assert (Ep : ln (IZR (p ^ (t + 1))) = ((IZR t + 1) * ln (IZR p))%R) by (rewrite ln_pow_Z, plus_IZR by lia; reflexivity).
    assert (EMM : ln (IZR (2 ^ (2 * M))) = (2 * IZR M * ln 2)%R) by (rewrite (ln_pow_Z 2), mult_IZR by lia; reflexivity).
    assert (Q1 : 1 < al ^ (t + 1)) by (apply Z.pow_gt_1; lia). assert (Q2 : 1 < al ^ 2) by (apply Z.pow_gt_1; lia).
    assert (P1 : 0 < p ^ (t + 1)) by (apply Z.pow_pos_nonneg; lia). assert (P3 : 0 < 2 ^ (2 * M)) by (apply Z.pow_pos_nonneg; lia).
    unfold Rlog. destruct (2 ^ (2 * M) <=? p ^ (t + 1)) eqn:C4.
    - apply Z.leb_le in C4. apply ln_le_Z in C4; [|exact P3]. rewrite Ep, EMM in C4. apply pow_clear_ok in Hb0; [|exact Q1|exact P2M|lia].
      rewrite EM, ln_pow_Z, plus_IZR in Hb0 by lia. rewrite Rmin_left.
      + replace (ln 2 / ln (IZR al) * (IZR M / (IZR t + 1)))%R with (IZR M * ln 2 / ((IZR t + 1) * ln (IZR al)))%R by (field; lra). exact Hb0.
      + apply (Rmult_le_reg_r (2 * (IZR t + 1) * ln 2)); [nra|].
        replace (IZR M / (IZR t + 1) * (2 * (IZR t + 1) * ln 2))%R with (2 * IZR M * ln 2)%R by (field; lra).
        replace (ln (IZR p) / ln 2 / 2 * (2 * (IZR t + 1) * ln 2))%R with ((IZR t + 1) * ln (IZR p))%R by (field; lra). exact C4.
    - apply Z.leb_gt in C4. apply ln_lt_Z in C4; [|exact P1]. rewrite Ep, EMM in C4. apply pow_clear_ok in Hb0; [|exact Q2|lia|lia].
      rewrite ln_pow_Z in Hb0 by lia. rewrite Rmin_right.
      + replace (ln 2 / ln (IZR al) * (ln (IZR p) / ln 2 / 2))%R with (ln (IZR p) / (2 * ln (IZR al)))%R by (field; lra). exact Hb0.
      + apply (Rmult_le_reg_r (2 * (IZR t + 1) * ln 2)); [nra|].
        replace (IZR M / (IZR t + 1) * (2 * (IZR t + 1) * ln 2))%R with (2 * IZR M * ln 2)%R by (field; lra).
        replace (ln (IZR p) / ln 2 / 2 * (2 * (IZR t + 1) * ln 2))%R with ((IZR t + 1) * ln (IZR p))%R by (field; lra). lra. }
  (* R_F_5 *)
  assert (T1 : (0 < IZR t - 1)%R) by (rewrite <- minus_IZR; apply IZR_lt; lia).
  set (x5 := ((IZR t - 2 + IZR M / (2 * Rlog 2 (IZR al)) - IZR rp) / (IZR t - 1))%R) in *.
  assert (E5 : Rceil v5 <= rf <-> Rceil x5 <= rf).
  { apply pow_clear_ok in Hb; [|apply Z.pow_gt_1; lia|exact P2M|lia]. rewrite EM, ln_pow_Z in Hb by lia.
    replace (IZR M * ln 2 / (2 * ln (IZR al)))%R with (IZR M / (2 * Rlog 2 (IZR al)))%R in Hb by (unfold Rlog; field; lra).
    set (y := (IZR M / (2 * Rlog 2 (IZR al)))%R) in *.
    assert (Q : forall v, (Rabs (v - x5) <= 1 / 1000)%R -> Rceil v <= rf <-> th_5 T <= rf * (t - 1) - (t - 2 - rp)).
    { intros v Hv. apply Rabs_le_inv' in Hv. rewrite Rceil_le. destruct Hb as [A B]. rewrite minus_IZR in A, B.
      assert (X : (x5 * (IZR t - 1) = IZR t - 2 + y - IZR rp)%R) by (unfold x5; field; lra).
      assert (V : (v * (IZR t - 1) <= x5 * (IZR t - 1) + (IZR t - 1) / 1000)%R) by nra.
      assert (V' : (x5 * (IZR t - 1) - (IZR t - 1) / 1000 <= v * (IZR t - 1))%R) by nra.
      split; intros H.
      - assert (Y : (v * (IZR t - 1) <= IZR rf * (IZR t - 1))%R) by (apply Rmult_le_compat_r; lra).
        apply Z.lt_succ_r. apply lt_IZR. unfold Z.succ. rewrite plus_IZR, minus_IZR, mult_IZR, !minus_IZR in *. lra.
      - apply IZR_le in H. rewrite minus_IZR, mult_IZR, !minus_IZR in H. apply (Rmult_le_reg_r (IZR t - 1)); [exact T1|]. lra. }
    rewrite (Q v5 H5), (Q x5); [reflexivity|]. rewrite Rminus_eq_0, Rabs_R0. lra. }
  (* binomial *)
  fold (over t al rf rp) in H6, Eb. fold (under t al rf rp) in H6, Eb. fold (Cz (over t al rf rp) (under t al rf rp)) in H6.
  assert (E6 : 6 <= rf -> M <= Rceil v6 <-> M <= Rceil (2 * Rlog 2 (Cz (over t al rf rp) (under t al rf rp)))).
  { intros H. assert (Hou := over_under t al rf rp HT ltac:(lia) ltac:(lia) ltac:(lia)).
    assert (Pc : (0 < Cz (over t al rf rp) (under t al rf rp))%R) by (apply C_pos; lia).
    apply Z.even_spec in Hev. destruct Hev as [h Hh]. unfold away_ok in HA. rewrite forallb_forall in HA.
    specialize (HA (Z.to_nat h) ltac:(apply in_seq; lia)). rewrite Z2Nat.id in HA by lia. rewrite <- Hh in HA.
    assert (A := bin_away_ok t al M rf _ HT ltac:(lia) ltac:(lia) HA rp Hrp).
    destruct H6 as [H6|[B6 E6]]; [apply away_log; assumption|].
    rewrite E6. assert (R2 : Rceil (IZR (2 * (M + 1))) = 2 * (M + 1)) by (apply Rceil_eq; unfold is_ceil; lra).
    rewrite R2. split; intros _; [|lia].
    apply le_Rceil. assert (K : (1023 <= Rlog 2 (Cz (over t al rf rp) (under t al rf rp)))%R).
    { unfold Rlog. apply (Rmult_le_reg_r (ln 2)); [exact L2|]. unfold Rdiv. rewrite Rmult_assoc, Rinv_l, Rmult_1_r by lra.
      rewrite <- (ln_pow_Z 2 1023) by lia. apply ln_le; [apply IZR_lt; reflexivity|exact B6]. }
    apply Rlt_le_trans with (2 * 1023)%R; [|lra]. rewrite <- mult_IZR. apply IZR_lt. lia. }
  rewrite Eb. unfold sat_inequiv_alpha. cbv zeta. fold (over t al rf rp). fold (under t al rf rp). fold (Cz (over t al rf rp) (under t al rf rp)).
  rewrite F1x, E2a, E2b, E3, E4, andb_true_iff, !Z.leb_le, !Z.max_lub_iff. fold x5. rewrite E5.
  split; intros [A B]; (split; [exact A|]); apply E6; try exact B; apply A.
Qed.

(** ** the search *)
Definition up (n : Z) : Z := (n * 1075 + 999) / 1000.
Fixpoint ups (k : nat) (n : Z) : Z := match k with O => n | S k => ups k (up n) end.
Lemma up_ge n : 0 <= n -> n <= up n.
Proof. intros H. apply Z.div_le_lower_bound; lia. Qed.
Lemma up_mono a b : a <= b -> up a <= up b.
Proof. intros H. apply Z.div_le_mono; lia. Qed.
Lemma ups_mono k : forall a b, a <= b -> ups k a <= ups k b.
Proof. induction k as [|k IH]; intros a b H; [exact H|]. cbn [ups]. apply IH, up_mono, H. Qed.
Lemma ups_ge k : forall n, 0 <= n -> n <= ups k n.
Proof. induction k as [|k IH]; intros n H; [cbn; lia|]. cbn [ups]. pose proof (up_ge n H). etransitivity; [exact H0|apply IH; lia]. Qed.

Lemma inner_fl_ext (f g : Z -> Z -> bool) scale t mar :
  (forall rf rp, 4 <= rf < 100 -> Z.even rf = true -> 1 <= rp < 2 ^ 20 -> f rf rp = g rf rp) ->
  (forall n, 1 <= n < 2 ^ 20 -> scale n = up n) ->
  forall l, (forall x, In x l -> 4 <= x < 100) -> forall rp b, 1 <= rp -> ups (length l) rp < 2 ^ 20 ->
    fold_left (search_step_fl f scale t mar) l (rp, b) = fold_left (search_step g t mar) l (rp, b).
Proof.
  intros E Hs. induction l as [|x l IH]; intros Hl rp b H1 H2; [reflexivity|]. cbn [fold_left length ups] in *.
  assert (Hx := Hl x (or_introl eq_refl)). assert (Hl' : forall y, In y l -> 4 <= y < 100) by (intros y Hy; apply Hl; right; exact Hy).
  pose proof (up_ge rp ltac:(lia)) as G. pose proof (ups_ge (length l) (up rp) ltac:(lia)) as G2.
  pose proof (ups_mono (length l) rp (up rp) G) as G3.
  assert (S : search_step_fl f scale t mar (rp, b) x = search_step g t mar (rp, b) x /\
              (fst (search_step g t mar (rp, b) x) = rp \/ fst (search_step g t mar (rp, b) x) = up rp)).
  { unfold search_step_fl, search_step. destruct (Z.even x) eqn:Ev; [|split; [reflexivity|left; reflexivity]].
    rewrite E by (assumption || lia). destruct (g x rp); [|split; [reflexivity|left; reflexivity]]. rewrite Hs by lia.
    destruct mar; (split; [reflexivity|]); [right|left]; reflexivity. }
  destruct S as [S1 S2]. rewrite S1. destruct (search_step g t mar (rp, b) x) as [rp' b']. cbn [fst] in S2.
  apply IH; [exact Hl'|destruct S2 as [-> | ->]; lia..].
Qed.
Lemma outer_fl_ext (f g : Z -> Z -> bool) scale t mar l0 :
  (forall rf rp, 4 <= rf < 100 -> Z.even rf = true -> 1 <= rp < 2 ^ 20 -> f rf rp = g rf rp) ->
  (forall n, 1 <= n < 2 ^ 20 -> scale n = up n) ->
  (forall x, In x l0 -> 4 <= x < 100) -> ups (length l0) 500 < 2 ^ 20 ->
  forall l, (forall x, In x l -> 1 <= x <= 500) -> forall b,
    fold_left (fun b R_P_t => snd (fold_left (search_step_fl f scale t mar) l0 (R_P_t, b))) l b =
    fold_left (fun b R_P_t => snd (fold_left (search_step g t mar) l0 (R_P_t, b))) l b.
Proof.
  intros E Hs H0 B. induction l as [|x l IH]; intros Hl b; [reflexivity|]. cbn [fold_left]. assert (Hx := Hl x (or_introl eq_refl)).
  rewrite (inner_fl_ext f g scale t mar E Hs l0 H0 x b); [|lia|].
  - apply IH. intros y Hy. apply Hl. right. exact Hy.
  - pose proof (ups_mono (length l0) x 500 ltac:(lia)). lia.
Qed.
Lemma range_in a b x : In x (range a b) -> Z.of_nat a <= x < Z.of_nat b.
Proof. intros Hx. unfold range in Hx. apply in_map_iff in Hx. destruct Hx as [k [<- Hk]]. apply in_seq in Hk. lia. Qed.
Lemma range_1 x : In x (range 1 500) -> 1 <= x <= 500.
Proof. intros H. apply range_in in H. lia. Qed.
Lemma ups_bound : ups (length (range 4 100)) 500 < 2 ^ 20.
Proof. apply Z.ltb_lt. vm_compute. reflexivity. Qed.
Lemma search_fl_ext (f g : Z -> Z -> bool) scale t mar :
  (forall rf rp, 4 <= rf < 100 -> Z.even rf = true -> 1 <= rp < 2 ^ 20 -> f rf rp = g rf rp) ->
  (forall n, 1 <= n < 2 ^ 20 -> scale n = up n) ->
  find_FD_round_numbers_fl f scale t mar = find_FD_round_numbers g t mar.
Proof.
  intros E Hs. exact (f_equal (fun b => (fd_rf b, fd_rp b)) (outer_fl_ext f g scale t mar (range 4 100) E Hs (range_in 4 100) ups_bound (range 1 500) range_1 (Found 0 0 None 0))).
Qed.

Definition ranged (sat : Z -> Z -> bool) (p n t al M : Z) : Prop :=
  forall rf rp, 4 <= rf < 100 -> Z.even rf = true -> 1 <= rp < 2 ^ 20 -> sat_computed p n t rf rp al M (sat rf rp).
Definition scales (scale : Z -> Z) : Prop := forall rp, 1 <= rp < 2 ^ 20 -> scaled rp (scale rp).

Theorem rounds_fl_ok p n t al M rf rp T ks : clear_ok p n t al M T = true -> away_ok t al M ks = true ->
  (exists sat, decides sat p n t al M) -> (forall sat, decides sat p n t al M -> find_FD_round_numbers sat t true = (rf, rp)) ->
  forall sat scale, ranged sat p n t al M -> scales scale -> find_FD_round_numbers_fl sat scale t true = (rf, rp).
Proof.
  intros H1 H2 [s Hs] H sat scale R S. rewrite (search_fl_ext sat s); [apply H; exact Hs| |].
  - intros a b Ha Hb Hc. apply eq_true_iff_eq. rewrite (sat_computed_ok p n t al M T ks a b _ H1 H2 Ha Hb ltac:(lia) (R a b Ha Hb Hc)).
    symmetry. apply Hs; [lia|exact Hb|lia].
  - intros m Hm. apply scale_ok; [exact Hm|apply S; exact Hm].
Qed.

(** ** such programs exist: the exact one *)
Lemma exact_computed sat p n t al M : 0 <= M -> decides sat p n t al M -> ranged sat p n t al M.
Proof.
  intros HM D rf rp H1 H2 H3. assert (Z0 : forall x, computed x x) by (intros x; unfold computed; rewrite Rminus_eq_0, Rabs_R0; lra).
  do 7 eexists. repeat (split; [apply Z0|]). split; [left; apply Z0|].
  apply eq_true_iff_eq. rewrite (D rf rp ltac:(lia) H2 ltac:(lia)). unfold sat_inequiv_alpha. cbv zeta.
  rewrite andb_true_iff, !Z.leb_le. reflexivity.
Qed.
Lemma exact_scales : scales up.
Proof. intros rp H. apply scaled_exists. exact H. Qed.
