(** * ProofScriptDouble2: the answers of the binary64 program are within the errors of C75 (C91) *)
From Coq Require Import Reals Lra Lia ZArith Zify List Bool.
From Verif Require Import SpecRounds SpecDouble ModelScript ModelScriptFloat ModelScriptDouble ProofRounds ProofScript ProofDouble ProofScriptFloat ProofScriptDouble.
Local Open Scope R_scope.
Ltac Zify.zify_post_hook ::= Z.to_euclidean_division_equations.

Definition sizes (p n t al M : Z) : Prop := (2 <= p < 2 ^ 256 /\ 0 <= n <= 1024 /\ 2 <= t <= 1024 /\ 2 <= al <= 1023 /\ 0 <= M <= 1024)%Z.

Lemma to_nat_of o z : IZR z = INR o -> o = Z.to_nat z.
Proof. intros E. rewrite INR_IZR_INZ in E. apply eq_IZR in E. lia. Qed.

Section S.
  Context (p n t rf rp al M : Z) (HS : sizes p n t al M) (Hrf : (4 <= rf < 100)%Z) (Hev : Z.even rf = true) (Hrp : (1 <= rp < 2 ^ 20)%Z).
  Let Lp := Rlog 2 (IZR p).
  Let L2 := Rlog (IZR al) 2.
  Let Lt := Rlog (IZR al) (IZR t).
  Let La := Rlog 2 (IZR al).

  Lemma Rs : 2 <= IZR t <= 1024 /\ 2 <= IZR al <= 1023 /\ 0 <= IZR M <= 1024 /\ 0 <= IZR n <= 1024 /\ 1 <= IZR rp <= 1048576 /\ 4 <= IZR rf <= 100.
  Proof. destruct HS as (_ & H1 & H2 & H3 & H4). change (2 ^ 20)%Z with 1048576%Z in Hrp. repeat split; apply IZR_le; lia. Qed.
  Lemma Ls : 1 / 2 <= ln (IZR p) <= 256 /\ 1 / 2 <= ln (IZR al) <= 10 /\ 1 / 2 <= ln (IZR t) <= 11 /\ 1 / 2 <= ln 2 < 9 / 10 /\ ln 2 <= ln (IZR al).
  Proof.
    destruct HS as (H0 & H1 & H2 & H3 & H4). pose proof half_ln2. pose proof (ln_bounds p 256 ltac:(lia) ltac:(lia)). pose proof (ln_bounds al 10 ltac:(lia) ltac:(lia)).
    pose proof (ln_bounds t 11 ltac:(lia) ltac:(lia)). pose proof (ln_le_Z 2 al ltac:(lia) ltac:(lia)). lra.
  Qed.
  Lemma ratio a b A : 0 <= a <= A -> 1 / 2 <= b -> 0 <= a / b <= 2 * A.
  Proof.
    intros Ha Hb. split; [apply Rmult_le_pos; [lra|left; apply Rinv_0_lt_compat; lra]|].
    apply (Rmult_le_reg_r b); [lra|]. unfold Rdiv. rewrite Rmult_assoc, Rinv_l by lra. nra.
  Qed.
  Lemma Bs : 0 <= Lp <= 512 /\ 0 <= L2 <= 1 /\ 0 <= Lt <= 22 /\ 1 <= La <= 20.
  Proof.
    pose proof Ls. unfold Lp, L2, Lt, La, Rlog.
    pose proof (ratio (ln (IZR p)) (ln 2) 256 ltac:(lra) ltac:(lra)). pose proof (ratio (ln 2) (ln (IZR al)) 1 ltac:(lra) ltac:(lra)).
    pose proof (ratio (ln (IZR t)) (ln (IZR al)) 11 ltac:(lra) ltac:(lra)). pose proof (ratio (ln (IZR al)) (ln 2) 10 ltac:(lra) ltac:(lra)).
    assert (ln 2 / ln (IZR al) <= 1). { apply (Rmult_le_reg_r (ln (IZR al))); [lra|]. unfold Rdiv. rewrite Rmult_assoc, Rinv_l by lra. lra. }
    assert (1 <= ln (IZR al) / ln 2). { apply (Rmult_le_reg_r (ln 2)); [lra|]. unfold Rdiv. rewrite Rmult_assoc, Rinv_l by lra. lra. }
    lra.
  Qed.

  Lemma logs_ex : exists lp l2 lt la, log_base (IZR p) 2 lp /\ log_base 2 (IZR al) l2 /\ log_base (IZR t) (IZR al) lt /\ log_base (IZR al) 2 la.
  Proof.
    pose proof Bs as B. unfold Lp, L2, Lt, La, Rlog in B.
    destruct (log_base_ex (IZR p) 2) as [lp H1]; [apply Rabs_le; lra|]. destruct (log_base_ex 2 (IZR al)) as [l2 H2]; [apply Rabs_le; lra|].
    destruct (log_base_ex (IZR t) (IZR al)) as [lt H3]; [apply Rabs_le; lra|]. destruct (log_base_ex (IZR al) 2) as [la H4]; [apply Rabs_le; lra|].
    exists lp, l2, lt, la. auto.
  Qed.
  Lemma logs_near lp l2 lt la : log_base (IZR p) 2 lp -> log_base 2 (IZR al) l2 -> log_base (IZR t) (IZR al) lt -> log_base (IZR al) 2 la ->
    near (1 / 100000000) Lp lp /\ near (1 / 100000000) L2 l2 /\ near (1 / 100000000) Lt lt /\ near (1 / 100000000) La la.
  Proof.
    intros H1 H2 H3 H4. pose proof Bs as B. pose proof Ls as L. unfold Lp, L2, Lt, La, Rlog in B.
    repeat split; (apply log_base_near; [apply Rabs_le; lra|lra|assumption]).
  Qed.

  Context (lp l2 lt la : R) (Np : near (1 / 100000000) Lp lp) (N2 : near (1 / 100000000) L2 l2) (Nt : near (1 / 100000000) Lt lt) (Na : near (1 / 100000000) La la).
  Ltac bnd := pose proof Rs as Rs0; pose proof Bs as Bs0.
  Tactic Notation "opn" uconstr(N) hyp(H) := refine (near_le _ _ _ _ (op_near _ _ _ _ N _ _ H) _); lra.
  Tactic Notation "opp" uconstr(N) hyp(H) ident(N') := pose proof (fun A B => op_near _ _ _ _ N A B H) as N'; specialize (N' ltac:(lra) ltac:(lra)).

  (** line 88 *)
  Lemma h_near h : nearest (IZR (al - 1) / 2) h -> near (1 / 10000000) ((IZR al - 1) / 2) h.
  Proof. bnd. intros H1. rewrite minus_IZR in H1. opn (near_refl _) H1. Qed.
  Lemma d1_near h : near (1 / 10000000) ((IZR al - 1) / 2) h -> near (2 / 10000000) (Lp - (IZR al - 1) / 2) (lp - h).
  Proof. intros H. apply near_iff in H, Np. apply near_iff. lra. Qed.
  Lemma line88_ex : exists h v1, nearest (IZR (al - 1) / 2) h /\ nearest (lp - h) v1.
  Proof.
    bnd. destruct (op_ex 0 (IZR (al - 1) / 2) _ (near_refl _)) as [h Hh]; [lra|rewrite minus_IZR; lra|]. exists h.
    destruct (op_ex _ _ _ (d1_near h (h_near h Hh))) as [v Hv]; [lra|lra|]. exists v. auto.
  Qed.
  Lemma line88 h v1 : nearest (IZR (al - 1) / 2) h -> nearest (lp - h) v1 -> computed (Lp - (IZR al - 1) / 2) v1.
  Proof.
    bnd. intros H1 H2. opn (d1_near h (h_near h H1)) H2.
  Qed.

  (** line 89 *)
  Lemma m2_bound : 0 <= IZR (Z.min M n) <= 1024.
  Proof. destruct HS as (_ & H1 & _ & _ & H4). split; apply IZR_le; lia. Qed.
  Lemma prod_bound x A : 0 <= x <= A -> 0 <= L2 * x <= A.
  Proof. bnd. intros Hx. split; [apply Rmult_le_pos; lra|]. rewrite <- (Rmult_1_l A). apply Rmult_le_compat; lra. Qed.
  Lemma m2_near : near (2 / 100000) (L2 * IZR (Z.min M n)) (l2 * IZR (Z.min M n)).
  Proof.
    bnd. pose proof m2_bound as m2_bound0. eapply near_le; [apply (near_mul (1 / 100000000) 0 1 1024); [exact N2|apply near_refl|lra|lra|lra|lra]|lra].
  Qed.
  Lemma line89_ex : exists v, nearest (l2 * IZR (Z.min M n)) v.
  Proof. pose proof (prod_bound _ 1024 m2_bound) as PB0. apply (op_ex _ _ _ m2_near); lra. Qed.
  Lemma line89 v : nearest (l2 * IZR (Z.min M n)) v -> computed (L2 * IZR (Z.min M n)) v.
  Proof. pose proof (prod_bound _ 1024 m2_bound) as PB0. intros H. opn m2_near H. Qed.

  (** line 90 *)
  Lemma min3 : 0 <= Rmin (IZR M) Lp <= 1024 /\ near (1 / 100000000) (Rmin (IZR M) Lp) (Rmin (IZR M) lp).
  Proof.
    bnd. split; [unfold Rmin; destruct (Rle_dec (IZR M) Lp); lra|]. apply near_min; [|exact Np]. eapply near_le; [apply near_refl|lra].
  Qed.
  Lemma p3_near : near (2 / 100000) (L2 * Rmin (IZR M) Lp) (l2 * Rmin (IZR M) lp).
  Proof. bnd. destruct min3. eapply near_le; [apply (near_mul (1 / 100000000) (1 / 100000000) 1 1024); try assumption; lra|lra]. Qed.
  Lemma m3_near m : nearest (l2 * Rmin (IZR M) lp) m -> near (3 / 100000) (L2 * Rmin (IZR M) Lp - IZR rp) (m - IZR rp).
  Proof.
    intros H. pose proof (prod_bound _ 1024 (proj1 min3)) as PB0. opp p3_near H N.
    apply near_iff in N. apply near_iff. lra.
  Qed.
  Lemma line90_ex : exists m v, nearest (l2 * Rmin (IZR M) lp) m /\ nearest (m - IZR rp) v.
  Proof.
    bnd. pose proof (prod_bound _ 1024 (proj1 min3)) as PB0. destruct (op_ex _ _ _ p3_near) as [m Hm]; [lra|lra|].
    destruct (op_ex _ _ _ (m3_near m Hm)) as [v Hv]; [lra|lra|]. exists m, v. auto.
  Qed.
  Lemma line90 m v : nearest (l2 * Rmin (IZR M) lp) m -> nearest (m - IZR rp) v -> computed (L2 * Rmin (IZR M) Lp - IZR rp) v.
  Proof.
    bnd. pose proof (prod_bound _ 1024 (proj1 min3)) as PB0. intros H1 H2. opn (m3_near m H1) H2.
  Qed.

  (** line 91 *)
  Lemma q4_bound : 0 <= IZR M / (IZR t + 1) <= 1024.
  Proof.
    bnd. split; [apply Rmult_le_pos; [lra|left; apply Rinv_0_lt_compat; lra]|]. apply (Rmult_le_reg_r (IZR t + 1)); [lra|].
    unfold Rdiv. rewrite Rmult_assoc, Rinv_l by lra. nra.
  Qed.
  Lemma q4_near q : nearest (IZR M / IZR (t + 1)) q -> near (2 / 10000000) (IZR M / (IZR t + 1)) q.
  Proof. pose proof q4_bound as q4_bound0. rewrite plus_IZR. intros Hq. opn (near_refl _) Hq. Qed.
  Lemma lp2_near : near (1 / 100000000) (Lp / 2) (lp / 2).
  Proof. apply near_iff in Np. apply near_iff. lra. Qed.
  Lemma h4_near h : nearest (lp / 2) h -> near (2 / 10000000) (Lp / 2) h.
  Proof. bnd. intros Hh. opn lp2_near Hh. Qed.
  Let X4 := Rmin (IZR M / (IZR t + 1)) (Lp / 2).
  Lemma X4_bound : 0 <= X4 <= 1024.
  Proof. bnd. pose proof q4_bound as q4_bound0. unfold X4, Rmin. destruct (Rle_dec (IZR M / (IZR t + 1)) (Lp / 2)); lra. Qed.
  Lemma p4_near q h : near (2 / 10000000) (IZR M / (IZR t + 1)) q -> near (2 / 10000000) (Lp / 2) h -> near (2 / 100000) (L2 * X4) (l2 * Rmin q h).
  Proof.
    bnd. intros Hq Hh. pose proof (near_min _ _ _ _ _ Hq Hh) as Hm. fold X4 in Hm. pose proof X4_bound as X4_bound0.
    eapply near_le; [apply (near_mul (1 / 100000000) (2 / 10000000) 1 1024); try assumption; lra|lra].
  Qed.
  Lemma m4_near q h m : near (2 / 10000000) (IZR M / (IZR t + 1)) q -> near (2 / 10000000) (Lp / 2) h -> nearest (l2 * Rmin q h) m ->
    near (3 / 100000) (IZR t - 1 + L2 * X4) (IZR (t - 1) + m).
  Proof.
    bnd. intros Hq Hh Hm. pose proof (prod_bound _ 1024 X4_bound) as PB0. opp (p4_near q h Hq Hh) Hm N.
    rewrite minus_IZR. apply near_iff in N. apply near_iff. lra.
  Qed.
  Lemma s4_near m s : near (3 / 100000) (IZR t - 1 + L2 * X4) (IZR (t - 1) + m) -> nearest (IZR (t - 1) + m) s ->
    near (4 / 100000) (IZR t - 1 + L2 * X4 - IZR rp) (s - IZR rp).
  Proof.
    bnd. intros N Hs. pose proof (prod_bound _ 1024 X4_bound) as PB0. opp N Hs N'.
    apply near_iff in N'. apply near_iff. lra.
  Qed.
  Lemma line91_ex : exists q h m s v, nearest (IZR M / IZR (t + 1)) q /\ nearest (lp / 2) h /\ nearest (l2 * Rmin q h) m /\ nearest (IZR (t - 1) + m) s /\ nearest (s - IZR rp) v.
  Proof.
    bnd. pose proof q4_bound as q4_bound0. pose proof (prod_bound _ 1024 X4_bound) as PB0.
    destruct (op_ex 0 (IZR M / IZR (t + 1)) _ (near_refl _)) as [q Hq]; [lra|rewrite plus_IZR; lra|].
    destruct (op_ex _ _ _ lp2_near) as [h Hh]; [lra|lra|]. pose proof (q4_near q Hq) as Nq. pose proof (h4_near h Hh) as Nh.
    destruct (op_ex _ _ _ (p4_near q h Nq Nh)) as [m Hm]; [lra|lra|]. pose proof (m4_near q h m Nq Nh Hm) as Nm.
    destruct (op_ex _ _ _ Nm) as [s Hs]; [lra|lra|]. destruct (op_ex _ _ _ (s4_near m s Nm Hs)) as [v Hv]; [lra|lra|].
    exists q, h, m, s, v. auto.
  Qed.
  Lemma line91 q h m s v : nearest (IZR M / IZR (t + 1)) q -> nearest (lp / 2) h -> nearest (l2 * Rmin q h) m -> nearest (IZR (t - 1) + m) s -> nearest (s - IZR rp) v ->
    computed (IZR t - 1 + L2 * X4 - IZR rp) v.
  Proof.
    bnd. pose proof (prod_bound _ 1024 X4_bound) as PB0. intros Hq Hh Hm Hs Hv.
    pose proof (s4_near m s (m4_near q h m (q4_near q Hq) (h4_near h Hh) Hm) Hs) as N.
    opn N Hv.
  Qed.

  (** line 92 *)
  Lemma a5_near a : nearest (2 * la) a -> near (2 / 10000000) (2 * La) a.
  Proof.
    bnd. intros H1. apply near_iff in Na. assert (N : near (2 / 100000000) (2 * La) (2 * la)) by (apply near_iff; lra).
    opn N H1.
  Qed.
  Lemma q5_bound : 0 <= IZR M / (2 * La) <= 1024.
  Proof. bnd. pose proof (ratio (IZR M) (2 * La) 1024 ltac:(lra) ltac:(lra)). split; [lra|]. apply (Rmult_le_reg_r (2 * La)); [lra|]. unfold Rdiv. rewrite Rmult_assoc, Rinv_l by lra. nra. Qed.
  Lemma d5_near a : near (2 / 10000000) (2 * La) a -> near (21 / 100000) (IZR M / (2 * La)) (IZR M / a).
  Proof.
    bnd. intros N. apply near_iff in N. assert (A1 : 1 <= a) by lra. unfold near.
    replace (IZR M / a - IZR M / (2 * La)) with (IZR M * (2 * La - a) / (a * (2 * La))) by (field; lra).
    unfold Rdiv at 1. rewrite !Rabs_mult, Rabs_inv, (Rabs_pos_eq (a * (2 * La))), (Rabs_pos_eq (IZR M)) by nra.
    apply (Rmult_le_reg_r (a * (2 * La))); [nra|]. rewrite Rmult_assoc, Rinv_l, Rmult_1_r by nra.
    assert (K : Rabs (2 * La - a) <= 2 / 10000000) by (apply Rabs_le; lra). pose proof (Rabs_pos (2 * La - a)).
    apply Rle_trans with (1024 * (2 / 10000000)); [apply Rmult_le_compat; lra|]. assert (1 <= a * (2 * La)) by nra. nra.
  Qed.
  Lemma s5_near a q : near (2 / 10000000) (2 * La) a -> nearest (IZR M / a) q -> near (22 / 100000) (IZR t - 2 + IZR M / (2 * La)) (IZR (t - 2) + q).
  Proof.
    bnd. pose proof q5_bound as q5_bound0. intros N Hq. opp (d5_near a N) Hq N'. rewrite minus_IZR.
    apply near_iff in N'. apply near_iff. lra.
  Qed.
  Lemma e5_near q s : near (22 / 100000) (IZR t - 2 + IZR M / (2 * La)) (IZR (t - 2) + q) -> nearest (IZR (t - 2) + q) s ->
    near (23 / 100000) (IZR t - 2 + IZR M / (2 * La) - IZR rp) (s - IZR rp).
  Proof.
    bnd. pose proof q5_bound as q5_bound0. intros N Hs. opp N Hs N'. apply near_iff in N'. apply near_iff. lra.
  Qed.
  Let X5 := IZR t - 2 + IZR M / (2 * La) - IZR rp.
  Lemma f5_near s d : near (23 / 100000) X5 (s - IZR rp) -> nearest (s - IZR rp) d -> near (24 / 100000) (X5 / (IZR t - 1)) (d / IZR (t - 1)).
  Proof.
    bnd. pose proof q5_bound as q5_bound0. intros N Hd. assert (BX : -1048576 <= X5 <= 3000) by (unfold X5; lra).
    opp N Hd N'. apply near_iff in N'. rewrite minus_IZR. unfold near.
    replace (d / (IZR t - 1) - X5 / (IZR t - 1)) with ((d - X5) / (IZR t - 1)) by (field; lra). unfold Rdiv at 1.
    rewrite Rabs_mult, Rabs_inv, (Rabs_pos_eq (IZR t - 1)) by lra. apply (Rmult_le_reg_r (IZR t - 1)); [lra|].
    rewrite Rmult_assoc, Rinv_l, Rmult_1_r by lra. assert (Rabs (d - X5) <= 24 / 100000) by (apply Rabs_le; lra). nra.
  Qed.
  Lemma X5_bound : - 2000000 <= X5 / (IZR t - 1) <= 2000000.
  Proof.
    bnd. pose proof q5_bound as q5_bound0. assert (BX : -1048576 <= X5 <= 3000) by (unfold X5; lra).
    split; (apply (Rmult_le_reg_r (IZR t - 1)); [lra|]; unfold Rdiv; rewrite Rmult_assoc, Rinv_l by lra; nra).
  Qed.
  Lemma line92_ex : exists a q s d v, nearest (2 * la) a /\ nearest (IZR M / a) q /\ nearest (IZR (t - 2) + q) s /\ nearest (s - IZR rp) d /\ nearest (d / IZR (t - 1)) v.
  Proof.
    bnd. pose proof q5_bound as q5_bound0. pose proof X5_bound as X5_bound0.
    assert (N0 : near (2 / 100000000) (2 * La) (2 * la)) by (apply near_iff in Na; apply near_iff; lra).
    destruct (op_ex _ _ _ N0) as [a Ha]; [lra|lra|]. pose proof (a5_near a Ha) as A1.
    destruct (op_ex _ _ _ (d5_near a A1)) as [q Hq]; [lra|lra|]. pose proof (s5_near a q A1 Hq) as A2.
    destruct (op_ex _ _ _ A2) as [s Hs]; [lra|lra|]. pose proof (e5_near q s A2 Hs) as A3.
    destruct (op_ex _ _ _ A3) as [d Hd]; [lra|lra|]. destruct (op_ex _ _ _ (f5_near s d A3 Hd)) as [v Hv]; [lra|lra|].
    exists a, q, s, d, v. auto.
  Qed.
  Lemma line92 a q s d v : nearest (2 * la) a -> nearest (IZR M / a) q -> nearest (IZR (t - 2) + q) s -> nearest (s - IZR rp) d -> nearest (d / IZR (t - 1)) v ->
    computed (X5 / (IZR t - 1)) v.
  Proof.
    bnd. pose proof X5_bound as X5_bound0. intros Ha Hq Hs Hd Hv. pose proof (f5_near s d (e5_near q s (s5_near a q (a5_near a Ha) Hq) Hs) Hd) as N.
    opn N Hv.
  Qed.

  (** lines 96-98 *)
  Let r := (t / 3)%Z.
  Let over := ((rf - 1) * t + rp + r + r * (rf / 2) + rp + al)%Z.
  Let under := (r * (rf / 2) + rp + al)%Z.
  Lemma floor3 t3 : nearest (IZR t / 3) t3 -> Rfloor t3 = r.
  Proof.
    bnd. intros H3. destruct HS as (_ & _ & Ht & _ & _). pose proof (Z.div_mod t 3 ltac:(lia)) as D. fold r in D. pose proof (Z.mod_pos_bound t 3 ltac:(lia)) as B.
    assert (E : IZR t = 3 * IZR r + IZR (t mod 3)) by (rewrite <- mult_IZR, <- plus_IZR; f_equal; exact D).
    apply Rfloor_eq. assert (t mod 3 = 0 \/ t mod 3 = 1 \/ t mod 3 = 2)%Z as [M0|[M0|M0]] by lia; rewrite M0 in E.
    - replace (IZR t / 3) with (IZR r) in H3 by lra. apply nearest_int in H3; [lra|]. unfold r. lia.
    - opp (near_refl _) H3 N. apply near_iff in N. lra.
    - opp (near_refl _) H3 N. apply near_iff in N. lra.
  Qed.
  Lemma halfrf : IZR rf / 2 = IZR (rf / 2).
  Proof. apply Z.even_spec in Hev. destruct Hev as [k E]. rewrite E at 2. rewrite Z.mul_comm, Z.div_mul by lia. rewrite E, mult_IZR. lra. Qed.
  Lemma small : (0 <= r <= 1024 /\ 0 <= rf / 2 <= 50 /\ 0 <= r * (rf / 2) <= 51200 /\ 0 <= (rf - 1) * t <= 102400 /\ rp <= 1048576 /\ 2 <= al <= 1023)%Z.
  Proof. destruct HS as (_ & _ & Ht & Hal & _). change (2 ^ 20)%Z with 1048576%Z in Hrp. assert (0 <= r <= 1024)%Z by (unfold r; lia). assert (0 <= rf / 2 <= 50)%Z by lia. repeat split; try lia; nia. Qed.
  Lemma lines96_98_ex : exists t3 rh x1 o1 o2 ov u1 un : R, nearest (IZR t / 3) t3 /\ nearest (IZR rf / 2) rh /\ nearest (IZR (Rfloor t3) * rh) x1 /\
    nearest (IZR ((rf - 1) * t + rp + Rfloor t3) + x1) o1 /\ nearest (o1 + IZR rp) o2 /\ nearest (o2 + IZR al) ov /\
    nearest (x1 + IZR rp) u1 /\ nearest (u1 + IZR al) un /\ ov = IZR over /\ un = IZR under.
  Proof.
    bnd. destruct (op_ex 0 (IZR t / 3) _ (near_refl _)) as [t3 H3]; [lra|lra|]. pose proof small as small0.
    exists t3, (IZR (rf / 2)), (IZR (r * (rf / 2))), (IZR ((rf - 1) * t + rp + r + r * (rf / 2))), (IZR ((rf - 1) * t + rp + r + r * (rf / 2) + rp)), (IZR over), (IZR (r * (rf / 2) + rp)), (IZR under).
    split; [exact H3|]. rewrite (floor3 t3 H3), halfrf. unfold over, under. rewrite <- mult_IZR, <- !plus_IZR.
    repeat split; try reflexivity; apply nearest_self; lia.
  Qed.
  Lemma lines96_98 t3 rh x1 o1 o2 ov u1 un : nearest (IZR t / 3) t3 -> nearest (IZR rf / 2) rh -> nearest (IZR (Rfloor t3) * rh) x1 ->
    nearest (IZR ((rf - 1) * t + rp + Rfloor t3) + x1) o1 -> nearest (o1 + IZR rp) o2 -> nearest (o2 + IZR al) ov ->
    nearest (x1 + IZR rp) u1 -> nearest (u1 + IZR al) un -> ov = IZR over /\ un = IZR under.
  Proof.
    intros H3 Hh Hx H1 H2 Ho Hu Hun. pose proof small as small0. rewrite (floor3 t3 H3) in Hx, H1. rewrite halfrf in Hh. apply nearest_int in Hh; [|lia]. subst rh.
    rewrite <- mult_IZR in Hx. apply nearest_int in Hx; [|lia]. subst x1. rewrite <- plus_IZR in H1. apply nearest_int in H1; [|lia]. subst o1.
    rewrite <- plus_IZR in H2. apply nearest_int in H2; [|lia]. subst o2. rewrite <- plus_IZR in Ho. apply nearest_int in Ho; [|lia].
    rewrite <- plus_IZR in Hu. apply nearest_int in Hu; [|lia]. subst u1. rewrite <- plus_IZR in Hun. apply nearest_int in Hun; [|lia].
    split; assumption.
  Qed.
  Lemma uo : (Z.to_nat under <= Z.to_nat over)%nat.
  Proof. pose proof small as small0. unfold under, over. lia. Qed.

  (** lines 99-102 *)
  Lemma pow1023 : 2 ^ 1023 = IZR (2 ^ 1023).
  Proof. rewrite <- (Z2Nat.id 1023) at 1 by lia. rewrite <- pow_IZR. reflexivity. Qed.
  Lemma line99_ex : exists c bl v, binomial_value (Z.to_nat over) (Z.to_nat under) c /\
    match c with Some c => log_base c 2 bl | None => bl = IZR (M + 1) end /\ nearest (2 * bl) v.
  Proof.
    bnd. set (K := C (Z.to_nat over) (Z.to_nat under)). destruct (Rlt_le_dec K (2 ^ 1024)) as [L|L].
    - assert (B : binomial_value (Z.to_nat over) (Z.to_nat under) (Some K)).
      { split; [exact L|]. fold K. rewrite Rminus_eq_0, Rabs_R0. pose proof (C_pos _ _ uo) as P. fold K in P. apply Rmult_le_pos; [lra|]. left. apply Rinv_0_lt_compat, pow_lt. lra. }
      assert (Q : Rabs (ln K / ln 2) <= 2047).
      { pose proof half_ln2. assert (K1 : 1 <= K). { pose proof (C_mono 0 0 (Z.to_nat under) (Z.to_nat over - Z.to_nat under) (le_n _)) as G. rewrite C_0 in G. pose proof uo. replace (0 + Z.to_nat under + (Z.to_nat over - Z.to_nat under))%nat with (Z.to_nat over) in G by lia. exact G. }
        assert (B0 : 0 <= ln K) by (rewrite <- ln_1; apply ln_le; lra).
        assert (B1 : ln K <= 1024 * ln 2).
        { replace (1024 * ln 2) with (INR 1024 * ln 2) by (rewrite INR_IZR_INZ; reflexivity). rewrite <- ln_power by lra. apply ln_le; lra. }
        apply Rabs_le. split; (apply (Rmult_le_reg_r (ln 2)); [lra|]; unfold Rdiv; rewrite Rmult_assoc, Rinv_l by lra; lra). }
      destruct (log_base_ex K 2 Q) as [bl Hb]. destruct (binom_log_near _ _ _ _ uo B Hb) as [N Bd]. apply near_iff in N.
      assert (N' : near (2 / 10000) (2 * Rlog 2 K) (2 * bl)) by (apply near_iff; unfold K; lra).
      destruct (op_ex _ _ _ N') as [v Hv]; [lra|unfold K; lra|]. exists (Some K), bl, v. auto.
    - exists None, (IZR (M + 1)), (IZR (2 * (M + 1))). split; [|split; [reflexivity|]].
      + cbn [binomial_value]. fold K. eapply Rle_trans; [|exact L]. apply Rle_pow; [lra|lia].
      + rewrite <- mult_IZR. apply nearest_self. destruct HS as (_ & _ & _ & _ & HM). lia.
  Qed.
  Lemma line99 c bl v : binomial_value (Z.to_nat over) (Z.to_nat under) c -> match c with Some c => log_base c 2 bl | None => bl = IZR (M + 1) end -> nearest (2 * bl) v ->
    computed (2 * Rlog 2 (C (Z.to_nat over) (Z.to_nat under))) v \/ (IZR (2 ^ 1023) <= C (Z.to_nat over) (Z.to_nat under) /\ v = IZR (2 * (M + 1))).
  Proof.
    bnd. intros Hc Hb Hv. destruct c as [c|].
    - left. destruct (binom_log_near _ _ _ _ uo Hc Hb) as [N Bd]. set (K := Rlog 2 (C (Z.to_nat over) (Z.to_nat under))) in *. apply near_iff in N.
      assert (N' : near (2 / 10000) (2 * K) (2 * bl)) by (apply near_iff; lra). opn N' Hv.
    - right. cbn [binomial_value] in Hc. split; [rewrite <- pow1023; exact Hc|]. subst bl. rewrite <- mult_IZR in Hv. apply nearest_int in Hv; [exact Hv|]. destruct HS as (_ & _ & _ & _ & HM). lia.
  Qed.
End S.

Theorem sat_double_computed p n t rf rp al M b : sizes p n t al M -> (4 <= rf < 100)%Z -> Z.even rf = true -> (1 <= rp < 2 ^ 20)%Z ->
  sat_double p n t rf rp al M b -> sat_computed p n t rf rp al M b.
Proof.
  intros HS Hrf Hev Hrp (lp & l2 & lt & la & G1 & G2 & G3 & G4 & h & v1 & A1 & A2 & v2a & A3 & m3 & v3 & A4 & A5 & q4 & h4 & m4 & s4 & v4 & A6 & A7 & A8 & A9 & A10 &
    a5 & q5 & s5 & d5 & v5 & A11 & A12 & A13 & A14 & A15 & t3 & rh & x1 & o1 & o2 & ov & u1 & un & A16 & A17 & A18 & A19 & A20 & A21 & A22 & A23 &
    o & u & c & bl & v6 & Eo & Eu & A24 & A25 & A26 & Eb).
  destruct (logs_near p n t al M HS lp l2 lt la G1 G2 G3 G4) as (Np & N2 & Nt & Na).
  destruct (lines96_98 p n t rf rp al M HS Hrf Hev Hrp t3 rh x1 o1 o2 ov u1 un A16 A17 A18 A19 A20 A21 A22 A23) as [Ho Hu].
  rewrite Ho in Eo. rewrite Hu in Eu. apply to_nat_of in Eo, Eu. subst o u.
  exists v1, v2a, lt, v3, v4, v5, v6.
  split; [eapply line88; eassumption|]. split; [eapply line89; eassumption|]. split; [eapply near_le; [exact Nt|lra]|]. split; [eapply line90; eassumption|].
  split; [eapply line91; eassumption|]. split; [eapply line92; eassumption|]. cbv zeta. split; [eapply line99; eassumption|]. exact Eb.
Qed.

Theorem sat_double_exists p n t rf rp al M : sizes p n t al M -> (4 <= rf < 100)%Z -> Z.even rf = true -> (1 <= rp < 2 ^ 20)%Z ->
  exists b, sat_double p n t rf rp al M b.
Proof.
  intros HS Hrf Hev Hrp. destruct (logs_ex p n t al M HS) as (lp & l2 & lt & la & G1 & G2 & G3 & G4).
  destruct (logs_near p n t al M HS lp l2 lt la G1 G2 G3 G4) as (Np & N2 & Nt & Na).
  destruct (line88_ex p n t rf rp al M HS Hrf Hrp lp Np) as (h & v1 & A1 & A2).
  destruct (line89_ex p n t rf rp al M HS Hrf Hrp l2 N2) as (v2a & A3).
  destruct (line90_ex p n t rf rp al M HS Hrf Hrp lp l2 Np N2) as (m3 & v3 & A4 & A5).
  destruct (line91_ex p n t rf rp al M HS Hrf Hrp lp l2 Np N2) as (q4 & h4 & m4 & s4 & v4 & A6 & A7 & A8 & A9 & A10).
  destruct (line92_ex p n t rf rp al M HS Hrf Hrp la Na) as (a5 & q5 & s5 & d5 & v5 & A11 & A12 & A13 & A14 & A15).
  destruct (lines96_98_ex p n t rf rp al M HS Hrf Hev Hrp) as (t3 & rh & x1 & o1 & o2 & ov & u1 & un & A16 & A17 & A18 & A19 & A20 & A21 & A22 & A23 & Eo & Eu).
  destruct (line99_ex p n t rf rp al M HS Hrf Hrp) as (c & bl & v6 & A24 & A25 & A26).
  pose proof (small p n t rf rp al M HS Hrf Hrp) as Sm.
  eexists. exists lp, l2, lt, la. do 4 (split; [assumption|]). exists h, v1. do 2 (split; [assumption|]). exists v2a. split; [assumption|].
  exists m3, v3. do 2 (split; [assumption|]). exists q4, h4, m4, s4, v4. do 5 (split; [assumption|]). exists a5, q5, s5, d5, v5. do 5 (split; [assumption|]).
  exists t3, rh, x1, o1, o2, ov, u1, un. do 8 (split; [assumption|]). eexists _, _, c, bl, v6.
  split; [rewrite INR_IZR_INZ, Z2Nat.id; [exact Eo|lia]|]. split; [rewrite INR_IZR_INZ, Z2Nat.id; [exact Eu|lia]|].
  split; [exact A24|]. split; [exact A25|]. split; [exact A26|]. cbv zeta. reflexivity.
Qed.
