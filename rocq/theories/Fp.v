(** * Fp: a concrete, computable implementation of the integers modulo p.

    Elements are canonical limb lists in Montgomery form.  This is not the arithmetic of
    [ark_ff] (which is outside /repo); it is an instance of the interface [FOps] satisfying
    [is_prime_field], used for examples and for the certificates of the shipped constants. *)
From Coq Require Import Uint63 Eqdep_dec Zpow_facts.
From Verif Require Import Base Field Spec FieldPow.
From Verif Require Export Limbs.

Record mparams := MkParams {
  mL : nat;               (* number of limbs *)
  mp : list int;          (* the modulus *)
  mpc : list int;         (* 2^(29 L) - p *)
  mpinv : int;            (* -1/p mod 2^29 *)
  mone : list int;        (* 2^(29 L) mod p *)
  mr2 : list int          (* 2^(58 L) mod p *)
}.

Definition canonical (P : mparams) (l : list int) : bool := ltl l (mp P) false.

Definition pz (P : mparams) : Z := val (mp P).

Definition normo (P : mparams) (l : list int) : option (list int) :=
  match fit 0 (mL P) l with
  | Some r => if canonical P r then Some r else fit 1 (mL P) (carry (addl r (mpc P)) 0)
  | None => None
  end.

Fixpoint dbl_iter (P : mparams) (n : nat) (l : list int) : option (list int) :=
  match n with
  | O => Some l
  | S k => match normo P (carry (addl l l) 0) with
           | Some r => if canonical P r then dbl_iter P k r else None
           | None => None
           end
  end.

Definition opt_eql (o : option (list int)) (l : list int) : bool :=
  match o with Some r => eql r l | None => false end.

Definition is_limb (x : int) : bool := (x <=? lmask)%uint63.

Definition params_ok (P : mparams) : bool :=
  (1 <=? mL P) && (mL P <=? 10) && (length (mp P) =? mL P) && forallb is_limb (mp P) &&
  forallb is_limb (mpc P) && forallb is_limb (mone P) && forallb is_limb (mr2 P) &&
  (length (mr2 P) <=? mL P) &&
  (((nth 0 (mp P) 0 * mpinv P) land lmask) =? lmask)%uint63 &&
  opt_eql (fit 1 (mL P) (carry (addl (mp P) (mpc P)) 0)) (repeat 0%uint63 (mL P)) &&
  canonical P (1 :: repeat 0 (mL P - 1))%uint63 &&
  canonical P (mone P) &&
  opt_eql (dbl_iter P (29 * mL P) (1 :: repeat 0 (mL P - 1))%uint63) (mone P) &&
  opt_eql (dbl_iter P (29 * mL P) (mone P)) (mr2 P).

Definition Fp (P : mparams) : Set := {l : list int | canonical P l = true}.
Definition fval {P} (x : Fp P) : Z := val (proj1_sig x).

(** a boolean test with its proof *)
Definition mkc (P : mparams) (r : list int) (slow : unit -> Fp P) : Fp P :=
  match canonical P r as b return canonical P r = b -> Fp P with
  | true => fun e => exist _ r e
  | false => fun _ => slow tt
  end eq_refl.

Definition mk (P : mparams) (l : list int) (slow : unit -> Fp P) : Fp P :=
  match fit 0 (mL P) l with
  | Some r =>
      match canonical P r as b return canonical P r = b -> Fp P with
      | true => fun e => exist _ r e
      | false => fun _ =>
          match fit 1 (mL P) (carry (addl r (mpc P)) 0) with
          | Some r' => mkc P r' slow
          | None => slow tt
          end
      end eq_refl
  | None => slow tt
  end.

Section Ops.
  Variable P : mparams.
  Hypothesis Hok : params_ok P = true.
  Local Open Scope Z_scope.

  Notation L := (mL P).
  Notation p := (pz P).
  Definition mR : Z := LB ^ Z.of_nat L.

  Lemma params_facts :
    (1 <= L <= 10)%nat /\ length (mp P) = L /\ bnd LB (mp P) /\ bnd LB (mpc P) /\
    bnd LB (mone P) /\ bnd LB (mr2 P) /\ (length (mr2 P) <= L)%nat /\
    (iz (nth 0 (mp P) 0%uint63) * iz (mpinv P)) mod LB = LB - 1 /\
    p + val (mpc P) = mR /\ 1 < p /\ canonical P (mone P) = true /\
    dbl_iter P (29 * L) (1 :: repeat 0 (L - 1))%uint63 = Some (mone P) /\
    dbl_iter P (29 * L) (mone P) = Some (mr2 P) /\
    canonical P (1 :: repeat 0 (L - 1))%uint63 = true.
  Proof.
    pose proof Hok as H. unfold params_ok in H. rewrite !andb_true_iff in H.
    destruct H as [[[[[[[[[[[[[H1 H2] H3] H4] H5] H6] H7] H8] H9] H10] H11] H12] H13] H14].
    assert (HL : forall l, forallb is_limb l = true -> bnd LB l).
    { intros l Hl. apply Forall_forall. intros x Hx. apply leb_mask.
      apply (proj1 (forallb_forall _ _) Hl x Hx). }
    assert (HO : forall o l, opt_eql o l = true -> o = Some l).
    { intros [r|] l E; [|discriminate]. apply eql_spec in E. subst; reflexivity. }
    apply HL in H4. apply HL in H5. apply HL in H6. apply HL in H7. apply HO in H10. apply HO in H13. apply HO in H14.
    apply Nat.leb_le in H1, H2, H8. apply Nat.eqb_eq in H3.
    split; [auto|]. split; [auto|]. split; [auto|]. split; [auto|]. split; [auto|]. split; [auto|].
    split; [auto|].
    split; [|split; [|split; [|auto]]].
    - apply Uint63.eqb_spec in H9. apply (f_equal iz) in H9. rewrite land_mask, mul_spec in H9.
      change (iz lmask) with (LB - 1) in H9. rewrite <- H9. rewrite wB_val.
      replace (32 * (LB * LB)) with (LB * (32 * LB)) by ring.
      pose proof LB_pos. rewrite Z.rem_mul_r by lia. rewrite (Z.mul_comm LB).
      rewrite Z_mod_plus_full. symmetry. apply Z.mod_mod. lia.
    - apply fit_val in H10. unfold pz, mR.
      destruct (addl_val (mp P) (mpc P) LB LB H4 H5) as [E Bd]; try (unfold LB; rewrite ?wB_val; unfold LB; lia).
      rewrite (carry_val _ _ (LB + LB)) in H10; try (rewrite ?wB_val; unfold LB; change (iz 0) with 0; lia); [|exact Bd].
      rewrite E in H10. change (iz 0) with 0 in H10. change (iz 1) with 1 in H10.
      assert (Z0 : forall n, val (repeat 0%uint63 n) = 0).
      { induction n as [|n IH]; [reflexivity|]. cbn [repeat val]. rewrite IH. change (iz 0) with 0. lia. }
      rewrite Z0 in H10. lia.
    - unfold canonical in H11. apply ltl_spec in H11; [|exact H4].
      destruct H11 as [_ [_ [H11|[_ X]]]]; [|discriminate]. unfold pz.
      cbn [val] in H11. change (iz 1) with 1 in H11.
      pose proof (val_nonneg (repeat 0%uint63 (L - 1))). pose proof LB_pos. nia.
  Qed.

  Lemma L_range : (1 <= L <= 10)%nat. Proof. apply params_facts. Qed.
  Lemma mp_length : length (mp P) = L. Proof. apply params_facts. Qed.
  Lemma mp_bnd : bnd LB (mp P). Proof. apply params_facts. Qed.
  Lemma mpc_bnd : bnd LB (mpc P). Proof. apply params_facts. Qed.
  Lemma p_gt_1 : 1 < p. Proof. apply params_facts. Qed.
  Lemma mpc_val : val (mpc P) = mR - p. Proof. pose proof params_facts. lia. Qed.
  Lemma p_lt_R : p < mR.
  Proof. unfold mR, pz. rewrite <- mp_length. apply val_bound. apply mp_bnd. Qed.

  Lemma canonical_spec l : canonical P l = true <-> length l = L /\ bnd LB l /\ val l < p.
  Proof.
    unfold canonical. rewrite (ltl_spec l (mp P) false mp_bnd). rewrite mp_length. unfold pz.
    intuition congruence.
  Qed.

  Lemma fval_range (x : Fp P) : 0 <= fval x < p.
  Proof. destruct x as [l H]. unfold fval; simpl. apply canonical_spec in H. pose proof (val_nonneg l). lia. Qed.
  Lemma fp_bnd (x : Fp P) : bnd LB (proj1_sig x).
  Proof. destruct x as [l H]. simpl. apply canonical_spec in H. tauto. Qed.
  Lemma fp_length (x : Fp P) : length (proj1_sig x) = L.
  Proof. destruct x as [l H]. simpl. apply canonical_spec in H. tauto. Qed.

  Lemma fp_ext (x y : Fp P) : proj1_sig x = proj1_sig y -> x = y.
  Proof.
    destruct x as [l H], y as [m K]. simpl. intros ->. f_equal. apply UIP_dec. apply Bool.bool_dec.
  Qed.
  Lemma fval_inj (x y : Fp P) : fval x = fval y -> x = y.
  Proof.
    intros E. apply fp_ext. apply val_inj; [rewrite !fp_length; reflexivity|apply fp_bnd|apply fp_bnd|exact E].
  Qed.

  Lemma z_limbs_canonical z : canonical P (z_limbs L (z mod p)) = true.
  Proof.
    pose proof p_gt_1. pose proof p_lt_R. unfold mR in *.
    pose proof (Z.mod_pos_bound z p ltac:(lia)).
    destruct (z_limbs_val L (z mod p)) as [E [Bd Len]]; [lia|].
    apply canonical_spec. rewrite E, Len. repeat split; [exact Bd|lia].
  Qed.

  (** the residue class with limb value z mod p, computed in Z (never needed in practice) *)
  Definition fp_slow (z : Z) : Fp P := exist _ (z_limbs L (z mod p)) (z_limbs_canonical z).
  Lemma fp_slow_val z : fval (fp_slow z) = z mod p.
  Proof.
    pose proof p_gt_1. pose proof p_lt_R. unfold mR in *.
    pose proof (Z.mod_pos_bound z p ltac:(lia)).
    apply (z_limbs_val L (z mod p)). lia.
  Qed.

  Lemma fit_bnd top n : forall l r k, fit top n l = Some r -> 0 < k -> bnd k l -> bnd k r.
  Proof.
    induction n as [|n IH]; intros l r k H Hk Hb.
    - destruct l as [|z [|]]; try discriminate; simpl in H.
      + destruct (0 =? top)%uint63; inversion H. constructor.
      + destruct (z =? top)%uint63; inversion H. constructor.
    - destruct l as [|x l]; cbn [fit] in H.
      + destruct (fit top n []) as [r'|] eqn:Ef; [|discriminate]. inversion H; subst.
        apply bnd_cons. split; [exact Hk|]. eapply IH; eauto.
      + destruct (fit top n l) as [r'|] eqn:Ef; [|discriminate]. inversion H; subst.
        apply bnd_cons in Hb as [Hx Hb]. apply bnd_cons. split; [exact Hx|]. eapply IH; eauto.
  Qed.

  Lemma mkc_val r slow v : (canonical P r = true -> val r = v) -> fval (slow tt) = v ->
    fval (mkc P r slow) = v.
  Proof.
    intros H1 H2. unfold mkc.
    enough (forall b (e : canonical P r = b),
      fval ((match b as b' return canonical P r = b' -> Fp P with
             | true => fun e => exist _ r e | false => fun _ => slow tt end) e) = v) by auto.
    intros b e. destruct b; [|exact H2]. unfold fval; simpl. auto.
  Qed.

  Lemma mk_val l k slow v : bnd k l -> 0 < k -> k <= 2 * (LB * LB) -> v = val l mod p ->
    fval (slow tt) = v -> fval (mk P l slow) = v.
  Proof.
    intros Hb Hk Hk2 Hv Hs. unfold mk. pose proof p_gt_1 as Hp1. pose proof p_lt_R as HpR.
    destruct (fit 0 L l) as [r|] eqn:Ef; [|exact Hs].
    pose proof (fit_bnd _ _ _ _ _ Ef Hk Hb) as Hbr.
    apply fit_val in Ef. change (iz 0) with 0 in Ef.
    assert (H1 : canonical P r = true -> val r = v).
    { intros H. apply canonical_spec in H. rewrite Hv. symmetry. replace (val l) with (val r) by lia.
      apply Z.mod_small. pose proof (val_nonneg r). lia. }
    assert (H2 : fval match fit 1 L (carry (addl r (mpc P)) 0) with
                      | Some r' => mkc P r' slow | None => slow tt end = v).
    { destruct (fit 1 L (carry (addl r (mpc P)) 0)) as [r'|] eqn:Ef2; [|exact Hs].
      apply mkc_val; [|exact Hs]. intros Hc. apply canonical_spec in Hc. apply fit_val in Ef2.
      destruct (addl_val r (mpc P) k LB Hbr mpc_bnd) as [E Bd];
        [lia|unfold LB; lia|rewrite wB_val; unfold LB in *; lia|].
      rewrite (carry_val _ _ (k + LB)) in Ef2; try exact Bd;
        try (rewrite ?wB_val; unfold LB in *; change (iz 0) with 0; lia).
      rewrite E, mpc_val in Ef2. change (iz 0) with 0 in Ef2. change (iz 1) with 1 in Ef2.
      fold mR in Ef2. rewrite Hv. replace (val l) with (val r' + 1 * p) by lia.
      rewrite Z_mod_plus_full. symmetry. apply Z.mod_small. pose proof (val_nonneg r'). lia. }
    enough (forall b (e : canonical P r = b),
      fval ((match b as b' return canonical P r = b' -> Fp P with
             | true => fun e => exist _ r e
             | false => fun _ => match fit 1 L (carry (addl r (mpc P)) 0) with
                      | Some r' => mkc P r' slow | None => slow tt end end) e) = v) by auto.
    intros b e. destruct b; [|exact H2]. unfold fval; simpl. auto.
  Qed.

  (** ** Montgomery product *)
  Definition rinv : Z := val (redc (mp P) (mpinv P) L [1%uint63]).

  Lemma redc_mod c k : bnd k c -> 0 <= k -> k <= 10 * (LB * LB) ->
    (val (redc (mp P) (mpinv P) L c) * mR) mod p = val c mod p /\
    bnd (k + 20 * (LB * LB)) (redc (mp P) (mpinv P) L c).
  Proof.
    intros Hc Hk Hk2. pose proof L_range as HL. pose proof mp_bnd as Hb.
    pose proof params_facts as PF. destruct PF as [_ [_ [_ [_ [_ [_ [_ [Hinv _]]]]]]]].
    unfold pz. destruct (mp P) as [|p0 ps] eqn:Ep; [pose proof mp_length as X; rewrite Ep in X; simpl in X; lia|].
    simpl nth in Hinv.
    assert (HLz : Z.of_nat L * (LB * LB) <= 10 * (LB * LB)) by (apply Z.mul_le_mono_nonneg_r; [unfold LB|]; lia).
    destruct (redc_val p0 ps (mpinv P) Hb Hinv L c k Hc Hk) as [[q E] Bd]; [rewrite wB_val; lia|].
    split.
    - unfold mR. rewrite E. rewrite Z_mod_plus_full. reflexivity.
    - eapply bnd_mono; [exact Bd|lia].
  Qed.

  Lemma rinv_spec : (rinv * mR) mod p = 1.
  Proof.
    unfold rinv. destruct (redc_mod [1%uint63] 2) as [E _]; [constructor; [reflexivity|constructor]|lia|unfold LB; lia|].
    rewrite E. cbn [val]. change (iz 1) with 1. apply Z.mod_small. pose proof p_gt_1. lia.
  Qed.

  Lemma redc_rinv c k : bnd k c -> 0 <= k -> k <= 10 * (LB * LB) ->
    val (redc (mp P) (mpinv P) L c) mod p = (val c * rinv) mod p.
  Proof.
    intros Hc Hk Hk2. destruct (redc_mod c k Hc Hk Hk2) as [E _]. pose proof p_gt_1 as Hp.
    rewrite <- (Z.mul_mod_idemp_l (val c)), <- E by lia. rewrite Z.mul_mod_idemp_l by lia.
    rewrite <- Z.mul_assoc. rewrite (Z.mul_comm mR). rewrite <- Z.mul_mod_idemp_r by lia.
    rewrite rinv_spec. rewrite Z.mul_1_r. reflexivity.
  Qed.

  (** Montgomery product of two limb lists *)
  Definition fp_mulm (a b : list int) : Fp P :=
    mk P (carry (redc (mp P) (mpinv P) L (mulacc a b [])) 0) (fun _ => fp_slow (val a * val b * rinv)).

  Lemma carry_bnd c : forall acc k, bnd k c -> 0 <= k -> iz acc <= LB * LB -> k + LB * LB <= wB ->
    bnd (2 * (LB * LB)) (carry c acc).
  Proof.
    induction c as [|x c IH]; intros acc k Hc Hk Ha Hw; cbn [carry]; cbn zeta; apply bnd_cons.
    - split; [unfold LB in *; lia|constructor].
    - apply bnd_cons in Hc as [Hx Hc]. rewrite land_mask. split.
      + pose proof (Z.mod_pos_bound (iz (x + acc)%uint63) LB LB_pos). unfold LB in *; lia.
      + apply (IH _ k); try assumption. rewrite lsr_lw. apply Z.div_le_upper_bound; [apply LB_pos|].
        pose proof (to_Z_bounded (x + acc)%uint63). rewrite wB_val in *. unfold LB in *. lia.
  Qed.

  Lemma fp_mulm_val a b : bnd LB a -> bnd LB b -> (length a <= L)%nat ->
    fval (fp_mulm a b) = (val a * val b * rinv) mod p.
  Proof.
    intros Ha Hb Hl. pose proof L_range as HL. unfold fp_mulm.
    assert (HLz : Z.of_nat (length a) * (LB * LB) <= 10 * (LB * LB)).
    { apply Z.mul_le_mono_nonneg_r; [unfold LB|]; lia. }
    destruct (mulacc_val a b Ha Hb [] 0 (bnd_nil _)) as [E Bd]; [lia|rewrite wB_val; unfold LB in *; lia|].
    rewrite Z.add_0_l in Bd. cbn [val] in E. rewrite Z.add_0_r in E.
    assert (Hn : 0 <= Z.of_nat (length a) * (LB * LB)) by (unfold LB; lia).
    destruct (redc_mod _ _ Bd Hn HLz) as [_ Bd2]. pose proof (redc_rinv _ _ Bd Hn HLz) as E2.
    assert (HwB : wB = 32 * (LB * LB)) by apply wB_val.
    eapply mk_val.
    - eapply carry_bnd; [exact Bd2|lia|change (iz 0) with 0; unfold LB; lia|unfold LB in *; lia].
    - unfold LB; lia.
    - lia.
    - rewrite (carry_val _ _ _ Bd2); [|lia|change (iz 0) with 0; unfold LB; lia|unfold LB in *; lia].
      change (iz 0) with 0. rewrite Z.add_0_r, E2, E. reflexivity.
    - apply fp_slow_val.
  Qed.

  (** ** Ring operations *)
  Definition fp_mul (a b : Fp P) : Fp P := fp_mulm (proj1_sig a) (proj1_sig b).
  Definition fp_add (a b : Fp P) : Fp P :=
    mk P (carry (addl (proj1_sig a) (proj1_sig b)) 0) (fun _ => fp_slow (fval a + fval b)).
  Definition fp_sub (a b : Fp P) : Fp P :=
    let slow := fun _ : unit => fp_slow (fval a - fval b) in
    let s := carry (addl (proj1_sig a) (compl (proj1_sig b))) 1 in
    match fit 1 L s with
    | Some r => mkc P r slow
    | None =>
        match fit 0 L s with
        | Some r0 =>
            match fit 1 L (carry (addl r0 (mp P)) 0) with
            | Some r => mkc P r slow
            | None => slow tt
            end
        | None => slow tt
        end
    end.
  Definition fp_eqb (a b : Fp P) : bool := eql (proj1_sig a) (proj1_sig b).

  Lemma fp_mul_val a b : fval (fp_mul a b) = (fval a * fval b * rinv) mod p.
  Proof. apply fp_mulm_val; [apply fp_bnd|apply fp_bnd|rewrite fp_length; lia]. Qed.

  Lemma fp_add_val a b : fval (fp_add a b) = (fval a + fval b) mod p.
  Proof.
    unfold fp_add. assert (HwB : wB = 32 * (LB * LB)) by apply wB_val.
    destruct (addl_val _ _ _ _ (fp_bnd a) (fp_bnd b)) as [E Bd]; try (unfold LB in *; lia).
    eapply mk_val.
    - eapply carry_bnd; [exact Bd| | |]; try change (iz 0) with 0; unfold LB in *; lia.
    - unfold LB; lia.
    - lia.
    - rewrite (carry_val _ _ _ Bd); try change (iz 0) with 0; try (unfold LB in *; lia).
      rewrite Z.add_0_r, E. reflexivity.
    - apply fp_slow_val.
  Qed.

  Lemma fp_eqb_spec a b : fp_eqb a b = true <-> a = b.
  Proof. unfold fp_eqb. rewrite eql_spec. split; [apply fp_ext|intros ->; reflexivity]. Qed.

  Lemma fp_sub_val a b : fval (fp_sub a b) = (fval a - fval b) mod p.
  Proof.
    unfold fp_sub. assert (HwB : wB = 32 * (LB * LB)) by apply wB_val.
    pose proof p_gt_1 as Hp1.
    destruct (compl_val _ (fp_bnd b)) as [Ec Bc]. rewrite fp_length in Ec. fold mR in Ec.
    destruct (addl_val _ _ _ _ (fp_bnd a) Bc) as [E Bd]; try (unfold LB in *; lia).
    set (s := carry (addl (proj1_sig a) (compl (proj1_sig b))) 1).
    assert (Es : val s = fval a - fval b + mR).
    { unfold s. rewrite (carry_val _ _ _ Bd); try change (iz 1) with 1; try (unfold LB in *; lia).
      rewrite E, Ec. unfold fval. lia. }
    assert (Bs : bnd (2 * (LB * LB)) s).
    { unfold s. eapply carry_bnd; [exact Bd| | |]; try change (iz 1) with 1; unfold LB in *; lia. }
    pose proof (fval_range a) as Ra. pose proof (fval_range b) as Rb. cbv zeta.
    destruct (fit 1 L s) as [r|] eqn:Ef.
    - apply mkc_val; [|apply fp_slow_val]. intros Hc. apply canonical_spec in Hc. apply fit_val in Ef.
      change (iz 1) with 1 in Ef. fold mR in Ef. symmetry. replace (fval a - fval b) with (val r) by lia.
      apply Z.mod_small. pose proof (val_nonneg r). lia.
    - destruct (fit 0 L s) as [r0|] eqn:Ef0; [|apply fp_slow_val].
      assert (B0 : bnd (2 * (LB * LB)) r0) by (eapply fit_bnd; [exact Ef0|reflexivity|exact Bs]). apply fit_val in Ef0. change (iz 0) with 0 in Ef0.
      destruct (fit 1 L (carry (addl r0 (mp P)) 0)) as [r|] eqn:Ef1; [|apply fp_slow_val].
      apply mkc_val; [|apply fp_slow_val]. intros Hc. apply canonical_spec in Hc. apply fit_val in Ef1.
      destruct (addl_val _ _ _ _ B0 mp_bnd) as [E3 Bd3]; try (unfold LB in *; lia).
      rewrite (carry_val _ _ _ Bd3) in Ef1; try change (iz 0) with 0; try (unfold LB in *; lia).
      rewrite E3 in Ef1. change (iz 0) with 0 in Ef1. change (iz 1) with 1 in Ef1. fold mR in Ef1. fold p in Ef1.
      symmetry. replace (fval a - fval b) with (val r + (-1) * p) by lia. rewrite Z_mod_plus_full.
      apply Z.mod_small. pose proof (val_nonneg r). lia.
  Qed.

  (** ** Constants and conversions *)
  Lemma normo_val l k r : bnd k l -> 0 < k -> k <= 2 * (LB * LB) -> normo P l = Some r ->
    val r mod p = val l mod p.
  Proof.
    intros Hb Hk Hk2 H. unfold normo in H.
    destruct (fit 0 L l) as [r0|] eqn:Ef; [|discriminate].
    pose proof (fit_bnd _ _ _ _ _ Ef Hk Hb) as Hbr.
    apply fit_val in Ef. change (iz 0) with 0 in Ef.
    destruct (canonical P r0).
    - inversion H; subst. f_equal. lia.
    - apply fit_val in H. destruct (addl_val r0 (mpc P) k LB Hbr mpc_bnd) as [E Bd];
        [lia|unfold LB; lia|rewrite wB_val; unfold LB in *; lia|].
      rewrite (carry_val _ _ (k + LB)) in H; try exact Bd;
        try (rewrite ?wB_val; unfold LB in *; change (iz 0) with 0; lia).
      rewrite E, mpc_val in H. change (iz 0) with 0 in H. change (iz 1) with 1 in H. fold mR in H.
      replace (val l) with (val r + 1 * p) by lia. rewrite Z_mod_plus_full. reflexivity.
  Qed.

  Lemma dbl_iter_val n : forall l r, canonical P l = true -> dbl_iter P n l = Some r ->
    val r mod p = (val l * 2 ^ Z.of_nat n) mod p.
  Proof.
    assert (HwB : wB = 32 * (LB * LB)) by apply wB_val.
    induction n as [|n IH]; intros l r Hl H; cbn [dbl_iter] in H.
    - inversion H; subst. f_equal. simpl. lia.
    - destruct (normo P (carry (addl l l) 0)) as [l'|] eqn:En; [|discriminate].
      destruct (canonical P l') eqn:Ec; [|discriminate].
      rewrite (IH _ _ Ec H). apply canonical_spec in Hl. destruct Hl as [_ [Bl _]].
      destruct (addl_val _ _ _ _ Bl Bl) as [E Bd]; try (unfold LB in *; lia).
      apply (normo_val _ (2 * (LB * LB))) in En; [| |unfold LB; lia|lia].
      + rewrite (carry_val _ _ _ Bd) in En; try change (iz 0) with 0; try (unfold LB in *; lia).
        rewrite E in En. change (iz 0) with 0 in En.
        pose proof p_gt_1. rewrite <- Z.mul_mod_idemp_l, En, Z.mul_mod_idemp_l by lia.
        f_equal. rewrite Nat2Z.inj_succ, Z.pow_succ_r by lia. lia.
      + eapply carry_bnd; [exact Bd| | |]; try change (iz 0) with 0; unfold LB in *; lia.
  Qed.

  Lemma mR_pow : mR = 2 ^ Z.of_nat (29 * L).
  Proof. unfold mR, LB. rewrite <- Z.pow_mul_r by lia. f_equal. lia. Qed.

  Lemma repeat0_val n : val (repeat 0%uint63 n) = 0.
  Proof. induction n as [|n IH]; [reflexivity|]. cbn [repeat val]. rewrite IH. change (iz 0) with 0. lia. Qed.

  Lemma mone_val : val (mone P) mod p = mR mod p.
  Proof.
    pose proof params_facts as PF. destruct PF as [_ [_ [_ [_ [_ [_ [_ [_ [_ [_ [_ [H [_ H1]]]]]]]]]]]]].
    rewrite (dbl_iter_val _ _ _ H1 H). cbn [val]. rewrite repeat0_val. change (iz 1) with 1.
    rewrite mR_pow. f_equal. lia.
  Qed.
  Lemma mr2_val : val (mr2 P) mod p = (mR * mR) mod p.
  Proof.
    pose proof params_facts as PF. destruct PF as [_ [_ [_ [_ [_ [_ [_ [_ [_ [_ [H1 [_ [H _]]]]]]]]]]]]].
    rewrite (dbl_iter_val _ _ _ H1 H). rewrite <- mR_pow. pose proof p_gt_1.
    rewrite <- Z.mul_mod_idemp_l, mone_val, Z.mul_mod_idemp_l by lia. reflexivity.
  Qed.

  Definition fp_one : Fp P := mkc P (mone P) (fun _ => fp_slow mR).
  Definition fp_zero : Fp P := mkc P (repeat 0%uint63 L) (fun _ => fp_slow 0).

  Definition fp_of_Z (z : Z) : Fp P :=
    match z with
    | Z0 => fp_zero
    | Zpos q =>
        match pad L (pos_limbs q 1 0) with
        | Some l => fp_mulm l (mr2 P)
        | None => fp_slow (z * mR)
        end
    | Zneg _ => fp_slow (z * mR)
    end.

  Definition fp_to_Z (x : Fp P) : Z := fval (fp_mulm (proj1_sig x) [1%uint63]).

  Lemma fp_one_val : fval fp_one = mR mod p.
  Proof.
    unfold fp_one. apply mkc_val; [|apply fp_slow_val]. intros H. rewrite <- mone_val. symmetry.
    apply Z.mod_small. apply canonical_spec in H. pose proof (val_nonneg (mone P)). lia.
  Qed.
  Lemma fp_zero_val : fval fp_zero = 0.
  Proof.
    unfold fp_zero. apply mkc_val; [intros _; apply repeat0_val|]. rewrite fp_slow_val. apply Z.mod_0_l.
    pose proof p_gt_1; lia.
  Qed.
  Lemma fp_of_Z_val z : fval (fp_of_Z z) = (z * mR) mod p.
  Proof.
    pose proof p_gt_1 as Hp.
    destruct z as [|q|q]; cbn [fp_of_Z].
    - rewrite fp_zero_val. symmetry. apply Z.mod_0_l. lia.
    - destruct (pad L (pos_limbs q 1 0)) as [l|] eqn:E; [|apply fp_slow_val].
      destruct (pad_val _ _ _ E) as [Ev [El Eb]].
      destruct (pos_limbs_val q 0 1%uint63 0%uint63) as [Eq Bq]; [lia|reflexivity|reflexivity|].
      pose proof params_facts as PF. destruct PF as [_ [_ [_ [_ [_ [Br2 _]]]]]].
      rewrite fp_mulm_val; [|apply Eb; exact Bq|exact Br2|lia].
      rewrite Ev, Eq. change (iz 0 + 2 ^ 0 * Z.pos q) with (Z.pos q).
      replace (Z.pos q * val (mr2 P) * rinv) with (Z.pos q * rinv * val (mr2 P)) by ring.
      rewrite <- Z.mul_mod_idemp_r, mr2_val, Z.mul_mod_idemp_r by lia.
      replace (Z.pos q * rinv * (mR * mR)) with (Z.pos q * mR * (rinv * mR)) by ring.
      rewrite <- Z.mul_mod_idemp_r, rinv_spec by lia. rewrite Z.mul_1_r. reflexivity.
    - apply fp_slow_val.
  Qed.
  Lemma fp_to_Z_val x : fp_to_Z x = (fval x * rinv) mod p.
  Proof.
    unfold fp_to_Z. rewrite fp_mulm_val; [|apply fp_bnd| |rewrite fp_length; lia].
    - cbn [val]. change (iz 1) with 1. unfold fval. f_equal. lia.
    - apply bnd_cons. split; [reflexivity|constructor].
  Qed.

  (** ** Ring homomorphism properties (p need not be prime) *)
  Lemma fp_to_of z : fp_to_Z (fp_of_Z z) = z mod p.
  Proof.
    pose proof p_gt_1. rewrite fp_to_Z_val, fp_of_Z_val, Z.mul_mod_idemp_l by lia.
    replace (z * mR * rinv) with (z * (rinv * mR)) by ring.
    rewrite <- Z.mul_mod_idemp_r, rinv_spec, Z.mul_1_r by lia. reflexivity.
  Qed.
  Lemma fp_of_to x : fp_of_Z (fp_to_Z x) = x.
  Proof.
    pose proof p_gt_1. apply fval_inj. rewrite fp_of_Z_val, fp_to_Z_val, Z.mul_mod_idemp_l by lia.
    rewrite <- Z.mul_assoc, <- Z.mul_mod_idemp_r, rinv_spec, Z.mul_1_r by lia.
    apply Z.mod_small. apply fval_range.
  Qed.
  Lemma fp_to_Z_range x : 0 <= fp_to_Z x < p.
  Proof. apply fval_range. Qed.
  Lemma fp_to_Z_zero : fp_to_Z fp_zero = 0.
  Proof. rewrite fp_to_Z_val, fp_zero_val. apply Z.mod_0_l. pose proof p_gt_1; lia. Qed.
  Lemma fp_to_Z_one : fp_to_Z fp_one = 1.
  Proof.
    pose proof p_gt_1. rewrite fp_to_Z_val, fp_one_val, Z.mul_mod_idemp_l by lia.
    rewrite Z.mul_comm. apply rinv_spec.
  Qed.
  Lemma fp_to_Z_add x y : fp_to_Z (fp_add x y) = (fp_to_Z x + fp_to_Z y) mod p.
  Proof.
    pose proof p_gt_1. rewrite !fp_to_Z_val, fp_add_val, Z.mul_mod_idemp_l, <- Z.add_mod by lia.
    f_equal. ring.
  Qed.
  Lemma fp_to_Z_sub x y : fp_to_Z (fp_sub x y) = (fp_to_Z x - fp_to_Z y) mod p.
  Proof.
    pose proof p_gt_1. rewrite !fp_to_Z_val, fp_sub_val, Z.mul_mod_idemp_l, <- Zminus_mod by lia.
    f_equal. ring.
  Qed.
  Lemma fp_to_Z_mul x y : fp_to_Z (fp_mul x y) = (fp_to_Z x * fp_to_Z y) mod p.
  Proof.
    pose proof p_gt_1. rewrite !fp_to_Z_val, fp_mul_val, Z.mul_mod_idemp_l, <- Z.mul_mod by lia.
    f_equal. ring.
  Qed.

  (** ** Powers *)
  Fixpoint fp_pow (x : Fp P) (e : positive) : Fp P :=
    match e with
    | xH => x
    | xO e' => fp_pow (fp_mul x x) e'
    | xI e' => fp_mul x (fp_pow (fp_mul x x) e')
    end.

  Lemma fp_pow_to_Z x e : fp_to_Z (fp_pow x e) = (fp_to_Z x ^ Zpos e) mod p.
  Proof.
    pose proof p_gt_1. revert x; induction e as [e IH|e IH|]; intros x; cbn [fp_pow].
    - rewrite fp_to_Z_mul, IH, fp_to_Z_mul. rewrite Z.mul_mod_idemp_r by lia.
      replace (Z.pos e~1) with (1 + 2 * Z.pos e) by lia. rewrite Z.pow_add_r, Z.pow_1_r, Z.pow_mul_r, Z.pow_2_r by lia.
      rewrite (Z.mul_mod _ (_ ^ _)), <- Zpower_mod, <- Z.mul_mod by lia. reflexivity.
    - rewrite IH, fp_to_Z_mul. replace (Z.pos e~0) with (2 * Z.pos e) by lia.
      rewrite Z.pow_mul_r, Z.pow_2_r by lia. rewrite <- Zpower_mod by lia. reflexivity.
    - rewrite Z.pow_1_r. symmetry. apply Z.mod_small. apply fp_to_Z_range.
  Qed.

  Definition fp_inv (x : Fp P) : Fp P := fp_pow x (Z.to_pos (p - 2)).
End Ops.

(** the operations as an instance of the field interface *)
Definition fp_ops_with (P : mparams) (H : params_ok P = true) (inv : Fp P -> Fp P) : FOps (Fp P) := {|
  f0 := fp_zero P H; f1 := fp_one P H; fadd := fp_add P H; fsub := fp_sub P H; fmul := fp_mul P H;
  finv := inv; feqb := fp_eqb P; f_of_Z := fp_of_Z P H; f_to_Z := fp_to_Z P H |}.
Definition fp_ops (P : mparams) (H : params_ok P = true) : FOps (Fp P) := fp_ops_with P H (fp_inv P H).

Section Prime.
  Variable P : mparams.
  Hypothesis Hok : params_ok P = true.
  Hypothesis Hprime : prime (pz P).
  Hypothesis Hodd : (2 < pz P)%Z.
  Local Open Scope Z_scope.

  Lemma fp_is_prime_field_with inv :
    (forall x, x <> fp_zero P Hok -> fp_mul P Hok (inv x) x = fp_one P Hok) ->
    is_prime_field (fp_ops_with P Hok inv) (pz P).
  Proof.
    intros Hinv. constructor; cbn [f0 f1 fadd fsub fmul finv feqb f_of_Z f_to_Z fp_ops_with].
    - exact Hprime.
    - apply fp_to_Z_range.
    - apply fp_of_to.
    - apply fp_to_of.
    - apply fp_to_Z_zero.
    - apply fp_to_Z_one.
    - apply fp_to_Z_add.
    - apply fp_to_Z_sub.
    - apply fp_to_Z_mul.
    - exact Hinv.
    - apply fp_eqb_spec.
  Qed.

  (** an inverse found by search, only to obtain Fermat's theorem *)
  Definition fp_search (x : Fp P) : Fp P :=
    match find (fun y => fp_eqb P (fp_mul P Hok y x) (fp_one P Hok))
               (map (fun n => fp_of_Z P Hok (Z.of_nat n)) (seq 0 (Z.to_nat (pz P)))) with
    | Some y => y
    | None => fp_zero P Hok
    end.

  Lemma fp_search_ok x : x <> fp_zero P Hok -> fp_mul P Hok (fp_search x) x = fp_one P Hok.
  Proof.
    intros Hx. unfold fp_search.
    destruct (find _ _) as [y|] eqn:E.
    - apply find_some in E. destruct E as [_ E]. apply (fp_eqb_spec P) in E. exact E.
    - exfalso. pose proof (fp_to_Z_range P Hok x) as Rx.
      assert (Hx0 : fp_to_Z P Hok x <> 0).
      { intros C. apply Hx. rewrite <- (fp_of_to P Hok x), C. reflexivity. }
      assert (Hrel : rel_prime (fp_to_Z P Hok x) (pz P)).
      { apply rel_prime_le_prime; [exact Hprime|lia]. }
      destruct (rel_prime_bezout _ _ Hrel) as [u v Huv].
      assert (Hin : In (fp_of_Z P Hok (u mod pz P))
                (map (fun n => fp_of_Z P Hok (Z.of_nat n)) (seq 0 (Z.to_nat (pz P))))).
      { apply in_map_iff. exists (Z.to_nat (u mod pz P)). pose proof (Z.mod_pos_bound u (pz P) ltac:(lia)).
        split; [rewrite Z2Nat.id by lia; reflexivity|]. apply in_seq. lia. }
      apply (find_none _ _ E) in Hin. cbv beta in Hin.
      assert (E1 : fp_mul P Hok (fp_of_Z P Hok (u mod pz P)) x = fp_one P Hok).
      { rewrite <- (fp_of_to P Hok (fp_mul _ _ _ _)), <- (fp_of_to P Hok (fp_one _ _)). f_equal.
        rewrite fp_to_Z_mul, fp_to_of, fp_to_Z_one.
        rewrite Zmod_mod, Z.mul_mod_idemp_l by lia.
        replace (u * fp_to_Z P Hok x) with (1 + (- v) * pz P) by lia.
        rewrite Z_mod_plus_full. apply Z.mod_small. lia. }
      rewrite E1 in Hin. pose proof (proj2 (fp_eqb_spec P (fp_one P Hok) (fp_one P Hok)) eq_refl). congruence.
  Qed.

  Theorem fp_is_prime_field : is_prime_field (fp_ops P Hok) (pz P).
  Proof.
    unfold fp_ops. apply fp_is_prime_field_with. intros x Hx.
    pose proof (fp_is_prime_field_with fp_search fp_search_ok) as HS.
    pose proof (@fermat _ _ _ HS x Hx) as Fer.
    apply (f_to_Z_inj HS). cbn [f_to_Z fp_ops_with].
    unfold fp_inv. rewrite fp_to_Z_mul, fp_pow_to_Z, fp_to_Z_one. rewrite Z2Pos.id by lia.
    assert (FZ : forall n, f_to_Z (FOps := fp_ops_with P Hok fp_search) (fpow (Fo := fp_ops_with P Hok fp_search) x n) =
                 (fp_to_Z P Hok x ^ Z.of_nat n) mod pz P).
    { induction n as [|n IH].
      - cbn. rewrite fp_to_Z_one. symmetry. apply Z.mod_small. lia.
      - cbn [fpow]. cbn [fmul f_to_Z fp_ops_with] in *. rewrite fp_to_Z_mul, IH.
        rewrite Nat2Z.inj_succ, Z.pow_succ_r by lia. apply Z.mul_mod_idemp_r. lia. }
    apply (f_equal (f_to_Z (FOps := fp_ops_with P Hok fp_search))) in Fer. rewrite FZ in Fer. cbn [f1 f_to_Z fp_ops_with] in Fer.
    rewrite fp_to_Z_one, Z2Nat.id in Fer by lia.
    rewrite Z.mul_mod_idemp_l by lia. rewrite <- Fer. f_equal.
    replace (pz P - 1) with (Z.succ (pz P - 2)) by lia. rewrite Z.pow_succ_r by lia. ring.
  Qed.
End Prime.
