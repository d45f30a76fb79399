(** * Limbs: multi-precision arithmetic on 29-bit limbs in machine integers.

    A computing device for the concrete fields of the examples and certificates; it does not
    model code of /repo. *)
From Coq Require Import Uint63 ZArith List Lia.
Import ListNotations.
Local Open Scope uint63_scope.

Definition lw : int := 29.
Definition lmask : int := 536870911.
Definition LB : Z := (2 ^ 29)%Z.

Notation iz := Uint63.to_Z.

Fixpoint val (l : list int) : Z :=
  match l with [] => 0 | x :: r => iz x + LB * val r end%Z.

Definition bnd (k : Z) (l : list int) : Prop := Forall (fun x => (iz x < k)%Z) l.

(** ** Operations *)
Fixpoint addl (a b : list int) : list int :=
  match a, b with
  | [], _ => b
  | _, [] => a
  | x :: a', y :: b' => (x + y) :: addl a' b'
  end.

(** c + x * l, limb by limb *)
Fixpoint mac (x : int) (l c : list int) : list int :=
  match l with
  | [] => c
  | y :: l' =>
      match c with
      | [] => (x * y) :: mac x l' []
      | z :: c' => (x * y + z) :: mac x l' c'
      end
  end.

(** c + a * b as columns *)
Fixpoint mulacc (a b c : list int) : list int :=
  match a with
  | [] => c
  | x :: a' =>
      match mac x b c with
      | [] => []
      | h :: t => h :: mulacc a' b t
      end
  end.

(** Montgomery reduction, n limbs *)
Fixpoint redc (p : list int) (pinv : int) (n : nat) (c : list int) : list int :=
  match n with
  | O => c
  | S n' =>
      match c with
      | [] => []
      | c0 :: _ =>
          match mac ((c0 * pinv) land lmask) p c with
          | [] => []
          | h :: t =>
              let k := h >> lw in
              redc p pinv n' match t with [] => [k] | t0 :: t' => (t0 + k) :: t' end
          end
      end
  end.

(** carry propagation; the last limb is the outgoing carry *)
Fixpoint carry (c : list int) (acc : int) : list int :=
  match c with
  | [] => [acc]
  | x :: r => let s := x + acc in (s land lmask) :: carry r (s >> lw)
  end.

(** exactly n limbs, what follows being [top] (nothing stands for zeros) *)
Fixpoint fit (top : int) (n : nat) (l : list int) : option (list int) :=
  match n with
  | O =>
      match l with
      | [] => if 0 =? top then Some [] else None
      | [z] => if z =? top then Some [] else None
      | _ => None
      end
  | S n' =>
      match l with
      | [] => match fit top n' [] with Some r => Some (0 :: r) | None => None end
      | x :: l' => match fit top n' l' with Some r => Some (x :: r) | None => None end
      end
  end.

(** limbs in range, same length, a < b (c: verdict of the lower limbs) *)
Fixpoint ltl (a b : list int) (c : bool) : bool :=
  match a, b with
  | [], [] => c
  | x :: a', y :: b' =>
      if x <=? lmask then ltl a' b' (if x =? y then c else x <? y) else false
  | _, _ => false
  end.

Fixpoint eql (a b : list int) : bool :=
  match a, b with
  | [], [] => true
  | x :: a', y :: b' => if x =? y then eql a' b' else false
  | _, _ => false
  end.

(** complement of each limb *)
Definition compl (l : list int) : list int := map (fun x => lmask - x) l.

(** limbs of a positive number *)
Fixpoint pos_limbs (p : positive) (k acc : int) : list int :=
  match p with
  | xH => [acc + k]
  | xO q => if k =? 268435456 then acc :: pos_limbs q 1 0 else pos_limbs q (k + k) acc
  | xI q => let acc := acc + k in
            if k =? 268435456 then acc :: pos_limbs q 1 0 else pos_limbs q (k + k) acc
  end.

(** exactly n limbs of z *)
Fixpoint z_limbs (n : nat) (z : Z) : list int :=
  match n with
  | O => []
  | S n' => of_Z (z mod LB) :: z_limbs n' (z / LB)
  end.

Fixpoint pad (n : nat) (l : list int) : option (list int) :=
  match n, l with
  | O, [] => Some []
  | O, _ => None
  | S n', [] => match pad n' [] with Some r => Some (0 :: r) | None => None end
  | S n', x :: l' => match pad n' l' with Some r => Some (x :: r) | None => None end
  end.

(** ** Correctness *)
Local Open Scope Z_scope.

Lemma LB_pos : 0 < LB. Proof. reflexivity. Qed.
Lemma wB_val : wB = 32 * (LB * LB). Proof. reflexivity. Qed.
Lemma iz_pos x : 0 <= iz x. Proof. apply to_Z_bounded. Qed.

Lemma val_nonneg l : 0 <= val l.
Proof.
  induction l as [|x l IH]; [simpl; lia|]. cbn [val]. pose proof (iz_pos x).
  pose proof (Z.mul_nonneg_nonneg LB (val l) ltac:(pose proof LB_pos; lia) IH). lia.
Qed.

Lemma add_small x y : iz x + iz y < wB -> iz (x + y)%uint63 = iz x + iz y.
Proof. intros H. rewrite add_spec. apply Z.mod_small. pose proof (iz_pos x); pose proof (iz_pos y); lia. Qed.
Lemma mul_small x y : iz x * iz y < wB -> iz (x * y)%uint63 = iz x * iz y.
Proof. intros H. rewrite mul_spec. apply Z.mod_small. split; [|exact H].
  apply Z.mul_nonneg_nonneg; apply iz_pos. Qed.
Lemma land_mask x : iz (x land lmask)%uint63 = iz x mod LB.
Proof. rewrite land_spec'. change (iz lmask) with (Z.ones 29). apply Z.land_ones. lia. Qed.
Lemma lsr_lw x : iz (x >> lw)%uint63 = iz x / LB.
Proof. rewrite lsr_spec. reflexivity. Qed.
Lemma sub_mask x : iz x < LB -> iz (lmask - x)%uint63 = LB - 1 - iz x.
Proof. intros H. rewrite sub_spec. change (iz lmask) with (LB - 1). apply Z.mod_small.
  pose proof (iz_pos x). pose proof wB_val. unfold LB in *. lia. Qed.

Lemma bnd_mono k k' l : bnd k l -> k <= k' -> bnd k' l.
Proof. intros H Hk. eapply Forall_impl; [|exact H]. simpl. intros; lia. Qed.
Lemma bnd_nil k : bnd k []. Proof. constructor. Qed.
Lemma bnd_cons k x l : bnd k (x :: l) <-> iz x < k /\ bnd k l.
Proof. split; [intros H; inversion H; subst; auto | intros [A B]; constructor; auto]. Qed.

Lemma addl_val a b k m : bnd k a -> bnd m b -> 0 <= k -> 0 <= m -> k + m <= wB ->
  val (addl a b) = val a + val b /\ bnd (k + m) (addl a b).
Proof.
  revert b; induction a as [|x a IH]; intros b Ha Hb Hk Hm Hw.
  - split; [reflexivity|]. apply (bnd_mono m); [exact Hb|lia].
  - destruct b as [|y b]; simpl addl.
    + split; [simpl; lia|]. apply (bnd_mono k); [exact Ha|lia].
    + apply bnd_cons in Ha as [Hx Ha]. apply bnd_cons in Hb as [Hy Hb].
      destruct (IH b Ha Hb Hk Hm Hw) as [E Bd]. cbn [val]. rewrite E, add_small by lia.
      split; [lia|]. apply bnd_cons. rewrite add_small by lia. split; [lia|exact Bd].
Qed.

Lemma mac_val x l c k : iz x < LB -> bnd LB l -> bnd k c -> 0 <= k -> k + LB * LB <= wB ->
  val (mac x l c) = iz x * val l + val c /\ bnd (k + LB * LB) (mac x l c).
Proof.
  intros Hx. revert c; induction l as [|y l IH]; intros c Hl Hc Hk Hw; simpl mac.
  - split; [simpl; lia|]. apply (bnd_mono k); [exact Hc|]. pose proof LB_pos; nia.
  - apply bnd_cons in Hl as [Hy Hl].
    assert (Hxy : iz x * iz y < LB * LB).
    { pose proof (iz_pos x); pose proof (iz_pos y). nia. }
    destruct c as [|z c].
    + destruct (IH [] Hl (bnd_nil _) Hk Hw) as [E Bd]. cbn [val]. rewrite E, mul_small by lia.
      cbn [val]. split; [lia|]. apply bnd_cons. rewrite mul_small by lia. split; [lia|exact Bd].
    + apply bnd_cons in Hc as [Hz Hc]. destruct (IH c Hl Hc Hk Hw) as [E Bd]. cbn [val].
      assert (Exy : iz (x * y)%uint63 = iz x * iz y) by (apply mul_small; lia).
      assert (Ez : iz (x * y + z)%uint63 = iz x * iz y + iz z) by (rewrite add_small; lia).
      rewrite E, Ez. split; [lia|]. apply bnd_cons. split; [lia|exact Bd].
Qed.

Lemma mulacc_val a b : bnd LB a -> bnd LB b -> forall c k, bnd k c -> 0 <= k ->
  k + Z.of_nat (length a) * (LB * LB) <= wB ->
  val (mulacc a b c) = val a * val b + val c /\
  bnd (k + Z.of_nat (length a) * (LB * LB)) (mulacc a b c).
Proof.
  intros Ha Hb. induction a as [|x a IH]; intros c k Hc Hk Hw.
  - simpl. split; [lia|]. replace (k + 0) with k by lia. exact Hc.
  - apply bnd_cons in Ha as [Hx Ha]. simpl length in *. rewrite Nat2Z.inj_succ in *.
    pose proof LB_pos as HB. assert (0 < LB * LB) by nia.
    assert (0 <= Z.of_nat (length a) * (LB * LB)) by nia.
    destruct (mac_val x b c k Hx Hb Hc Hk) as [E Bd]; [lia|].
    simpl mulacc. destruct (mac x b c) as [|h t] eqn:Em.
    + destruct b as [|y b]; [|destruct c; discriminate]. simpl in Em. subst c.
      split; [simpl; lia|constructor].
    + apply bnd_cons in Bd as [Hh Ht].
      destruct (IH Ha t (k + LB * LB) Ht) as [E2 Bd2]; [lia|lia|].
      cbn [val] in *. rewrite E2. split; [lia|].
      apply bnd_cons. split; [lia|]. eapply bnd_mono; [exact Bd2|lia].
Qed.

(** one Montgomery step makes the lowest limb divisible by the base *)
Lemma redc_val p0 p pinv : bnd LB (p0 :: p) -> (iz p0 * iz pinv) mod LB = LB - 1 ->
  forall n c k, bnd k c -> 0 <= k -> k + 2 * Z.of_nat n * (LB * LB) <= wB ->
  (exists q, val (redc (p0 :: p) pinv n c) * LB ^ Z.of_nat n = val c + q * val (p0 :: p)) /\
  bnd (k + 2 * Z.of_nat n * (LB * LB)) (redc (p0 :: p) pinv n c).
Proof.
  intros Hp Hinv. induction n as [|n IH]; intros c k Hc Hk Hw.
  - simpl redc. simpl Z.of_nat. split; [exists 0; lia|]. replace (k + 2 * 0 * (LB * LB)) with k by lia. exact Hc.
  - rewrite Nat2Z.inj_succ in *. pose proof LB_pos as HB. assert (HBB : 0 < LB * LB) by nia.
    assert (Hn : 0 <= Z.of_nat n * (LB * LB)) by nia.
    destruct c as [|c0 cs].
    + simpl redc. split; [exists 0; simpl; lia|constructor].
    + cbn [redc]. set (m := ((c0 * pinv) land lmask)%uint63).
      assert (Em : iz m = (iz c0 * iz pinv) mod LB).
      { unfold m. rewrite land_mask, mul_spec. rewrite wB_val.
        replace (32 * (LB * LB)) with (LB * (32 * LB)) by ring.
        rewrite Z.rem_mul_r by lia. rewrite Z.mul_comm with (n := LB).
        rewrite Z_mod_plus_full. apply Z.mod_mod. lia. }
      assert (Hm : iz m < LB) by (rewrite Em; apply Z.mod_pos_bound; lia).
      destruct (mac_val m (p0 :: p) (c0 :: cs) k Hm Hp Hc Hk) as [E Bd]; [lia|].
      assert (Hdiv : iz (m * p0 + c0)%uint63 mod LB = 0).
      { apply bnd_cons in Hp as [Hp0 _]. apply bnd_cons in Hc as [Hc0 _].
        pose proof (iz_pos m); pose proof (iz_pos p0); pose proof (iz_pos c0).
        assert (iz m * iz p0 < LB * LB) by nia.
        rewrite add_small; rewrite mul_small by lia; [|lia].
        rewrite Em.
        pose proof (Z.div_mod (iz c0 * iz pinv) LB ltac:(lia)) as D1.
        pose proof (Z.div_mod (iz p0 * iz pinv) LB ltac:(lia)) as D2. rewrite Hinv in D2.
        set (u := iz c0 * iz pinv / LB) in *. set (v := iz p0 * iz pinv / LB) in *.
        replace ((iz c0 * iz pinv) mod LB * iz p0 + iz c0) with ((iz c0 * v + iz c0 - u * iz p0) * LB).
        - apply Z.mod_mul. lia.
        - replace ((iz c0 * iz pinv) mod LB) with (iz c0 * iz pinv - LB * u) by lia.
          replace ((iz c0 * iz pinv - LB * u) * iz p0) with (iz c0 * (iz p0 * iz pinv) - LB * u * iz p0) by ring.
          rewrite D2. ring. }
      cbn [mac] in *. set (h := (m * p0 + c0)%uint63) in *. set (t := mac m p cs) in *.
      apply bnd_cons in Bd as [Hh Ht].
      assert (Hhd : iz h = LB * iz (h >> lw)%uint63).
      { rewrite lsr_lw. apply Z_div_exact_full_2; [lia|exact Hdiv]. }
      assert (Hs : iz (h >> lw)%uint63 <= LB * LB).
      { assert (iz h < wB) by lia. rewrite wB_val in H. unfold LB in *. lia. }
      set (c' := match t with [] => [(h >> lw)%uint63] | t0 :: t' => (t0 + (h >> lw))%uint63 :: t' end).
      assert (Hc' : val c' = val t + iz (h >> lw)%uint63 /\ bnd (k + 2 * (LB * LB)) c').
      { unfold c'. clearbody t. destruct t as [|t0 t'].
        - split; [simpl; lia|]. apply bnd_cons. split; [lia|constructor].
        - apply bnd_cons in Ht as [Ht0 Ht]. assert (iz t0 + iz (h >> lw)%uint63 < wB) by lia.
          split; [cbn [val]; rewrite add_small by lia; lia|].
          apply bnd_cons. rewrite add_small by lia. split; [lia|]. eapply bnd_mono; [exact Ht|lia]. }
      destruct Hc' as [Ev Bd'].
      destruct (IH c' (k + 2 * (LB * LB)) Bd') as [[q Eq] Bd2]; [lia|lia|].
      fold c'. split.
      * exists (iz m + LB * q). rewrite Z.pow_succ_r by lia.
        replace (val (redc (p0 :: p) pinv n c') * (LB * LB ^ Z.of_nat n))
          with (LB * (val (redc (p0 :: p) pinv n c') * LB ^ Z.of_nat n)) by ring.
        rewrite Eq, Ev. cbn [val] in E. rewrite <- (Z.add_comm (LB * val t)) in E.
        cbn [val]. rewrite Z.mul_add_distr_l, Z.mul_add_distr_l, <- Hhd.
        rewrite E. ring.
      * eapply bnd_mono; [exact Bd2|lia].
Qed.

Lemma carry_val c : forall acc k, bnd k c -> 0 <= k -> iz acc <= LB * LB -> k + LB * LB <= wB ->
  val (carry c acc) = val c + iz acc.
Proof.
  induction c as [|x c IH]; intros acc k Hc Hk Ha Hw; [simpl; lia|].
  apply bnd_cons in Hc as [Hx Hc]. cbn [carry]. cbn zeta. cbn [val].
  pose proof (iz_pos acc). pose proof (iz_pos x).
  assert (Es : iz (x + acc)%uint63 = iz x + iz acc) by (apply add_small; lia).
  rewrite land_mask. rewrite (IH _ k); try assumption.
  - rewrite lsr_lw, Es. pose proof (Z.div_mod (iz x + iz acc) LB ltac:(pose proof LB_pos; lia)). lia.
  - rewrite lsr_lw, Es. apply Z.div_le_upper_bound; [apply LB_pos|]. unfold LB in *. rewrite wB_val in Hw. unfold LB in Hw. lia.
Qed.

Lemma fit_val top n : forall l r, fit top n l = Some r ->
  val l = val r + iz top * LB ^ Z.of_nat n.
Proof.
  induction n as [|n IH]; intros l r H.
  - destruct l as [|z [|]]; try discriminate; simpl in H.
    + destruct (eqb_spec 0 top) as [E _]. destruct (0 =? top)%uint63; [|discriminate].
      rewrite <- (E eq_refl). inversion H; subst. reflexivity.
    + destruct (eqb_spec z top) as [E _]. destruct (z =? top)%uint63; [|discriminate].
      rewrite (E eq_refl). inversion H; subst. simpl. lia.
  - destruct l as [|x l]; cbn [fit] in H.
    + destruct (fit top n []) as [r'|] eqn:Ef; [|discriminate]. inversion H; subst.
      pose proof (IH _ _ Ef) as E. cbn [val] in *. change (iz 0) with 0.
      rewrite Nat2Z.inj_succ, Z.pow_succ_r by lia. pose proof LB_pos. nia.
    + destruct (fit top n l) as [r'|] eqn:Ef; [|discriminate]. inversion H; subst.
      cbn [val]. rewrite (IH _ _ Ef). rewrite Nat2Z.inj_succ, Z.pow_succ_r by lia. ring.
Qed.

Lemma val_bound l : bnd LB l -> val l < LB ^ Z.of_nat (length l).
Proof.
  induction l as [|x l IH]; intros H; [simpl; lia|].
  apply bnd_cons in H as [Hx H]. specialize (IH H). cbn [val length].
  rewrite Nat2Z.inj_succ, Z.pow_succ_r by lia. pose proof LB_pos. nia.
Qed.

Lemma leb_mask x : (x <=? lmask)%uint63 = true <-> iz x < LB.
Proof. rewrite leb_spec. change (iz lmask) with (LB - 1). lia. Qed.

Lemma ltl_spec a : forall b c, bnd LB b ->
  (ltl a b c = true <->
   length a = length b /\ bnd LB a /\ (val a < val b \/ (val a = val b /\ c = true))).
Proof.
  induction a as [|x a IH]; intros [|y b] c Hb; cbn [ltl].
  - split; [intros ->; repeat split; [constructor|right; auto]|]. intros [_ [_ [H|[_ H]]]]; [simpl in H; lia|exact H].
  - split; [discriminate|intros [H _]; discriminate].
  - split; [discriminate|intros [H _]; discriminate].
  - apply bnd_cons in Hb as [Hy Hb]. pose proof (iz_pos x). pose proof (iz_pos y).
    destruct (x <=? lmask)%uint63 eqn:El.
    2:{ split; [discriminate|]. intros [_ [Ha _]]. apply bnd_cons in Ha as [Hx _].
        apply leb_mask in Hx. congruence. }
    apply leb_mask in El. rewrite IH by exact Hb. cbn [length val]. rewrite bnd_cons.
    pose proof (eqb_spec x y) as Ee. pose proof (ltb_spec x y) as Et. pose proof LB_pos.
    assert (Hlow : forall u v, 0 <= u < LB -> 0 <= v < LB -> forall s w,
              u + LB * s < v + LB * w <-> (s < w \/ (s = w /\ u < v))) by (change LB with 536870912; intros; lia).
    assert (Heq : forall u v, 0 <= u < LB -> 0 <= v < LB -> forall s w,
              u + LB * s = v + LB * w <-> (s = w /\ u = v)) by (change LB with 536870912; intros; lia).
    rewrite Hlow, Heq by lia.
    destruct (x =? y)%uint63 eqn:E1.
    + assert (x = y) by (apply Ee; reflexivity). subst y.
      split; intros [A [B C]]; repeat split; try tauto; try lia; intuition lia.
    + assert (iz x <> iz y). { intros C. apply to_Z_inj in C. apply Ee in C. discriminate. }
      split; intros [A [B C]]; repeat split; try tauto; try lia; intuition lia.
Qed.

Lemma eql_spec a : forall b, eql a b = true <-> a = b.
Proof.
  induction a as [|x a IH]; intros [|y b]; cbn [eql]; split; try discriminate; try reflexivity.
  - pose proof (eqb_spec x y) as E. destruct (x =? y)%uint63; [|discriminate]. intros H.
    apply IH in H. rewrite (proj1 E eq_refl), H. reflexivity.
  - intros H. injection H as -> ->. rewrite (proj2 (eqb_spec y y) eq_refl). apply IH. reflexivity.
Qed.

Lemma compl_val l : bnd LB l ->
  val (compl l) = LB ^ Z.of_nat (length l) - 1 - val l /\ bnd LB (compl l).
Proof.
  induction l as [|x l IH]; intros H; [split; [reflexivity|constructor]|].
  apply bnd_cons in H as [Hx H]. destruct (IH H) as [E Bd]. cbn [compl map val length]. fold (compl l).
  rewrite Nat2Z.inj_succ, Z.pow_succ_r by lia. rewrite E, sub_mask by exact Hx. split; [ring|].
  apply bnd_cons. rewrite sub_mask by exact Hx. pose proof (iz_pos x). split; [lia|exact Bd].
Qed.

Lemma pos_limbs_val p : forall j k acc, 0 <= j <= 28 -> iz k = 2 ^ j -> iz acc < 2 ^ j ->
  val (pos_limbs p k acc) = iz acc + 2 ^ j * Zpos p /\ bnd LB (pos_limbs p k acc).
Proof.
  assert (Hp : forall j, 0 <= j <= 28 -> 1 <= 2 ^ j <= 2 ^ 28).
  { intros j Hj. split; [apply (Z.pow_le_mono_r 2 0 j); lia|apply Z.pow_le_mono_r; lia]. }
  assert (Hk : forall k j, 0 <= j <= 28 -> iz k = 2 ^ j -> ((k =? 268435456)%uint63 = true <-> j = 28)).
  { intros k j Hj Ek. rewrite eqb_spec. split.
    - intros ->. change (2 ^ 28 = 2 ^ j) in Ek. apply Z.pow_inj_r in Ek; lia.
    - intros ->. apply to_Z_inj. rewrite Ek. reflexivity. }
  induction p as [p IH|p IH|]; intros j k acc Hj Ek Ha; cbn [pos_limbs]; cbn zeta;
    pose proof (Hp j Hj) as Hpj; pose proof (iz_pos acc) as Hacc; pose proof wB_val as HwB;
    change (32 * (LB * LB)) with 9223372036854775808 in HwB; change (2 ^ 28) with 268435456 in Hpj;
    pose proof (Hk k j Hj Ek) as Hkk.
  - assert (Ea : iz (acc + k)%uint63 = iz acc + 2 ^ j) by (rewrite add_small; lia).
    destruct (k =? 268435456)%uint63.
    + assert (j = 28) by (apply Hkk; reflexivity). subst j.
      destruct (IH 0 1%uint63 0%uint63) as [E Bd]; [lia|reflexivity|reflexivity|].
      cbn [val]. rewrite E, Ea. change (iz 0) with 0. change (2 ^ 0) with 1. change (2 ^ 28) with 268435456.
      unfold LB. change (2 ^ 29) with 536870912. split; [lia|].
      apply bnd_cons. rewrite Ea. unfold LB. change (2 ^ 29) with 536870912. change (2 ^ 28) with 268435456 in *. split; [lia|exact Bd].
    + assert (j <> 28) by (intros C; apply Hkk in C; discriminate).
      assert (E2 : 2 ^ (j + 1) = 2 * 2 ^ j) by (rewrite Z.pow_add_r by lia; lia).
      destruct (IH (j + 1) (k + k)%uint63 (acc + k)%uint63) as [E Bd]; [lia|rewrite add_small; lia|lia|].
      split; [|exact Bd]. rewrite E, Ea, E2. lia.
  - destruct (k =? 268435456)%uint63.
    + assert (j = 28) by (apply Hkk; reflexivity). subst j.
      destruct (IH 0 1%uint63 0%uint63) as [E Bd]; [lia|reflexivity|reflexivity|].
      cbn [val]. rewrite E. change (iz 0) with 0. change (2 ^ 0) with 1. change (2 ^ 28) with 268435456 in *.
      unfold LB. change (2 ^ 29) with 536870912. split; [lia|].
      apply bnd_cons. unfold LB. change (2 ^ 29) with 536870912. split; [lia|exact Bd].
    + assert (j <> 28) by (intros C; apply Hkk in C; discriminate).
      assert (E2 : 2 ^ (j + 1) = 2 * 2 ^ j) by (rewrite Z.pow_add_r by lia; lia).
      destruct (IH (j + 1) (k + k)%uint63 acc) as [E Bd]; [lia|rewrite add_small; lia|lia|].
      split; [|exact Bd]. rewrite E, E2. lia.
  - assert (Ea : iz (acc + k)%uint63 = iz acc + 2 ^ j) by (rewrite add_small; lia).
    cbn [val]. rewrite Ea. split; [lia|]. apply bnd_cons. rewrite Ea. unfold LB.
    change (2 ^ 29) with 536870912. split; [lia|constructor].
Qed.

Lemma z_limbs_val n : forall z, 0 <= z < LB ^ Z.of_nat n ->
  val (z_limbs n z) = z /\ bnd LB (z_limbs n z) /\ length (z_limbs n z) = n.
Proof.
  pose proof LB_pos as HB.
  induction n as [|n IH]; intros z Hz.
  - simpl in *. repeat split; [lia|constructor].
  - rewrite Nat2Z.inj_succ, Z.pow_succ_r in Hz by lia.
    destruct (IH (z / LB)) as [E [Bd Len]].
    { split; [apply Z.div_pos; lia|apply Z.div_lt_upper_bound; lia]. }
    cbn [z_limbs val length]. rewrite E, Len.
    assert (Em : iz (of_Z (z mod LB)) = z mod LB).
    { rewrite of_Z_spec. apply Z.mod_small. pose proof (Z.mod_pos_bound z LB HB). rewrite wB_val. nia. }
    rewrite Em. repeat split.
    + pose proof (Z.div_mod z LB ltac:(lia)). lia.
    + apply bnd_cons. rewrite Em. split; [apply Z.mod_pos_bound; lia|exact Bd].
Qed.

Lemma pad_val n : forall l r, pad n l = Some r -> val r = val l /\ length r = n /\ (bnd LB l -> bnd LB r).
Proof.
  induction n as [|n IH]; intros [|x l] r H; cbn [pad] in H.
  - inversion H; subst. auto.
  - discriminate.
  - destruct (pad n []) as [r'|] eqn:E; [|discriminate]. inversion H; subst.
    destruct (IH _ _ E) as [A [B C]]. cbn [val length]. rewrite A, B. repeat split.
    intros _. apply bnd_cons. split; [reflexivity|apply C; constructor].
  - destruct (pad n l) as [r'|] eqn:E; [|discriminate]. inversion H; subst.
    destruct (IH _ _ E) as [A [B C]]. cbn [val length]. rewrite A, B. repeat split.
    intros Hb. apply bnd_cons in Hb as [Hx Hb]. apply bnd_cons. auto.
Qed.

Lemma val_inj a : forall b, length a = length b -> bnd LB a -> bnd LB b -> val a = val b -> a = b.
Proof.
  induction a as [|x a IH]; intros [|y b] Hl Ha Hb E; try discriminate; [reflexivity|].
  apply bnd_cons in Ha as [Hx Ha]. apply bnd_cons in Hb as [Hy Hb]. cbn [val] in E.
  pose proof (iz_pos x). pose proof (iz_pos y). pose proof LB_pos.
  assert (iz x = iz y /\ val a = val b) as [E1 E2] by (change LB with 536870912 in *; lia).
  apply to_Z_inj in E1. rewrite E1, (IH b); auto.
Qed.
