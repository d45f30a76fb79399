(** * ProofGrainPoly: the period of the shift register of the constant generator (C92) *)
From Coq Require Import Btauto Znumtheory.
From Verif Require Import Base Pock.
Local Open Scope nat_scope.

(** bit sequences of the register *)
Definition lfsr (u : nat -> bool) : Prop :=
  forall k, u (k + 80) = xorb (u (k + 62)) (xorb (u (k + 51)) (xorb (u (k + 38)) (xorb (u (k + 23)) (xorb (u (k + 13)) (u k))))).

(** a polynomial over GF(2) applied to a sequence: x is the shift *)
Fixpoint act (g : list bool) (u : nat -> bool) (n : nat) : bool :=
  match g with [] => false | b :: g' => xorb (b && u n) (act g' u (S n)) end.
Fixpoint padd (a b : list bool) : list bool :=
  match a, b with
  | [], _ => b
  | _, [] => a
  | x :: a', y :: b' => xorb x y :: padd a' b'
  end.
Fixpoint shl (b : bool) (g : list bool) : list bool * bool :=
  match g with [] => ([], b) | a :: g' => let '(h, c) := shl a g' in (b :: h, c) end.
Definition FL : list bool := map (fun i => existsb (Nat.eqb i) [0; 13; 23; 38; 51; 62]) (seq 0 80).
Definition xmul (r : list bool) : list bool := let '(g, c) := shl false r in if c then padd g FL else g.
Definition zero80 : list bool := repeat false 80.
Definition one80 : list bool := true :: repeat false 79.
Definition mulm (a b : list bool) : list bool := fold_right (fun (c : bool) acc => let x := xmul acc in if c then padd b x else x) zero80 a.
Fixpoint xpow (p : positive) : list bool :=
  match p with
  | xH => xmul one80
  | xO q => let r := xpow q in mulm r r
  | xI q => let r := xpow q in xmul (mulm r r)
  end.

Lemma act_ext g : forall u v n, (forall m, u m = v m) -> act g u n = act g v n.
Proof. induction g as [|b g IH]; intros u v n H; [reflexivity|]. cbn [act]. rewrite H, (IH u v (S n) H). reflexivity. Qed.
Lemma act_padd a : forall b u n, act (padd a b) u n = xorb (act a u n) (act b u n).
Proof.
  induction a as [|x a IH]; intros [|y b] u n; cbn [padd act]; [reflexivity|destruct (xorb _ _); reflexivity|destruct (xorb _ _); reflexivity|].
  rewrite IH. btauto.
Qed.
Lemma act_shift g : forall u e n, act g (fun m => u (m + e)) n = act g u (n + e).
Proof. induction g as [|b g IH]; intros u e n; [reflexivity|]. cbn [act]. rewrite IH. reflexivity. Qed.
Lemma act_S g u n : act g (fun m => u (S m)) n = act g u (S n).
Proof. rewrite (act_ext g (fun m => u (S m)) (fun m => u (m + 1))) by (intros m; f_equal; lia). rewrite act_shift. f_equal. lia. Qed.
Lemma act_false k : forall u n, act (repeat false k) u n = false.
Proof. induction k as [|k IH]; intros u n; [reflexivity|]. cbn [repeat act andb]. rewrite IH. reflexivity. Qed.
Lemma act_one u n : act one80 u n = u n.
Proof. unfold one80. cbn [act]. rewrite act_false. destruct (u n); reflexivity. Qed.
Lemma padd_length a : forall b, length (padd a b) = Nat.max (length a) (length b).
Proof. induction a as [|x a IH]; intros [|y b]; cbn [padd length]; [reflexivity|reflexivity|reflexivity|]. rewrite IH. reflexivity. Qed.
Lemma shl_ok g : forall b u n, xorb (act (fst (shl b g)) u n) (snd (shl b g) && u (n + length g)) = xorb (b && u n) (act g u (S n)).
Proof.
  induction g as [|a g IH]; intros b u n.
  - cbn [shl fst snd act length]. rewrite Nat.add_0_r, xorb_false_r. destruct (b && u n); reflexivity.
  - cbn [shl]. specialize (IH a u (S n)). destruct (shl a g) as [h c]. cbn [fst snd act length] in *. rewrite Nat.add_succ_r, <- Nat.add_succ_l. rewrite <- IH. btauto.
Qed.
Lemma shl_length g : forall b, length (fst (shl b g)) = length g.
Proof. induction g as [|a g IH]; intros b; [reflexivity|]. cbn [shl]. specialize (IH a). destruct (shl a g). cbn [fst length] in *. lia. Qed.
Lemma act_FL u n : lfsr u -> act FL u n = u (n + 80).
Proof.
  intros H. rewrite H. unfold FL. cbn -[Nat.add xorb andb].
  rewrite !andb_false_l, !andb_true_l.
  replace (n + 13) with (13 + n) by lia. replace (n + 23) with (23 + n) by lia. replace (n + 38) with (38 + n) by lia. replace (n + 51) with (51 + n) by lia. replace (n + 62) with (62 + n) by lia.
  cbn [Nat.add]. rewrite !xorb_false_l, xorb_false_r. btauto.
Qed.
Lemma FL_length : length FL = 80. Proof. reflexivity. Qed.
Opaque FL.
Lemma xmul_length r : length r = 80 -> length (xmul r) = 80.
Proof.
  intros H. unfold xmul. pose proof (shl_length r false) as L. destruct (shl false r) as [g c]. cbn [fst] in L. destruct c; [rewrite padd_length, FL_length|]; lia.
Qed.
Lemma act_xmul r u n : lfsr u -> length r = 80 -> act (xmul r) u n = act r u (S n).
Proof.
  intros H L. unfold xmul. pose proof (shl_ok r false u n) as E. rewrite L in E. destruct (shl false r) as [g c]. cbn [fst snd] in E. rewrite andb_false_l, xorb_false_l in E. rewrite <- E.
  destruct c; [rewrite act_padd, act_FL by exact H; reflexivity|]. rewrite andb_false_l, xorb_false_r. reflexivity.
Qed.
Lemma mulm_length a b : length b = 80 -> length (mulm a b) = 80.
Proof.
  intros H. induction a as [|c a IH]; [reflexivity|]. cbn [mulm fold_right]. fold (mulm a b). pose proof (xmul_length _ IH) as L.
  cbn zeta. destruct c; [rewrite padd_length|]; lia.
Qed.
Lemma act_mulm a : forall b u n, lfsr u -> length b = 80 -> act (mulm a b) u n = act a (act b u) n.
Proof.
  induction a as [|c a IH]; intros b u n H L; [apply act_false|].
  cbn [mulm fold_right act]. fold (mulm a b). cbn zeta. pose proof (mulm_length a b L) as M.
  destruct c; [rewrite act_padd|]; rewrite act_xmul by assumption; rewrite IH by assumption.
  - reflexivity.
  - rewrite andb_false_l, xorb_false_l. reflexivity.
Qed.
Lemma lfsr_shift u e : lfsr u -> lfsr (fun m => u (m + e)).
Proof.
  intros H k. cbv beta. specialize (H (k + e)).
  replace (k + 80 + e) with (k + e + 80) by lia. replace (k + 62 + e) with (k + e + 62) by lia. replace (k + 51 + e) with (k + e + 51) by lia.
  replace (k + 38 + e) with (k + e + 38) by lia. replace (k + 23 + e) with (k + e + 23) by lia. replace (k + 13 + e) with (k + e + 13) by lia. exact H.
Qed.
Lemma xpow_length p : length (xpow p) = 80.
Proof. induction p as [p IH|p IH|]; cbn [xpow]; cbn zeta; [apply xmul_length, mulm_length, IH|apply mulm_length, IH|reflexivity]. Qed.
Lemma act_xpow p : forall u n, lfsr u -> act (xpow p) u n = u (n + Pos.to_nat p).
Proof.
  induction p as [p IH|p IH|]; intros u n H; cbn [xpow]; cbn zeta.
  - rewrite act_xmul by (try apply mulm_length, xpow_length; exact H). rewrite act_mulm by (try apply xpow_length; exact H).
    rewrite (act_ext _ _ (fun m => u (m + Pos.to_nat p))) by (intros m; apply IH, H). rewrite IH by (apply lfsr_shift, H). rewrite Pos2Nat.inj_xI. f_equal. lia.
  - rewrite act_mulm by (try apply xpow_length; exact H).
    rewrite (act_ext _ _ (fun m => u (m + Pos.to_nat p))) by (intros m; apply IH, H). rewrite IH by (apply lfsr_shift, H). rewrite Pos2Nat.inj_xO. f_equal. lia.
  - rewrite act_xmul by (try reflexivity; exact H). rewrite act_one. f_equal. rewrite Pos2Nat.inj_1. lia.
Qed.

(** ** Periods *)
Definition per (u : nat -> bool) (a : nat) : Prop := forall n, u (n + a) = u n.
Lemma per_mul u a k : per u a -> per u (k * a).
Proof. intros H. induction k as [|k IH]; intros n; [f_equal; lia|]. replace (n + S k * a) with (n + k * a + a) by lia. rewrite H. apply IH. Qed.
Lemma per_gcd u a b : a <> 0 -> per u a -> per u b -> per u (Nat.gcd a b).
Proof.
  intros Ha HA HB n. destruct (Nat.gcd_bezout_pos a b ltac:(lia)) as [x [y E]].
  rewrite <- (per_mul u b y HB (n + Nat.gcd a b)). replace (n + Nat.gcd a b + y * b) with (n + x * a) by lia. apply per_mul, HA.
Qed.
Definition PP : positive := 1208925819614629174706175.
Lemma PP_pow : (Zpos PP + 1 = 2 ^ 80)%Z. Proof. reflexivity. Qed.
Lemma xpow_PP : xpow PP = one80.
Proof. vm_cast_no_check (eq_refl one80). Qed.
Lemma per_PP u : lfsr u -> per u (Pos.to_nat PP).
Proof. intros H n. rewrite <- act_xpow by exact H. rewrite xpow_PP. apply act_one. Qed.

Definition bits80 (z : N) : list bool := map (fun i => N.testbit z (N.of_nat i)) (seq 0 80).
(** prime q, PP / q, inverse of x^(PP/q) + 1 *)
Definition certs : list (Z * positive * N) := [
  (3%Z, 402975273204876391568725%positive, 0x84af4b4000ca59a94615%N);
  (5%Z, 241785163922925834941235%positive, 0xb3638d92d8743d158833%N);
  (11%Z, 109902347237693561336925%positive, 0x5995672ac6bd2d400489%N);
  (17%Z, 71113283506742892629775%positive, 0xf4c544f18b707617c751%N);
  (31%Z, 38997607084342876603425%positive, 0x26dbb0423895fe2b6835%N);
  (41%Z, 29485995600356809139175%positive, 0x4f9204fdf10733ea913e%N);
  (257%Z, 4703991516010230251775%positive, 0x8f38010568220764b9d3%N);
  (61681%Z, 19599646886636552175%positive, 0x540bad0ae0209f080d09%N);
  (4278255361%Z, 282574488338175%positive, 0x39ed9f7bcf318c3f7130%N)].
Definition cert_ok (c : Z * positive * N) : bool :=
  let '(q, e, v) := c in (Zpos PP =? q * Zpos e)%Z && forallb (fun '(a, b) => Bool.eqb a b) (combine (mulm (bits80 v) (padd (xpow e) one80)) one80).
Lemma certs_ok : forallb cert_ok certs = true.
Proof. vm_cast_no_check (eq_refl true). Qed.

Lemma combine_eq (a : list bool) : forall b, length a = length b -> forallb (fun '(x, y) => Bool.eqb x y) (combine a b) = true -> a = b.
Proof.
  induction a as [|x a IH]; intros [|y b] L H; try discriminate L; [reflexivity|]. cbn in H. apply andb_true_iff in H. destruct H as [E H]. apply eqb_prop in E.
  injection L as L. rewrite E, (IH b L H). reflexivity.
Qed.
Lemma cert_zero u q e v : In (q, e, v) certs -> lfsr u -> per u (Pos.to_nat e) -> forall n, u n = false.
Proof.
  intros Hin H HP n. pose proof (proj1 (forallb_forall _ _) certs_ok _ Hin) as C. unfold cert_ok in C. apply andb_true_iff in C. destruct C as [_ C].
  assert (L : length (padd (xpow e) one80) = 80) by (rewrite padd_length, xpow_length; reflexivity).
  apply combine_eq in C; [|rewrite mulm_length by exact L; reflexivity].
  rewrite <- (act_one u n), <- C. rewrite act_mulm by assumption. rewrite (act_ext _ _ (fun _ => false)).
  - clear. generalize (bits80 v) as g. intros g. revert n. induction g as [|b g IH]; intros n; [reflexivity|]. cbn [act]. rewrite IH, andb_false_r. reflexivity.
  - intros m. rewrite act_padd, act_one, act_xpow by exact H. rewrite HP. apply xorb_nilpotent.
Qed.

Lemma small_prime n k : small_check k n = true -> (Z.of_nat k <= 2 ^ 20)%Z -> prime n.
Proof. intros H K. exact (small_check_ok k n K H). Qed.
Lemma certs_prime q e v : In (q, e, v) certs -> prime q.
Proof.
  assert (A : forallb (fun c : Z * positive * N => let '(q, _, _) := c in small_check (Z.to_nat 65500) q) certs = true) by (vm_cast_no_check (eq_refl true)).
  intros H. pose proof (proj1 (forallb_forall _ _) A _ H) as C. apply (small_prime q _ C). rewrite Z2Nat.id; lia.
Qed.
Lemma PP_factors : (Zpos PP = 3 * (5 * (5 * (11 * (17 * (31 * (41 * (257 * (61681 * 4278255361)))))))))%Z.
Proof. reflexivity. Qed.
Lemma prime_of_PP q : prime q -> (q | Zpos PP)%Z -> exists e v, In (q, e, v) certs.
Proof.
  intros Hq D. rewrite PP_factors in D.
  assert (G : forall r e v, In (r, e, v) certs -> (q | r)%Z -> exists e v, In (q, e, v) certs).
  { intros r e v Hin Dr. pose proof (prime_div_prime _ _ Hq (certs_prime _ _ _ Hin) Dr) as ->. exists e, v. exact Hin. }
  repeat (apply prime_mult in D; [destruct D as [D|D]; [eapply G; [|exact D]; unfold certs; cbn [In]; auto 12|]|exact Hq]).
  eapply G; [|exact D]; unfold certs; cbn [In]; auto 12.
Qed.

(** the period is exactly 2^80 - 1 *)
Theorem period_exact u a : lfsr u -> 0 < a < Pos.to_nat PP -> per u a -> forall n, u n = false.
Proof.
  intros H Ha HP. set (d := Nat.gcd a (Pos.to_nat PP)).
  assert (Hd : per u d) by (apply per_gcd; [lia|exact HP|apply per_PP, H]).
  assert (D0 : d <> 0) by (intros E; apply Nat.gcd_eq_0_l in E; lia).
  destruct (Nat.gcd_divide_l a (Pos.to_nat PP)) as [ka Ka]. destruct (Nat.gcd_divide_r a (Pos.to_nat PP)) as [kp Kp]. fold d in Ka, Kp.
  assert (K1 : 1 < kp). { destruct kp as [|[|kp]]; [lia| |lia]. destruct ka; lia. }
  destruct (prime_divisor (Z.of_nat kp) ltac:(lia)) as [q [Hq [c Ec]]].
  assert (EP : (Zpos PP = Z.of_nat kp * Z.of_nat d)%Z) by (rewrite <- Nat2Z.inj_mul, <- Kp, positive_nat_Z; reflexivity).
  destruct (prime_of_PP q Hq) as (e & v & Hin). { exists (c * Z.of_nat d)%Z. rewrite EP, Ec. ring. }
  apply (cert_zero u q e v Hin H).
  pose proof (proj1 (forallb_forall _ _) certs_ok _ Hin) as C. unfold cert_ok in C. apply andb_true_iff in C. destruct C as [C _]. apply Z.eqb_eq in C.
  pose proof (prime_ge_2 q Hq) as Q2.
  assert (E : (Zpos e = c * Z.of_nat d)%Z) by (apply (Z.mul_reg_l _ _ q); [lia|]; rewrite <- C, EP, Ec; ring).
  assert (c0 : (0 <= c)%Z) by nia.
  replace (Pos.to_nat e) with (Z.to_nat c * d) by (apply Nat2Z.inj; rewrite positive_nat_Z, Nat2Z.inj_mul, Z2Nat.id by exact c0; symmetry; exact E).
  apply per_mul, Hd.
Qed.
