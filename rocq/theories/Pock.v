(** * Pock: primality and primitive roots by Pocklington's criterion, with a computed certificate *)
From Coq Require Import Uint63 Zpow_facts Bool.
From Verif Require Import Base Field Spec FieldPow Fp ZField.
Local Open Scope Z_scope.

(** ** Arithmetic *)
Lemma prime_divisor_aux (k : nat) : forall n, 1 < n < Z.of_nat k -> exists r, prime r /\ (r | n).
Proof.
  induction k as [|k IH]; intros n Hn; [lia|].
  destruct (prime_dec n) as [P|NP].
  - exists n. split; [exact P|apply Z.divide_refl].
  - destruct (not_prime_divide n ltac:(lia) NP) as [m [Hm Hd]].
    destruct (IH m ltac:(lia)) as [r [Hr Hrm]]. exists r. split; [exact Hr|].
    eapply Z.divide_trans; eassumption.
Qed.
Lemma prime_divisor n : 1 < n -> exists r, prime r /\ (r | n).
Proof. intros Hn. apply (prime_divisor_aux (Z.to_nat (n + 1))). lia. Qed.

(** if every prime divisor of n exceeds its square root, n is prime *)
Lemma prime_of_large_divisors n b :
  1 < n -> 0 <= b -> n < b * b -> (forall r, prime r -> (r | n) -> b < r) -> prime n.
Proof.
  intros Hn Hb Hsq Hr. destruct (prime_dec n) as [P|NP]; [exact P|exfalso].
  destruct (not_prime_divide n Hn NP) as [m [Hm [k E]]].
  assert (Hk : 1 < k) by nia.
  destruct (prime_divisor m ltac:(lia)) as [r [Pr Dr]].
  destruct (prime_divisor k Hk) as [s [Ps Ds]].
  assert (Hbr : b < r) by (apply Hr; [exact Pr|]; rewrite E; apply Z.divide_mul_r; exact Dr).
  assert (Hbs : b < s) by (apply Hr; [exact Ps|]; rewrite E; apply Z.divide_mul_l; exact Ds).
  assert (r <= m) by (apply Z.divide_pos_le; [lia|exact Dr]). assert (s <= k) by (apply Z.divide_pos_le; [lia|exact Ds]). nia.
Qed.

Lemma rel_prime_divide_mul a b n : rel_prime a b -> (a | n) -> (b | n) -> (a * b | n).
Proof.
  intros Hr Ha [k E]. subst n. rewrite Z.mul_comm in Ha.
  destruct (Gauss _ _ _ Ha Hr) as [j Ej]. exists j. rewrite Ej. ring.
Qed.

Lemma primes_rel_prime q r : prime q -> prime r -> q <> r -> rel_prime q r.
Proof.
  intros Hq Hr Hn. apply prime_rel_prime; [exact Hq|]. intros D. apply Hn. apply prime_div_prime; assumption.
Qed.


Lemma not_one r x u : 1 < r -> ((x - 1) * u) mod r = 1 -> x mod r <> 1 mod r.
Proof.
  intros Hr H C. assert (E : (x - 1) mod r = 0).
  { rewrite Zminus_mod, C, <- Zminus_mod. change (1 - 1) with 0. apply Z.mod_0_l. lia. }
  rewrite Z.mul_mod, E, Z.mul_0_l, Z.mod_0_l in H by lia. discriminate.
Qed.

(** ** The criterion *)
Record pitem := PI { iq : Z; iv : Z; ie : positive; iu : Z }.
Definition prodq (l : list pitem) : Z := fold_right (fun it acc => iq it ^ iv it * acc) 1 l.
Fixpoint increasing (b : Z) (l : list pitem) : bool :=
  match l with
  | [] => true
  | it :: l' => (b <? iq it) && increasing (iq it) l'
  end.

Record pock_facts (N a c : Z) (l : list pitem) : Prop := {
  pk_N : 1 < N;
  pk_a : a ^ (N - 1) mod N = 1;
  pk_items : forall it, In it l -> iq it * Zpos (ie it) = N - 1 /\ 0 < iv it /\
               ((a ^ Zpos (ie it) - 1) * iu it) mod N = 1;
  pk_prod : prodq l * c = N - 1;
  pk_incr : increasing 0 l = true;
  pk_sq : N < prodq l * prodq l
}.

Lemma increasing_lt l : forall b, increasing b l = true -> forall it, In it l -> b < iq it.
Proof.
  induction l as [|x l IH]; intros b H it Hin; [destruct Hin|].
  cbn in H. apply andb_true_iff in H. destruct H as [A B]. apply Z.ltb_lt in A.
  destruct Hin as [<-|Hin]; [exact A|]. specialize (IH _ B _ Hin). lia.
Qed.

Lemma prodq_divide l m b :
  increasing b l = true -> (forall it, In it l -> prime (iq it) /\ 0 < iv it /\ (iq it ^ iv it | m)) ->
  (prodq l | m).
Proof.
  revert b; induction l as [|x l IH]; intros b Hi H; [apply Z.divide_1_l|].
  cbn in Hi. apply andb_true_iff in Hi. destruct Hi as [_ Hi].
  cbn [prodq fold_right]. fold (prodq l). apply rel_prime_divide_mul.
  - assert (Hlt : forall it, In it l -> iq x < iq it) by (apply increasing_lt; exact Hi).
    destruct (H x (or_introl eq_refl)) as [Px [Vx _]].
    assert (Hl : forall it, In it l -> prime (iq it) /\ 0 < iv it) by (intros it Hit; destruct (H it (or_intror Hit)) as [? [? _]]; split; assumption).
    clear -Px Vx Hlt Hl. induction l as [|y l IH]; cbn [prodq fold_right]; [apply rel_prime_sym, rel_prime_1|].
    apply rel_prime_mult.
    + destruct (Hl y (or_introl eq_refl)). apply rel_prime_Zpower; [lia|lia|].
      apply primes_rel_prime; [exact Px|assumption|]. specialize (Hlt y (or_introl eq_refl)). lia.
    + apply IH; intros it Hit; [apply Hlt|apply Hl]; right; exact Hit.
  - apply H. left; reflexivity.
  - apply (IH _ Hi). intros it Hit. apply H. right; exact Hit.
Qed.

Lemma prodq_item l it : In it l -> (forall x, In x l -> 0 < iv x) -> (iq it ^ iv it | prodq l).
Proof.
  induction l as [|x l IH]; intros Hin Hv; [destruct Hin|]. cbn [prodq fold_right]. fold (prodq l).
  destruct Hin as [<-|Hin]; [apply Z.divide_factor_l|].
  apply Z.divide_mul_r. apply IH; [exact Hin|]. intros y Hy. apply Hv. right; exact Hy.
Qed.

Section Criterion.
  Variables N a c : Z.
  Variable l : list pitem.
  Hypothesis HC : pock_facts N a c l.
  Hypothesis Hq : forall it, In it l -> prime (iq it).

  (** a to a proper quotient of N-1 is not one modulo a divisor of N *)
  Lemma mod_divisor r x : 1 < r -> (r | N) -> x mod N = 1 -> x mod r = 1.
  Proof.
    intros Hr [k E] Hx. pose proof (pk_N _ _ _ _ HC).
    rewrite (Z.div_mod x N), Hx, E by lia.
    replace (k * r * (x / (k * r)) + 1) with (1 + (k * (x / (k * r))) * r) by ring.
    rewrite Z_mod_plus_full. apply Z.mod_small. lia.
  Qed.

  Lemma divisor_item r it : prime r -> (r | N) -> In it l -> (iq it ^ iv it | r - 1).
  Proof.
    intros Pr Dr Hit. pose proof (prime_ge_2 _ Pr) as R2. pose proof (pk_N _ _ _ _ HC) as HN.
    destruct (pk_items _ _ _ _ HC it Hit) as [Ee [Hv Hu]].
    pose proof (zp_field r Pr) as HP. pose proof (prime_field_is_field HP) as HF.
    set (x := @f_of_Z _ (zp_ops r Pr) a).
    assert (Ex : fpow (Fo := zp_ops r Pr) x (Z.to_nat (N - 1)) = @f1 _ (zp_ops r Pr)).
    { unfold x. rewrite (fpow_of_Z HP). rewrite Z2Nat.id by lia.
      rewrite <- (f_of_Z_1 HP). apply (f_of_Z_eq_iff HP).
      rewrite (mod_divisor r _ ltac:(lia) Dr (pk_a _ _ _ _ HC)). symmetry. apply Z.mod_small. lia. }
    assert (Ey : fpow (Fo := zp_ops r Pr) x (Pos.to_nat (ie it)) <> @f1 _ (zp_ops r Pr)).
    { unfold x. rewrite (fpow_of_Z HP). rewrite positive_nat_Z.
      rewrite <- (f_of_Z_1 HP). intros C. apply (f_of_Z_eq_iff HP) in C.
      pose proof (mod_divisor r _ ltac:(lia) Dr Hu) as Hu'.
      revert C. apply not_one with (iu it); [lia|exact Hu']. }
    assert (Hx0 : x <> @f0 _ (zp_ops r Pr)).
    { intros C. rewrite C in Ex. rewrite (fpow_0 HF) in Ex by lia.
      apply (ff_one_neq_zero _ HF). symmetry. exact Ex. }
    pose proof (@fermat _ _ _ HP x Hx0) as Fer.
    assert (Eg : fpow (Fo := zp_ops r Pr) x (Nat.gcd (Z.to_nat (N - 1)) (Z.to_nat (r - 1))) = @f1 _ (zp_ops r Pr)).
    { apply (fpow_gcd HF); [lia|exact Ex|exact Fer]. }
    set (g := Nat.gcd (Z.to_nat (N - 1)) (Z.to_nat (r - 1))) in *.
    destruct (Nat.gcd_divide_l (Z.to_nat (N - 1)) (Z.to_nat (r - 1))) as [h Eh]. fold g in Eh.
    destruct (Nat.gcd_divide_r (Z.to_nat (N - 1)) (Z.to_nat (r - 1))) as [j Ej]. fold g in Ej.
    assert (EhZ : N - 1 = Z.of_nat h * Z.of_nat g) by lia.
    assert (EjZ : r - 1 = Z.of_nat j * Z.of_nat g) by lia.
    rewrite EjZ. apply Z.divide_mul_r.
    assert (Hrel : rel_prime (iq it ^ iv it) (Z.of_nat h)).
    { rewrite <- (Z.pow_1_r (Z.of_nat h)). apply rel_prime_Zpower; [lia|lia|].
      apply prime_rel_prime; [apply Hq, Hit|]. intros [h' Eh'].
      apply Ey. pose proof (prime_ge_2 _ (Hq it Hit)) as Q2.
      assert (0 <= h') by nia.
      assert (Ee' : Pos.to_nat (ie it) = (g * Z.to_nat h')%nat).
      { assert (Zpos (ie it) = Z.of_nat g * h') by nia.
        apply Nat2Z.inj. rewrite positive_nat_Z, Nat2Z.inj_mul, Z2Nat.id by lia. assumption. }
      rewrite Ee', (fpow_mul HF), Eg. apply (fpow_1 HF). }
    apply Gauss with (Z.of_nat h); [|exact Hrel].
    rewrite <- EhZ. rewrite <- (pk_prod _ _ _ _ HC). apply Z.divide_mul_l.
    apply prodq_item; [exact Hit|]. intros y Hy. apply (pk_items _ _ _ _ HC y Hy).
  Qed.

  Theorem pocklington : prime N.
  Proof.
    pose proof (pk_N _ _ _ _ HC). pose proof (pk_prod _ _ _ _ HC) as HPr.
    assert (0 < prodq l).
    { assert (forall l', (forall it, In it l' -> prime (iq it) /\ 0 < iv it) -> 0 < prodq l') as G.
      { induction l' as [|y l' IH]; intros Hl; cbn [prodq fold_right]; [lia|]. fold (prodq l').
        destruct (Hl y (or_introl eq_refl)) as [Py Vy]. pose proof (prime_ge_2 _ Py).
        pose proof (Z.pow_pos_nonneg (iq y) (iv y) ltac:(lia) ltac:(lia)).
        specialize (IH (fun it Hit => Hl it (or_intror Hit))). nia. }
      apply G. intros it Hit. split; [apply Hq, Hit|apply (pk_items _ _ _ _ HC it Hit)]. }
    apply prime_of_large_divisors with (prodq l); [lia|lia|apply (pk_sq _ _ _ _ HC)|].
    intros r Pr Dr. pose proof (prime_ge_2 _ Pr).
    assert (D : (prodq l | r - 1)).
    { apply (prodq_divide l (r - 1) 0 (pk_incr _ _ _ _ HC)). intros it Hit.
      split; [apply Hq, Hit|]; split; [apply (pk_items _ _ _ _ HC it Hit)|apply divisor_item; assumption]. }
    apply Z.divide_pos_le in D; lia.
  Qed.

  (** with the whole of N-1 factored, a is a primitive root *)
  Theorem primitive_root : c = 1 ->
    forall {F} {Fo : FOps F} (HP : is_prime_field Fo N) k,
      fpow (f_of_Z a) k = (f1 : F) <-> (N - 1 | Z.of_nat k).
  Proof.
    intros Hc F Fo HP k. pose proof (prime_field_is_field HP) as HF. pose proof (pk_N _ _ _ _ HC) as HN.
    assert (Ex : fpow (f_of_Z a) (Z.to_nat (N - 1)) = (f1 : F)).
    { rewrite (fpow_of_Z HP). rewrite Z2Nat.id by lia.
      rewrite <- (f_of_Z_1 HP). apply (f_of_Z_eq_iff HP).
      rewrite (pk_a _ _ _ _ HC). symmetry. apply Z.mod_small. lia. }
    split.
    - intros Ek.
      assert (Eg : fpow (f_of_Z a) (Nat.gcd (Z.to_nat (N - 1)) k) = (f1 : F)) by (apply (fpow_gcd HF); [lia|exact Ex|exact Ek]).
      set (g := Nat.gcd (Z.to_nat (N - 1)) k) in *.
      destruct (Nat.gcd_divide_l (Z.to_nat (N - 1)) k) as [h Eh]. fold g in Eh.
      destruct (Nat.gcd_divide_r (Z.to_nat (N - 1)) k) as [j Ej]. fold g in Ej.
      assert (EhZ : N - 1 = Z.of_nat h * Z.of_nat g) by lia.
      destruct (Nat.eq_dec h 1) as [->|Hh1].
      { exists (Z.of_nat j). rewrite Ej. lia. }
      exfalso. destruct (prime_divisor (Z.of_nat h)) as [s [Ps Ds]]; [nia|].
      assert (Hs : exists it, In it l /\ iq it = s).
      { assert (D : (s | prodq l)).
        { replace (prodq l) with (N - 1) by (pose proof (pk_prod _ _ _ _ HC); subst c; lia).
          rewrite EhZ. apply Z.divide_mul_l, Ds. }
        pose proof Hq as Hq'. revert D Hq'. assert (V : forall it, In it l -> 0 < iv it) by (intros it Hit; apply (pk_items _ _ _ _ HC it Hit)). revert V.
        clear -Ps. induction l as [|y l' IH]; intros V D Hq'.
        - cbn in D. apply Z.divide_1_r_nonneg in D; pose proof (prime_ge_2 _ Ps); lia.
        - cbn [prodq fold_right] in D. fold (prodq l') in D. apply prime_mult in D; [|exact Ps].
          destruct D as [D|D].
          + exists y. split; [left; reflexivity|]. symmetry.
            apply (prime_power_prime s (iq y) (iv y)); [specialize (V y (or_introl eq_refl)); lia|exact Ps| |exact D].
            apply Hq'. left; reflexivity.
          + destruct IH as [it [Hit E]]; [intros; apply V; right; assumption|exact D|intros; apply Hq'; right; assumption|].
            exists it. split; [right; exact Hit|exact E]. }
      destruct Hs as [it [Hit Es]]. destruct (pk_items _ _ _ _ HC it Hit) as [Ee [Hv Hu]].
      assert (Ey : fpow (f_of_Z a) (Pos.to_nat (ie it)) <> (f1 : F)).
      { rewrite (fpow_of_Z HP). rewrite positive_nat_Z.
        rewrite <- (f_of_Z_1 HP). intros C. apply (f_of_Z_eq_iff HP) in C.
        revert C. apply not_one with (iu it); [lia|exact Hu]. }
      apply Ey. destruct Ds as [h' Eh']. pose proof (prime_ge_2 _ Ps).
      assert (0 <= h') by nia.
      assert (Ee' : Pos.to_nat (ie it) = (g * Z.to_nat h')%nat).
      { assert (Zpos (ie it) = Z.of_nat g * h') by nia.
        apply Nat2Z.inj. rewrite positive_nat_Z, Nat2Z.inj_mul, Z2Nat.id by lia. assumption. }
      rewrite Ee', (fpow_mul HF), Eg. apply (fpow_1 HF).
    - intros [m Em]. assert (0 <= m) by nia.
      replace k with (Z.to_nat (N - 1) * Z.to_nat m)%nat by nia.
      rewrite (fpow_mul HF), Ex. apply (fpow_1 HF).
  Qed.
End Criterion.

(** ** The computed check *)
Definition pock_check (P : mparams) (Hok : params_ok P = true) (N a c : Z) (l : list pitem) : bool :=
  let x := fp_of_Z P Hok a in
  let one := fp_one P Hok in
  (pz P =? N) && (prodq l * c =? N - 1) && increasing 0 l && (N <? prodq l * prodq l) &&
  fp_eqb P (fp_pow P Hok x (Z.to_pos (N - 1))) one &&
  forallb (fun it => (iq it * Zpos (ie it) =? N - 1) && (0 <? iv it) &&
     fp_eqb P (fp_mul P Hok (fp_sub P Hok (fp_pow P Hok x (ie it)) one) (fp_of_Z P Hok (iu it))) one) l.

Lemma pock_check_ok P Hok N a c l : pock_check P Hok N a c l = true -> pock_facts N a c l.
Proof.
  unfold pock_check. intros H. repeat (apply andb_true_iff in H; destruct H as [H ?Hb]).
  apply Z.eqb_eq in H. pose proof (p_gt_1 P Hok) as Hp. rewrite H in Hp.
  constructor.
  - exact Hp.
  - apply fp_eqb_spec, (f_equal (fp_to_Z P Hok)) in Hb0.
    rewrite fp_pow_to_Z, fp_to_of, fp_to_Z_one, Z2Pos.id, H in Hb0 by lia.
    rewrite <- Zpower_mod in Hb0 by lia. exact Hb0.
  - intros it Hit. rewrite forallb_forall in Hb. specialize (Hb it Hit).
    repeat (apply andb_true_iff in Hb; destruct Hb as [Hb ?Hc]).
    apply Z.eqb_eq in Hb. apply Z.ltb_lt in Hc0. split; [exact Hb|]. split; [exact Hc0|].
    apply fp_eqb_spec, (f_equal (fp_to_Z P Hok)) in Hc.
    rewrite fp_to_Z_mul, fp_to_Z_sub, fp_pow_to_Z, !fp_to_of, fp_to_Z_one, H in Hc.
    rewrite <- Zpower_mod in Hc by lia.
    rewrite Z.mul_mod, <- (Zminus_mod_idemp_l (a ^ _)) by lia. exact Hc.
  - apply Z.eqb_eq in Hb3. exact Hb3.
  - exact Hb2.
  - apply Z.ltb_lt in Hb1. exact Hb1.
Qed.

(** ** Small primes by trial division on machine integers *)
Fixpoint trial (fuel : nat) (n k : int) : bool :=
  match fuel with
  | O => false
  | S f => if (n <? k * k)%uint63 then true
           else if (n mod k =? 0)%uint63 then false else trial f n (k + 1)%uint63
  end.
Definition small_check (fuel : nat) (n : Z) : bool :=
  (1 <? n) && (n <? 2 ^ 40) && trial fuel (of_Z n) 2.

Lemma trial_ok fuel : forall n k,
  2 <= to_Z k < 2 ^ 21 -> to_Z k + Z.of_nat fuel < 2 ^ 21 -> trial fuel n k = true ->
  forall j, to_Z k <= j -> j * j <= to_Z n -> to_Z n mod j <> 0.
Proof.
  induction fuel as [|f IH]; intros n k Hk Hf H j Hj Hjj; [discriminate|].
  cbn [trial] in H. rewrite Nat2Z.inj_succ in Hf.
  assert (W : (wB = 2 ^ 63)%Z) by reflexivity.
  assert (Ekk : to_Z (k * k)%uint63 = to_Z k * to_Z k).
  { rewrite mul_spec. apply Z.mod_small. rewrite W. nia. }
  destruct (n <? k * k)%uint63 eqn:E1.
  - apply ltb_spec in E1. rewrite Ekk in E1. nia.
  - destruct (n mod k =? 0)%uint63 eqn:E2; [discriminate|].
    destruct (Z.eq_dec j (to_Z k)) as [->|Hne].
    + intros C. assert ((n mod k =? 0)%uint63 = true) as E3; [|congruence].
      apply eqb_correct_iff || apply Uint63.eqb_spec. apply to_Z_inj. rewrite mod_spec. exact C.
    + assert (Ek1 : to_Z (k + 1)%uint63 = to_Z k + 1).
      { rewrite add_spec. change (to_Z 1%uint63) with 1. apply Z.mod_small. rewrite W. lia. }
      apply (IH n (k + 1)%uint63); [lia|lia|exact H|lia|exact Hjj].
Qed.

Lemma small_check_ok fuel n : Z.of_nat fuel <= 2 ^ 20 -> small_check fuel n = true -> prime n.
Proof.
  unfold small_check. intros Hf H. repeat (apply andb_true_iff in H; destruct H as [H ?Hb]).
  apply Z.ltb_lt in H, Hb0.
  assert (E : to_Z (of_Z n) = n).
  { rewrite of_Z_spec. apply Z.mod_small. change wB with (2 ^ 63). lia. }
  destruct (prime_dec n) as [P|NP]; [exact P|exfalso].
  destruct (not_prime_divide n H NP) as [m [Hm [k Ek]]].
  pose proof (trial_ok fuel (of_Z n) 2%uint63 ltac:(change (to_Z 2%uint63) with 2; lia)
    ltac:(change (to_Z 2%uint63) with 2; lia) Hb) as T. rewrite E in T. change (to_Z 2%uint63) with 2 in T.
  assert (1 < k) by nia.
  destruct (Z_le_gt_dec m k).
  - apply (T m); [lia|nia|]. rewrite Ek. apply Z.mod_mul. lia.
  - apply (T k); [lia|nia|]. rewrite Ek, Z.mul_comm. apply Z.mod_mul. lia.
Qed.
