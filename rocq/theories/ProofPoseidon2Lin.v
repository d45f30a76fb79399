(** * ProofPoseidon2Lin: invertibility of the Poseidon2 matrices, bijectivity *)
From Verif Require Import Base Field Spec FieldPow LinAlg LoopLemmas Bij ModelUtils ModelPoseidon2
  SpecPoseidon2 ProofPoseidon2.

(** ** Small numbers in a field *)
Section Fnat.
  Context {F : Type} {Fo : FOps F} (HF : is_field Fo).
  Add Ring FringFn : (ff_ring _ HF).

  Lemma fnat_S n : fnat (S n) = fadd (fnat n) (f1 : F).
  Proof. reflexivity. Qed.
  Lemma fnat_add n m : fnat (n + m) = fadd (fnat n) (fnat m : F).
  Proof. unfold fnat. apply (sumn_split HF). Qed.
  Lemma fnat_mul n m : fnat (n * m) = fmul (fnat n) (fnat m : F).
  Proof.
    induction n as [|n IH]; [change (f0 = fmul f0 (fnat m : F)); ring|].
    replace (S n * m) with (m + n * m) by lia. rewrite fnat_add, fnat_S, IH. ring.
  Qed.
  Lemma fnat_mul_neq n m : fnat n <> (f0 : F) -> fnat m <> (f0 : F) -> fnat (n * m) <> (f0 : F).
  Proof. intros. rewrite fnat_mul. apply (fmul_neq_0 HF); assumption. Qed.
End Fnat.

Lemma fnat_Z {F} {Fo : FOps F} {p} (HP : is_prime_field Fo p) n : fnat n = (f_of_Z (Z.of_nat n) : F).
Proof.
  induction n as [|n IH]; [symmetry; apply (f_of_Z_0 HP)|].
  rewrite fnat_S, IH, Nat2Z.inj_succ, <- Z.add_1_r, (f_of_Z_add HP), (f_of_Z_1 HP). reflexivity.
Qed.

Lemma fnat_eq_0 {F} {Fo : FOps F} {p} (HP : is_prime_field Fo p) n :
  fnat n = (f0 : F) <-> (p | Z.of_nat n)%Z.
Proof. rewrite (fnat_Z HP). apply (f_of_Z_eq_0 HP). Qed.

Section Ext.
  Context {F : Type} {Fo : FOps F} (HF : is_field Fo).
  Add Ring FringExt : (ff_ring _ HF).
  Ltac fn := unfold fnat; cbn [sumn].

  Lemma M4_nonsingular : fnat 2 <> (f0 : F) -> nonsingular 4 M4.
  Proof.
    intros H2 x H.
    assert (H64 : fnat 64 <> (f0 : F)).
    { change 64 with (2 * (2 * (2 * (2 * (2 * 2))))). repeat (apply (fnat_mul_neq HF); [exact H2|]). exact H2. }
    pose proof (H 0 ltac:(lia)) as E0. pose proof (H 1 ltac:(lia)) as E1.
    pose proof (H 2 ltac:(lia)) as E2. pose proof (H 3 ltac:(lia)) as E3. clear H.
    unfold M4 in *. cbn [sumn nth] in *.
    set (r0 := fadd _ _) in E0. set (r1 := fadd _ _) in E1. set (r2 := fadd _ _) in E2. set (r3 := fadd _ _) in E3.
    assert (X : forall a b c d e, fmul (fnat 64) e = fadd (fadd (fadd (fmul a r0) (fmul b r1)) (fmul c r2)) (fmul d r3) ->
                e = f0).
    { intros a b c d e He. rewrite E0, E1, E2, E3 in He.
      assert (Hz : fmul _ e = f0) by (etransitivity; [exact He|ring]).
      destruct (fmul_integral HF _ _ Hz); [contradiction|assumption]. }
    intros j Hj. destruct j as [|[|[|[|]]]]; [| | | |lia].
    - apply (X (fopp (fnat 8)) (fnat 24) (fopp (fnat 48)) (fnat 56)). unfold r0, r1, r2, r3. fn. ring.
    - apply (X (fnat 8) (fopp (fnat 8)) (fnat 32) (fopp (fnat 40))). unfold r0, r1, r2, r3. fn. ring.
    - apply (X (fopp (fnat 48)) (fnat 56) (fopp (fnat 8)) (fnat 24)). unfold r0, r1, r2, r3. fn. ring.
    - apply (X (fnat 32) (fopp (fnat 40)) (fnat 8) (fopp (fnat 8))). unfold r0, r1, r2, r3. fn. ring.
  Qed.

  Lemma nonsingular_ext n (A B : mat) : mat_eq n A B -> nonsingular n A -> nonsingular n B.
  Proof.
    intros E H x Hx. apply H. intros i Hi. rewrite <- (Hx i Hi). apply sumn_ext. intros j Hj.
    rewrite E by assumption. reflexivity.
  Qed.

  Lemma ext_big_nonsingular k : 2 <= k -> fnat 2 <> (f0 : F) -> fnat (S k) <> (f0 : F) ->
    nonsingular (4 * k) (ext_matrix (4 * k)).
  Proof.
    intros Hk H2 Hk1 x H.
    set (u := fun g r => sumn 4 (fun c => fmul (M4 r c) (x (4 * g + c)))).
    assert (E1 : 4 * k <? 4 = false) by (apply Nat.ltb_ge; lia).
    assert (E2 : 4 * k =? 4 = false) by (apply Nat.eqb_neq; lia).
    set (S := fun r => sumn k (fun g => u g r)).
    assert (Hrow : forall a r, a < k -> r < 4 -> fadd (u a r) (S r) = f0).
    { intros a r Ha Hr. pose proof (H (4 * a + r) ltac:(lia)) as E. etransitivity; [|exact E].
      rewrite (sumn_blocks HF). symmetry.
      assert (Ed : (4 * a + r) / 4 = a) by (apply div4; lia).
      assert (Em : (4 * a + r) mod 4 = r) by (apply mod4; lia).
      etransitivity; [apply (sumn_ext k _ (fun g => fadd (fmul (if a =? g then f1 else f0) (u g r)) (u g r)))|].
      - intros g Hg. unfold u.
        etransitivity; [apply (sumn_ext 4 _ (fun c => fmul (fnat (if a =? g then 2 else 1))
                           (fmul (M4 r c) (x (4 * g + c)))))|].
        + intros c Hc. unfold ext_matrix. rewrite E1, E2, Ed, Em.
          assert (Ed' : (4 * g + c) / 4 = g) by (apply div4; lia).
          assert (Em' : (4 * g + c) mod 4 = c) by (apply mod4; lia).
          rewrite Ed', Em'. ring.
        + rewrite (sumn_mul_l HF). destruct (a =? g); fn; ring.
      - rewrite (sumn_add HF), (sumn_delta HF k a (fun g => u g r)) by exact Ha. reflexivity. }
    assert (HS : forall r, r < 4 -> S r = f0).
    { intros r Hr.
      assert (Hz : fmul (fnat (Datatypes.S k)) (S r) = f0).
      { transitivity (sumn k (fun a => fadd (u a r) (S r))).
        - rewrite (sumn_add HF). fold (S r).
          rewrite (sumn_ext k (fun _ => S r) (fun _ => fmul (S r) f1)) by (intros; ring).
          rewrite (sumn_mul_l HF). fold (@fnat F Fo k). rewrite fnat_S. ring.
        - apply (sumn_zero HF). intros a Ha. apply Hrow; assumption. }
      destruct (fmul_integral HF _ _ Hz); [contradiction|assumption]. }
    intros j Hj. pose proof (Nat.div_mod j 4 ltac:(lia)) as Dj.
    pose proof (Nat.mod_upper_bound j 4 ltac:(lia)) as Mj.
    assert (Hjd : j / 4 < k) by (apply Nat.div_lt_upper_bound; lia).
    rewrite Dj. apply (M4_nonsingular H2 (fun c => x (4 * (j / 4) + c))); [|exact Mj].
    intros r Hr. fold (u (j / 4) r).
    pose proof (Hrow (j / 4) r Hjd Hr) as E. rewrite (HS r Hr) in E. etransitivity; [|exact E]. ring.
  Qed.

  Lemma ext2_nonsingular : fnat 3 <> (f0 : F) -> nonsingular 2 (ext_matrix 2).
  Proof.
    intros H3 x H. pose proof (H 0 ltac:(lia)) as E0. pose proof (H 1 ltac:(lia)) as E1. clear H.
    unfold ext_matrix in *. cbn [sumn Nat.ltb Nat.leb Nat.eqb] in *.
    set (r0 := fadd _ _) in E0. set (r1 := fadd _ _) in E1.
    assert (X : forall a b e, fmul (fnat 3) e = fadd (fmul a r0) (fmul b r1) -> e = f0).
    { intros a b e He. rewrite E0, E1 in He.
      assert (Hz : fmul _ e = f0) by (etransitivity; [exact He|ring]).
      destruct (fmul_integral HF _ _ Hz); [contradiction|assumption]. }
    intros j Hj. destruct j as [|[|]]; [| |lia].
    - apply (X (fnat 2) (fopp f1)). unfold r0, r1. fn. ring.
    - apply (X (fopp f1) (fnat 2)). unfold r0, r1. fn. ring.
  Qed.

  Lemma ext3_nonsingular : fnat 2 <> (f0 : F) -> nonsingular 3 (ext_matrix 3).
  Proof.
    intros H2 x H. pose proof (H 0 ltac:(lia)) as E0. pose proof (H 1 ltac:(lia)) as E1.
    pose proof (H 2 ltac:(lia)) as E2. clear H.
    assert (H4 : fnat 4 <> (f0 : F)) by (apply (fnat_mul_neq HF 2 2); assumption).
    unfold ext_matrix in *. cbn [sumn Nat.ltb Nat.leb Nat.eqb] in *.
    set (r0 := fadd _ _) in E0. set (r1 := fadd _ _) in E1. set (r2 := fadd _ _) in E2.
    assert (X : forall a b c e, fmul (fnat 4) e = fadd (fadd (fmul a r0) (fmul b r1)) (fmul c r2) -> e = f0).
    { intros a b c e He. rewrite E0, E1, E2 in He.
      assert (Hz : fmul _ e = f0) by (etransitivity; [exact He|ring]).
      destruct (fmul_integral HF _ _ Hz); [contradiction|assumption]. }
    intros j Hj. destruct j as [|[|[|]]]; [| | |lia].
    - apply (X (fnat 3) (fopp f1) (fopp f1)). unfold r0, r1, r2. fn. ring.
    - apply (X (fopp f1) (fnat 3) (fopp f1)). unfold r0, r1, r2. fn. ring.
    - apply (X (fopp f1) (fopp f1) (fnat 3)). unfold r0, r1, r2. fn. ring.
  Qed.

  (** a row sum that vanishes: the all-ones vector is in the kernel *)
  Lemma ones_kernel n A : 0 < n -> (forall i, i < n -> sumn n (fun j => A i j) = f0) -> ~ nonsingular n A.
  Proof.
    intros Hn H HN. apply (ff_one_neq_zero _ HF). apply (HN (fun _ => f1)) with (j := 0); [|exact Hn].
    intros i Hi. rewrite <- (H i Hi). apply sumn_ext. intros; ring.
  Qed.
End Ext.

Section ExtIff.
  Context {F : Type} {Fo : FOps F} {p : Z} (HP : is_prime_field Fo p).
  Let HF : is_field Fo := prime_field_is_field HP.
  Add Ring FringEI : (ff_ring _ HF).

  Lemma fnat2_neq : p <> 2%Z -> fnat 2 <> (f0 : F).
  Proof.
    intros Hn E. apply (fnat_eq_0 HP) in E. apply Hn. pose proof (pf_prime _ _ HP) as Hp.
    apply prime_div_prime in E; [exact E|exact Hp|exact prime_2].
  Qed.
  Lemma fnat3_neq : p <> 3%Z -> fnat 3 <> (f0 : F).
  Proof.
    intros Hn E. apply (fnat_eq_0 HP) in E. apply Hn. pose proof (pf_prime _ _ HP) as Hp.
    apply prime_div_prime in E; [exact E|exact Hp|exact prime_3].
  Qed.

  Lemma small_prime n : (2 <= n < 25)%Z -> (forall k, (2 <= k < 5)%Z -> (n mod k <> 0)%Z) -> prime n.
  Proof.
    intros Hn H. apply prime_alt. split; [lia|]. intros d Hd [c E].
    destruct (Z_lt_ge_dec d 5) as [L|L].
    - apply (H d); [lia|]. rewrite E. apply Z.mod_mul. lia.
    - assert (2 <= c < 5)%Z by nia. apply (H c); [lia|]. rewrite E, Z.mul_comm. apply Z.mod_mul. lia.
  Qed.
  Lemma prime5 : prime 5.
  Proof. apply small_prime; [lia|]. intros k Hk. assert (k = 2 \/ k = 3 \/ k = 4)%Z as [->|[->| ->]] by lia; discriminate. Qed.
  Lemma prime7 : prime 7.
  Proof. apply small_prime; [lia|]. intros k Hk. assert (k = 2 \/ k = 3 \/ k = 4)%Z as [->|[->| ->]] by lia; discriminate. Qed.

  Lemma fnat_prime_neq q : prime (Z.of_nat q) -> p <> Z.of_nat q -> fnat q <> (f0 : F).
  Proof.
    intros Hq Hn E. apply (fnat_eq_0 HP) in E. apply Hn.
    apply prime_div_prime in E; [exact E|apply (pf_prime _ _ HP)|exact Hq].
  Qed.

  Lemma fnat_self q : p = Z.of_nat q -> fnat q = (f0 : F).
  Proof. intros ->. apply (fnat_eq_0 HP). apply Z.divide_refl. Qed.

  Lemma ext_nonsingular t : p2_width t -> ~ In p (ext_bad_primes t) -> nonsingular t (ext_matrix t).
  Proof.
    intros Hw Hn. unfold p2_width in Hw.
    assert (N2 : p <> 2%Z -> fnat 2 <> (f0 : F)) by apply fnat2_neq.
    assert (N3 : p <> 3%Z -> fnat 3 <> (f0 : F)) by apply fnat3_neq.
    assert (N5 : p <> 5%Z -> fnat 5 <> (f0 : F)) by (apply (fnat_prime_neq 5); exact prime5).
    assert (N7 : p <> 7%Z -> fnat 7 <> (f0 : F)) by (apply (fnat_prime_neq 7); exact prime7).
    repeat (destruct Hw as [<-|Hw]; [|]); try contradiction; cbn [ext_bad_primes In] in Hn.
    - apply (ext2_nonsingular HF). intuition.
    - apply (ext3_nonsingular HF). intuition.
    - eapply nonsingular_ext; [|apply (M4_nonsingular HF); intuition]. intros i j _ _. reflexivity.
    - apply (ext_big_nonsingular HF 2); [lia|intuition|intuition].
    - apply (ext_big_nonsingular HF 3); [lia|intuition|apply (fnat_mul_neq HF 2 2); intuition].
    - apply (ext_big_nonsingular HF 4); [lia|intuition|intuition].
    - apply (ext_big_nonsingular HF 5); [lia|intuition|apply (fnat_mul_neq HF 2 3); intuition].
    - apply (ext_big_nonsingular HF 6); [lia|intuition|intuition].
  Qed.

  Ltac fnin H := unfold fnat in H; cbn [sumn] in H.

  Lemma ext_singular t : p2_width t -> In p (ext_bad_primes t) -> ~ nonsingular t (ext_matrix t).
  Proof.
    intros Hw Hin. unfold p2_width in Hw.
    assert (Row : forall t c, (forall i, i < t -> exists m, sumn t (fun j => ext_matrix t i j) = fmul m (fnat c : F)) ->
               fnat c = (f0 : F) -> 0 < t -> ~ nonsingular t (@ext_matrix F Fo t)).
    { intros t0 c Hc Ec Ht. apply (ones_kernel HF); [exact Ht|]. intros i Hi.
      destruct (Hc i Hi) as [m ->]. rewrite Ec. ring. }
    repeat (destruct Hw as [<-|Hw]; [|]); try contradiction; cbn [ext_bad_primes In] in Hin.
    - apply (Row 2 3); [|apply fnat_self; intuition|lia]. intros i Hi. exists f1.
      destruct i as [|[|]]; [| |lia]; cbn; ring.
    - apply (Row 3 2); [|apply fnat_self; intuition|lia]. intros i Hi. exists (fnat 2).
      destruct i as [|[|[|]]]; [| | |lia]; cbn; ring.
    - apply (Row 4 2); [|apply fnat_self; intuition|lia]. intros i Hi. exists (fnat (if i mod 2 =? 0 then 8 else 6)).
      destruct i as [|[|[|[|]]]]; [| | | |lia]; cbn; ring.
    - destruct Hin as [Hin|[Hin|[]]].
      + apply (Row 8 2); [|apply fnat_self; auto|lia]. intros i Hi. exists (fnat (if i mod 2 =? 0 then 24 else 18)).
        do 8 (destruct i as [|i]; [cbn; ring|]). lia.
      + apply (Row 8 3); [|apply fnat_self; auto|lia]. intros i Hi. exists (fnat (if i mod 2 =? 0 then 16 else 12)).
        do 8 (destruct i as [|i]; [cbn; ring|]). lia.
    - destruct Hin as [Hin|[]].
      apply (Row 12 2); [|apply fnat_self; auto|lia]. intros i Hi. exists (fnat (if i mod 2 =? 0 then 32 else 24)).
      do 12 (destruct i as [|i]; [cbn; ring|]). lia.
    - destruct Hin as [Hin|[Hin|[]]].
      + apply (Row 16 2); [|apply fnat_self; auto|lia]. intros i Hi. exists (fnat (if i mod 2 =? 0 then 40 else 30)).
        do 16 (destruct i as [|i]; [cbn; ring|]). lia.
      + apply (Row 16 5); [|apply fnat_self; auto|lia]. intros i Hi. exists (fnat (if i mod 2 =? 0 then 16 else 12)).
        do 16 (destruct i as [|i]; [cbn; ring|]). lia.
    - destruct Hin as [Hin|[Hin|[]]].
      + apply (Row 20 2); [|apply fnat_self; auto|lia]. intros i Hi. exists (fnat (if i mod 2 =? 0 then 48 else 36)).
        do 20 (destruct i as [|i]; [cbn; ring|]). lia.
      + apply (Row 20 3); [|apply fnat_self; auto|lia]. intros i Hi. exists (fnat (if i mod 2 =? 0 then 32 else 24)).
        do 20 (destruct i as [|i]; [cbn; ring|]). lia.
    - destruct Hin as [Hin|[Hin|[]]].
      + apply (Row 24 2); [|apply fnat_self; auto|lia]. intros i Hi. exists (fnat (if i mod 2 =? 0 then 56 else 42)).
        do 24 (destruct i as [|i]; [cbn; ring|]). lia.
      + apply (Row 24 7); [|apply fnat_self; auto|lia]. intros i Hi. exists (fnat (if i mod 2 =? 0 then 16 else 12)).
        do 24 (destruct i as [|i]; [cbn; ring|]). lia.
  Qed.

  Theorem ext_invertible_iff t : p2_width t ->
    (invertible t (ext_matrix t) <-> ~ In p (ext_bad_primes t)).
  Proof.
    intros Hw. split.
    - intros Hi Hin. apply (ext_singular t Hw Hin). apply (invertible_nonsingular HF). exact Hi.
    - intros Hn. apply (nonsingular_invertible HF). apply ext_nonsingular; assumption.
  Qed.
End ExtIff.
