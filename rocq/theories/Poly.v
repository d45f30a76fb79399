(** * Poly: a polynomial with as many distinct roots as coefficients vanishes everywhere *)
From Verif Require Import Base Field Spec FieldPow.

Section Poly.
  Context {F : Type} {Fo : FOps F} (HF : is_field Fo).
  Add Ring FringPoly : (ff_ring _ HF).

  Fixpoint peval (c : list F) (x : F) : F :=
    match c with [] => f0 | a :: r => fadd a (fmul x (peval r x)) end.

  Fixpoint padd (a b : list F) : list F :=
    match a, b with
    | [], _ => b
    | _, [] => a
    | x :: a', y :: b' => fadd x y :: padd a' b'
    end.

  Lemma padd_eval a b x : peval (padd a b) x = fadd (peval a x) (peval b x).
  Proof.
    revert b; induction a as [|u a IH]; intros [|v b]; cbn [padd peval]; try ring. rewrite IH. ring.
  Qed.
  Lemma padd_length a b : length (padd a b) = Nat.max (length a) (length b).
  Proof. revert b; induction a as [|u a IH]; intros [|v b]; simpl; auto. Qed.

  Lemma pscale_eval k c x : peval (map (fmul k) c) x = fmul k (peval c x).
  Proof. induction c as [|a c IH]; cbn [map peval]; [ring|]. rewrite IH. ring. Qed.

  Lemma factor c a : exists q, length q = length c - 1 /\
    forall x, peval c x = fadd (peval c a) (fmul (fsub x a) (peval q x)).
  Proof.
    induction c as [|b c [q [Hl Hq]]].
    - exists []. split; [reflexivity|]. intros x. cbn. ring.
    - exists (padd c (map (fmul a) q)). split.
      + rewrite padd_length, map_length. simpl. lia.
      + intros x. rewrite padd_eval, pscale_eval. cbn [peval]. rewrite (Hq x). ring.
  Qed.

  Theorem roots_zero c : forall rs, NoDup rs -> length c <= length rs ->
    (forall r, In r rs -> peval c r = f0) -> forall x, peval c x = f0.
  Proof.
    remember (length c) as n eqn:Hn. revert c Hn.
    induction n as [|n IH]; intros c Hn rs Hnd Hlen Hr x.
    - destruct c; [reflexivity|discriminate].
    - destruct rs as [|r rs]; [simpl in Hlen; lia|].
      destruct (factor c r) as [q [Hl Hq]]. inversion Hnd as [|? ? Hnot Hnd']; subst.
      assert (Hc0 : peval c r = f0) by (apply Hr; left; reflexivity).
      assert (Hz : forall y, peval q y = f0).
      { apply (IH q ltac:(lia) rs Hnd'); [simpl in Hlen; lia|].
        intros s Hs. pose proof (Hr s (or_intror Hs)) as E. rewrite (Hq s), Hc0 in E.
        assert (E2 : fmul (fsub s r) (peval q s) = f0) by (etransitivity; [|exact E]; ring).
        destruct (fmul_integral HF _ _ E2) as [E3|E3]; [|exact E3].
        apply (fsub_eq_0 HF) in E3. subst. contradiction. }
      rewrite (Hq x), Hc0, Hz. ring.
  Qed.

  (** functions that are polynomials with at most n coefficients *)
  Definition is_poly (n : nat) (f : F -> F) : Prop :=
    exists c, length c <= n /\ forall x, f x = peval c x.

  Lemma is_poly_const a : is_poly 1 (fun _ => a).
  Proof. exists [a]. split; [auto|]. intros x. cbn. ring. Qed.
  Lemma is_poly_zero n : is_poly n (fun _ => f0).
  Proof. exists []. split; [simpl; lia|]. reflexivity. Qed.
  Lemma is_poly_add n f g : is_poly n f -> is_poly n g -> is_poly n (fun x => fadd (f x) (g x)).
  Proof.
    intros [c [Hc Ec]] [d [Hd Ed]]. exists (padd c d). split; [rewrite padd_length; lia|].
    intros x. rewrite padd_eval, Ec, Ed. reflexivity.
  Qed.
  Lemma is_poly_scale n k f : is_poly n f -> is_poly n (fun x => fmul k (f x)).
  Proof.
    intros [c [Hc Ec]]. exists (map (fmul k) c). split; [rewrite map_length; exact Hc|].
    intros x. rewrite pscale_eval, Ec. reflexivity.
  Qed.
  Lemma is_poly_lin n a f : is_poly n f -> is_poly (S n) (fun x => fmul (fadd x a) (f x)).
  Proof.
    intros [c [Hc Ec]]. exists (padd (f0 :: c) (map (fmul a) c)). split.
    - rewrite padd_length, map_length. cbn [length]; lia.
    - intros x. rewrite padd_eval, pscale_eval, Ec. cbn [peval]. ring.
  Qed.
  Lemma is_poly_ext n f g : is_poly n f -> (forall x, f x = g x) -> is_poly n g.
  Proof. intros [c [Hc Ec]] E. exists c. split; [exact Hc|]. intros x. rewrite <- E. apply Ec. Qed.
  Lemma is_poly_mono n m f : is_poly n f -> n <= m -> is_poly m f.
  Proof. intros [c [Hc Ec]] L. exists c. split; [lia|exact Ec]. Qed.
  Lemma is_poly_sumn n k (f : nat -> F -> F) : (forall i, i < k -> is_poly n (f i)) ->
    is_poly n (fun x => sumn k (fun i => f i x)).
  Proof.
    induction k as [|k IH]; intros H; [apply is_poly_zero|]. cbn [sumn].
    apply is_poly_add; [apply IH; intros; apply H; lia|apply H; lia].
  Qed.
  Lemma is_poly_pow n : is_poly (S n) (fun x => fpow x n).
  Proof.
    induction n as [|n IH]; [apply (is_poly_const f1)|]. cbn [fpow].
    eapply is_poly_ext; [apply (is_poly_lin _ f0 _ IH)|]. intros x. cbv beta. ring.
  Qed.

  Theorem poly_roots n f rs : is_poly n f -> NoDup rs -> n <= length rs ->
    (forall r, In r rs -> f r = f0) -> forall x, f x = f0.
  Proof.
    intros [c [Hc Ec]] Hnd Hl Hr x. rewrite Ec. apply (roots_zero c rs Hnd); [lia|].
    intros r Hin. rewrite <- Ec. apply Hr. exact Hin.
  Qed.
End Poly.

(** ** The power map is not injective when the exponent shares a factor with p - 1 *)
Section PowNotInj.
  Context {F : Type} {Fo : FOps F} {p : Z} (HP : is_prime_field Fo p).
  Let HF : is_field Fo := prime_field_is_field HP.
  Add Ring FringPNI : (ff_ring _ HF).

  Lemma exists_not_root n : 0 < n -> (Z.of_nat n < p - 1)%Z ->
    exists y : F, y <> f0 /\ fpow y n <> f1.
  Proof.
    intros Hn Hlt.
    assert (Hdec : forall x : F, {fpow x n = f1} + {fpow x n <> f1}) by (intros; apply (feq_dec HF)).
    destruct (Forall_Exists_dec (fun x => fpow x n = f1) Hdec (@units F Fo p)) as [All|Ex].
    - exfalso. rewrite Forall_forall in All.
      assert (Hp : is_poly (S n) (fun x => fsub (fpow x n) f1)).
      { eapply is_poly_ext.
        - apply (is_poly_add (Fo := Fo) HF (S n) _ (fun _ => fopp f1) (is_poly_pow HF n)).
          eapply is_poly_mono; [apply (is_poly_const HF)|lia].
        - intros x. cbv beta. ring. }
      assert (Hz : fsub (fpow f0 n) f1 = (f0 : F)).
      { apply (poly_roots HF (S n) (fun x => fsub (fpow x n) f1) (@units F Fo p) Hp).
        - apply (units_NoDup HP).
        - rewrite units_length. pose proof (pf_p_ge_2 HP). lia.
        - intros r Hr. rewrite (All r Hr). ring. }
      rewrite (fpow_0 HF) in Hz by lia. apply (ff_one_neq_zero _ HF).
      transitivity (fsub f0 (fsub (f0 : F) f1)); [ring|]. rewrite Hz. ring.
    - apply Exists_exists in Ex. destruct Ex as [y [Hy Hn1]]. exists y. split; [|exact Hn1].
      apply (units_In HP). exact Hy.
  Qed.

  Theorem pow_not_injective d : (Z.gcd (Z.of_nat d) (p - 1) <> 1)%Z -> (2 < p)%Z ->
    exists x : F, x <> f1 /\ fpow x d = f1.
  Proof.
    intros Hg Hp. set (g := Z.gcd (Z.of_nat d) (p - 1)) in *.
    assert (Hg0 : (0 <= g)%Z) by apply Z.gcd_nonneg.
    assert (Hgd : (g | Z.of_nat d)%Z) by apply Z.gcd_divide_l.
    assert (Hgp : (g | p - 1)%Z) by apply Z.gcd_divide_r.
    destruct Hgp as [m Em].
    assert (g <> 0)%Z by (intros E; rewrite E in Em; lia).
    assert (Hm : (0 < m)%Z) by nia.
    destruct (exists_not_root (Z.to_nat m)) as [y [Hy0 Hy]]; [lia|nia|].
    exists (fpow y (Z.to_nat m)). split; [exact Hy|].
    destruct Hgd as [k Ek]. assert (Hk : (0 <= k)%Z) by nia.
    rewrite <- (fpow_mul HF).
    replace (Z.to_nat m * d) with (Z.to_nat (p - 1) * Z.to_nat k).
    - rewrite (fpow_mul HF), (fermat HP) by exact Hy0. apply (fpow_1 HF).
    - apply Nat2Z.inj. rewrite !Nat2Z.inj_mul, !Z2Nat.id by lia. rewrite Em, Ek. ring.
  Qed.

  (** injectivity of the power map on the whole field *)
  Theorem pow_injective_iff d : d <> 0 ->
    ((forall x y : F, fpow x d = fpow y d -> x = y) <-> Z.gcd (Z.of_nat d) (p - 1) = 1%Z).
  Proof.
    intros Hd. split.
    - intros Hinj. pose proof (pf_p_ge_2 HP) as Hp2.
      destruct (Z.eq_dec p 2) as [E2|N2]; [rewrite E2; apply Z.gcd_1_r|].
      assert (Hp : (2 < p)%Z) by lia. destruct (Z.eq_dec (Z.gcd (Z.of_nat d) (p - 1)) 1) as [E|N]; [exact E|exfalso].
      destruct (pow_not_injective d N Hp) as [x [Hx Ex]]. apply Hx. apply Hinj. rewrite Ex, (fpow_1 HF). reflexivity.
    - intros Hg x y E. destruct (pow_bij HP d Hd Hg) as [e He].
      rewrite <- (proj1 (He x)), <- (proj1 (He y)), E. reflexivity.
  Qed.
End PowNotInj.
