(** * FieldPow: powers, Fermat's little theorem, and when x -> x^d is a bijection. *)
From Coq Require Import Permutation.
From Verif Require Import Base Field Spec.

Lemma NoDup_map_in {A B} (f : A -> B) l :
  (forall x y, In x l -> In y l -> f x = f y -> x = y) -> NoDup l -> NoDup (map f l).
Proof.
  induction l as [|a l IH]; intros Hf Hn; simpl; [constructor|].
  inversion Hn; subst. constructor.
  - intros Hin. apply in_map_iff in Hin. destruct Hin as [y [E Hy]].
    assert (y = a) by (apply Hf; [right; exact Hy | left; reflexivity | exact E]).
    subst. contradiction.
  - apply IH; [|assumption]. intros x y Hx Hy. apply Hf; right; assumption.
Qed.

Section Pow.
  Context {F : Type} {Fo : FOps F} (HF : is_field Fo).
  Add Ring Fring2 : (ff_ring _ HF).

  Lemma fpow_add x a b : fpow x (a + b) = fmul (fpow x a) (fpow x b).
  Proof. induction a as [|a IH]; simpl; [ring|]. rewrite IH. ring. Qed.
  Lemma fpow_mul x a b : fpow x (a * b) = fpow (fpow x a) b.
  Proof.
    induction b as [|b IH]; simpl.
    - rewrite Nat.mul_0_r. reflexivity.
    - rewrite Nat.mul_succ_r, Nat.add_comm, fpow_add, IH. reflexivity.
  Qed.
  Lemma fpow_1 n : fpow f1 n = f1.
  Proof. induction n as [|n IH]; simpl; [reflexivity|]. rewrite IH. ring. Qed.
  Lemma fpow_0 n : n <> 0 -> fpow f0 n = f0.
  Proof. destruct n; [congruence|]. intros _. simpl. ring. Qed.
  Lemma fpow_mul_base x y n : fpow (fmul x y) n = fmul (fpow x n) (fpow y n).
  Proof. induction n as [|n IH]; simpl; [ring|]. rewrite IH. ring. Qed.
  Lemma fpow_neq_0 x n : x <> f0 -> fpow x n <> f0.
  Proof.
    intros Hx. induction n as [|n IH]; simpl.
    - apply (ff_one_neq_zero _ HF).
    - apply (fmul_neq_0 HF); assumption.
  Qed.

  Definition prodl (l : list F) : F := fold_right fmul f1 l.

  Lemma prodl_perm l l' : Permutation l l' -> prodl l = prodl l'.
  Proof.
    induction 1; unfold prodl in *; simpl; try congruence; try ring.
  Qed.
  Lemma prodl_map a l : prodl (map (fmul a) l) = fmul (fpow a (length l)) (prodl l).
  Proof. unfold prodl. induction l as [|x l IH]; simpl; [ring|]. rewrite IH. ring. Qed.
  Lemma prodl_neq_0 l : (forall x, In x l -> x <> f0) -> prodl l <> f0.
  Proof.
    unfold prodl. induction l as [|x l IH]; intros H; simpl.
    - apply (ff_one_neq_zero _ HF).
    - apply (fmul_neq_0 HF); [apply H; left; reflexivity|].
      apply IH. intros y Hy. apply H. right; exact Hy.
  Qed.
End Pow.

Section Fermat.
  Context {F : Type} {Fo : FOps F} {p : Z} (H : is_prime_field Fo p).
  Let HF : is_field Fo := prime_field_is_field H.
  Add Ring Fring3 : (ff_ring _ HF).

  (** all non-zero elements *)
  Definition units : list F := map (fun n => f_of_Z (Z.of_nat n)) (seq 1 (Z.to_nat (p - 1))).

  Lemma units_length : length units = Z.to_nat (p - 1).
  Proof. unfold units. rewrite map_length, seq_length. reflexivity. Qed.

  Lemma units_In x : In x units <-> x <> f0.
  Proof.
    pose proof (pf_p_ge_2 H) as Hp. unfold units. rewrite in_map_iff. split.
    - intros [n [<- Hn]]. apply in_seq in Hn. apply (f_of_Z_neq_0 H). lia.
    - intros Hx. exists (Z.to_nat (f_to_Z x)).
      pose proof (pf_range _ _ H x) as Hr.
      assert (f_to_Z x <> 0)%Z as Hz.
      { intros E. apply Hx. apply (f_to_Z_inj H). rewrite E. symmetry. apply (pf_zero _ _ H). }
      split.
      + rewrite Z2Nat.id by lia. apply (pf_of_to _ _ H).
      + apply in_seq. lia.
  Qed.

  Lemma units_NoDup : NoDup units.
  Proof.
    pose proof (pf_p_ge_2 H) as Hp. unfold units.
    apply NoDup_map_in; [|apply seq_NoDup].
    intros a b Ha Hb E. apply in_seq in Ha, Hb. apply (f_of_Z_eq_iff H) in E.
    rewrite !Z.mod_small in E by lia. lia.
  Qed.

  Theorem fermat x : x <> f0 -> fpow x (Z.to_nat (p - 1)) = f1.
  Proof.
    intros Hx.
    assert (Hperm : Permutation (map (fmul x) units) units).
    { apply NoDup_Permutation_bis.
      - apply FinFun.Injective_map_NoDup; [|apply units_NoDup].
        intros a b E. apply (fmul_cancel_l HF x); assumption.
      - rewrite map_length. lia.
      - intros y Hy. apply in_map_iff in Hy. destruct Hy as [z [<- Hz]].
        apply units_In in Hz. apply units_In. apply (fmul_neq_0 HF); assumption. }
    apply (prodl_perm HF) in Hperm. rewrite (prodl_map HF), units_length in Hperm.
    assert (Hn : prodl units <> f0).
    { apply (prodl_neq_0 HF). intros y. apply units_In. }
    apply (fmul_cancel_l HF (prodl units)); [exact Hn|].
    transitivity (fmul (fpow x (Z.to_nat (p - 1))) (prodl units)); [ring|].
    rewrite Hperm. ring.
  Qed.

  (** x -> x^d has the inverse x -> x^e when d is coprime to p-1. *)
  Theorem pow_bij d :
    d <> 0 ->
    Z.gcd (Z.of_nat d) (p - 1) = 1%Z ->
    exists e, forall x : F, fpow (fpow x d) e = x /\ fpow (fpow x e) d = x.
  Proof.
    intros Hd0 Hg. pose proof (pf_p_ge_2 H) as Hp.
    destruct (Z.eq_dec p 2) as [Hp2|Hp2].
    { (* field with two elements: every element is 0 or 1 *)
      exists 1. intros x. simpl.
      assert (Hd : x = f0 \/ x = f1).
      { pose proof (pf_range _ _ H x) as Hr.
        assert (f_to_Z x = 0 \/ f_to_Z x = 1)%Z as [E|E] by lia; [left|right];
          apply (f_to_Z_inj H); rewrite E; symmetry; [apply (pf_zero _ _ H)|apply (pf_one _ _ H)]. }
      destruct d as [|d].
      - congruence.
      - destruct Hd as [->| ->].
        + rewrite (fpow_0 HF) by lia. split; [ring|]. apply eq_trans with (fpow f0 (S d));
            [f_equal; ring | apply (fpow_0 HF); lia].
        + rewrite (fpow_1 HF). split; [ring|]. apply eq_trans with (fpow f1 (S d));
            [f_equal; ring | apply (fpow_1 HF)]. }
    assert (Hbez : exists u v, (Z.of_nat d * u = 1 + v * (p - 1) /\ 0 < u /\ 0 <= v)%Z).
    { destruct (Z.gcd_bezout (Z.of_nat d) (p - 1) 1 Hg) as [u0 [v0 Hb]].
      exists (u0 + (p - 1) * (Z.abs u0 + 1))%Z.
      exists (Z.of_nat d * (Z.abs u0 + 1) - v0)%Z.
      assert (0 < u0 + (p - 1) * (Z.abs u0 + 1))%Z as Hu by nia.
      assert (Z.of_nat d * (u0 + (p - 1) * (Z.abs u0 + 1))
              = 1 + (Z.of_nat d * (Z.abs u0 + 1) - v0) * (p - 1))%Z as Heq by nia.
      repeat split; [exact Heq | exact Hu |].
      assert (0 < Z.of_nat d)%Z by lia. nia. }
    destruct Hbez as [u [v [Huv [Hu Hv]]]].
    exists (Z.to_nat u).
    assert (Hexp : d * Z.to_nat u = S (Z.to_nat (p - 1) * Z.to_nat v)) by nia.
    assert (Hpow : forall x : F, fpow x (d * Z.to_nat u) = x).
    { intros x. rewrite Hexp. simpl. destruct (feq_dec HF x f0) as [->|Hx]; [ring|].
      rewrite (fpow_mul HF), fermat by exact Hx. rewrite (fpow_1 HF). ring. }
    intros x. split.
    - rewrite <- (fpow_mul HF). apply Hpow.
    - rewrite <- (fpow_mul HF), Nat.mul_comm. apply Hpow.
  Qed.
End Fermat.
