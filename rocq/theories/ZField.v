(** * ZField: the integers modulo an arbitrary prime, as an instance of the field interface.

    Only used in proofs (Fermat's theorem modulo an unknown prime divisor); never computed with. *)
From Coq Require Import Eqdep_dec Bool.
From Verif Require Import Base Field Spec FieldPow.
Local Open Scope Z_scope.

Section ZField.
  Variable p : Z.
  Hypothesis Hp : prime p.

  Definition in_range (z : Z) : bool := (0 <=? z) && (z <? p).
  Definition Zp : Set := {z : Z | in_range z = true}.

  Lemma p_pos : 1 < p.
  Proof. pose proof (prime_ge_2 _ Hp). lia. Qed.
  Lemma mod_in_range z : in_range (z mod p) = true.
  Proof.
    pose proof p_pos. pose proof (Z.mod_pos_bound z p ltac:(lia)). unfold in_range.
    apply andb_true_iff. split; [apply Z.leb_le; lia|apply Z.ltb_lt; lia].
  Qed.
  Definition zp_of (z : Z) : Zp := exist _ (z mod p) (mod_in_range z).
  Definition zp_to (x : Zp) : Z := proj1_sig x.

  Lemma zp_range x : 0 <= zp_to x < p.
  Proof. destruct x as [z Hz]. cbn. unfold in_range in Hz. apply andb_true_iff in Hz.
    destruct Hz as [A B]. apply Z.leb_le in A. apply Z.ltb_lt in B. lia. Qed.
  Lemma zp_inj x y : zp_to x = zp_to y -> x = y.
  Proof.
    destruct x as [a Ha], y as [b Hb]. cbn. intros ->. f_equal. apply UIP_dec. apply bool_dec.
  Qed.
  Lemma zp_to_of z : zp_to (zp_of z) = z mod p. Proof. reflexivity. Qed.
  Lemma zp_of_to x : zp_of (zp_to x) = x.
  Proof. apply zp_inj. rewrite zp_to_of. apply Z.mod_small, zp_range. Qed.

  Definition zp_inv (x : Zp) : Zp :=
    match find (fun n => (Z.of_nat n * zp_to x) mod p =? 1) (seq 0 (Z.to_nat p)) with
    | Some n => zp_of (Z.of_nat n)
    | None => zp_of 0
    end.

  Definition zp_ops : FOps Zp := {|
    f0 := zp_of 0; f1 := zp_of 1;
    fadd x y := zp_of (zp_to x + zp_to y);
    fsub x y := zp_of (zp_to x - zp_to y);
    fmul x y := zp_of (zp_to x * zp_to y);
    finv := zp_inv; feqb x y := zp_to x =? zp_to y; f_of_Z := zp_of; f_to_Z := zp_to |}.

  Lemma zp_inv_ok x : x <> zp_of 0 -> zp_of (zp_to (zp_inv x) * zp_to x) = zp_of 1.
  Proof.
    intros Hx. pose proof p_pos as Pp. pose proof (zp_range x) as Rx.
    assert (Hx0 : zp_to x <> 0).
    { intros C. apply Hx. rewrite <- (zp_of_to x), C. reflexivity. }
    apply zp_inj. rewrite !zp_to_of. unfold zp_inv.
    destruct (find _ _) as [n|] eqn:E.
    - apply find_some in E. destruct E as [_ E]. apply Z.eqb_eq in E.
      rewrite zp_to_of, Z.mul_mod_idemp_l by lia. rewrite E. symmetry. apply Z.mod_small. lia.
    - exfalso.
      assert (Hrel : rel_prime (zp_to x) p) by (apply rel_prime_le_prime; [exact Hp|lia]).
      destruct (rel_prime_bezout _ _ Hrel) as [u v Huv].
      pose proof (Z.mod_pos_bound u p ltac:(lia)) as Ru.
      assert (Hin : In (Z.to_nat (u mod p)) (seq 0 (Z.to_nat p))) by (apply in_seq; lia).
      apply (find_none _ _ E) in Hin. cbv beta in Hin. apply Z.eqb_neq in Hin. apply Hin.
      rewrite Z2Nat.id by lia. rewrite Z.mul_mod_idemp_l by lia.
      replace (u * zp_to x) with (1 + (- v) * p) by lia.
      rewrite Z_mod_plus_full. apply Z.mod_small. lia.
  Qed.

  Theorem zp_field : is_prime_field zp_ops p.
  Proof.
    pose proof p_pos. constructor; cbn [f0 f1 fadd fsub fmul finv feqb f_of_Z f_to_Z zp_ops].
    - exact Hp.
    - apply zp_range.
    - apply zp_of_to.
    - apply zp_to_of.
    - reflexivity.
    - rewrite zp_to_of. apply Z.mod_small. lia.
    - reflexivity.
    - reflexivity.
    - reflexivity.
    - intros x Hx. apply zp_inv_ok, Hx.
    - intros x y. rewrite Z.eqb_eq. split; [apply zp_inj|congruence].
  Qed.
End ZField.

(** Powers and residues *)
Lemma fpow_of_Z {F} {Fo : FOps F} {p} (HP : is_prime_field Fo p) a n :
  fpow (f_of_Z a) n = f_of_Z (a ^ Z.of_nat n).
Proof.
  induction n as [|n IH]; cbn [fpow].
  - cbn. symmetry. apply (f_of_Z_1 HP).
  - rewrite IH, <- (f_of_Z_mul HP). f_equal. rewrite Nat2Z.inj_succ, Z.pow_succ_r by lia. reflexivity.
Qed.

(** Two exponents that give one, and their greatest common divisor *)
Section Gcd.
  Context {F : Type} {Fo : FOps F} (HF : is_field Fo).
  Add Ring FringZ : (ff_ring _ HF).

  Lemma fpow_gcd (x : F) n m :
    (0 < n)%nat -> fpow x n = f1 -> fpow x m = f1 -> fpow x (Nat.gcd n m) = f1.
  Proof.
    intros Hn En Em. destruct (Nat.gcd_bezout_pos n m Hn) as [a [b E]].
    assert (E1 : fpow x (a * n) = f1).
    { rewrite Nat.mul_comm, (fpow_mul HF), En. apply (fpow_1 HF). }
    assert (E2 : fpow x (b * m) = f1).
    { rewrite Nat.mul_comm, (fpow_mul HF), Em. apply (fpow_1 HF). }
    rewrite E, (fpow_add HF), E2 in E1. rewrite <- E1. ring.
  Qed.
End Gcd.
