(** * Field: the interface of [ark_ff::PrimeField] used by the crate.

    The Rust code is generic in [F: PrimeField].  [FOps] lists the operations the crate
    calls; [is_prime_field] says they are the operations of the integers modulo a prime
    (the contract of [ark_ff], which is not part of /repo). *)
From Coq Require Export Ring_theory Field_theory Znumtheory.
From Verif Require Export Base.
Global Open Scope nat_scope.

Class FOps (F : Type) := {
  f0 : F;                     (* F::zero() *)
  f1 : F;                     (* F::one() *)
  fadd : F -> F -> F;         (* add_assign *)
  fsub : F -> F -> F;         (* sub_assign *)
  fmul : F -> F -> F;         (* mul_assign *)
  finv : F -> F;              (* the value inside inverse(), meaningless on zero *)
  feqb : F -> F -> bool;      (* == *)
  f_of_Z : Z -> F;            (* From<u64>, from_be_bytes_mod_order: residue class of an integer *)
  f_to_Z : F -> Z             (* canonical representative *)
}.

(** [square_in_place], [double_in_place], [is_zero], [inverse] *)
Definition fsquare {F} {Fo : FOps F} (x : F) : F := fmul x x.
Definition fdouble {F} {Fo : FOps F} (x : F) : F := fadd x x.
Definition fis_zero {F} {Fo : FOps F} (x : F) : bool := feqb x f0.
Definition finverse {F} {Fo : FOps F} (x : F) : option F :=
  if fis_zero x then None else Some (finv x).
Definition fopp {F} {Fo : FOps F} (x : F) : F := fsub f0 x.
Definition fdiv {F} {Fo : FOps F} (x y : F) : F := fmul x (finv y).

(** Any field (enough for the linear algebra). *)
Record is_field {F} (Fo : FOps F) : Prop := {
  ff_ring : ring_theory f0 f1 fadd fmul fsub fopp eq;
  ff_one_neq_zero : f1 <> f0;
  ff_inv : forall x, x <> f0 -> fmul (finv x) x = f1;
  ff_eqb : forall x y, feqb x y = true <-> x = y
}.

(** The integers modulo the prime [p]. *)
Record is_prime_field {F} (Fo : FOps F) (p : Z) : Prop := {
  pf_prime : prime p;
  pf_range : forall x : F, (0 <= f_to_Z x < p)%Z;
  pf_of_to : forall x : F, f_of_Z (f_to_Z x) = x;
  pf_to_of : forall z, f_to_Z (f_of_Z z) = (z mod p)%Z;
  pf_zero : f_to_Z f0 = 0%Z;
  pf_one : f_to_Z f1 = 1%Z;
  pf_add : forall x y, f_to_Z (fadd x y) = ((f_to_Z x + f_to_Z y) mod p)%Z;
  pf_sub : forall x y, f_to_Z (fsub x y) = ((f_to_Z x - f_to_Z y) mod p)%Z;
  pf_mul : forall x y, f_to_Z (fmul x y) = ((f_to_Z x * f_to_Z y) mod p)%Z;
  pf_inv : forall x, x <> f0 -> fmul (finv x) x = f1;
  pf_eqb : forall x y, feqb x y = true <-> x = y
}.

(** ** Consequences *)
Section PrimeField.
  Context {F : Type} {Fo : FOps F} {p : Z} (H : is_prime_field Fo p).
  Local Open Scope Z_scope.

  Lemma f_to_Z_inj (x y : F) : f_to_Z x = f_to_Z y -> x = y.
  Proof. intros E. rewrite <- (pf_of_to _ _ H x), E. apply (pf_of_to _ _ H). Qed.

  Lemma pf_p_ge_2 : 2 <= p.
  Proof. apply prime_ge_2, (pf_prime _ _ H). Qed.

  Lemma f_to_Z_small (x : F) : f_to_Z x mod p = f_to_Z x.
  Proof. apply Z.mod_small, (pf_range _ _ H). Qed.

  Lemma prime_field_ring : ring_theory f0 f1 fadd fmul fsub fopp (@eq F).
  Proof.
    pose proof pf_p_ge_2 as Hp.
    constructor; intros; apply f_to_Z_inj; unfold fopp;
      repeat first [rewrite (pf_add _ _ H) | rewrite (pf_mul _ _ H) | rewrite (pf_sub _ _ H)
                   | rewrite (pf_zero _ _ H) | rewrite (pf_one _ _ H)].
    - rewrite Z.add_0_l. apply f_to_Z_small.
    - f_equal; ring.
    - rewrite Zplus_mod_idemp_l, Zplus_mod_idemp_r. f_equal; ring.
    - rewrite Z.mul_1_l. apply f_to_Z_small.
    - f_equal; ring.
    - rewrite Zmult_mod_idemp_l, Zmult_mod_idemp_r. f_equal; ring.
    - rewrite Zmult_mod_idemp_l, <- Zplus_mod. f_equal; ring.
    - rewrite Zplus_mod_idemp_r. f_equal; ring.
    - rewrite Zplus_mod_idemp_r. replace (f_to_Z x + (0 - f_to_Z x)) with 0 by ring.
      apply Z.mod_0_l. lia.
  Qed.

  Lemma prime_field_is_field : is_field Fo.
  Proof.
    constructor.
    - exact prime_field_ring.
    - intros E. apply (f_equal f_to_Z) in E.
      rewrite (pf_zero _ _ H), (pf_one _ _ H) in E. discriminate.
    - apply (pf_inv _ _ H).
    - apply (pf_eqb _ _ H).
  Qed.

  Lemma f_of_Z_eq_iff a b : f_of_Z a = (f_of_Z b : F) <-> a mod p = b mod p.
  Proof.
    split; intros E.
    - apply (f_equal f_to_Z) in E. rewrite !(pf_to_of _ _ H) in E. exact E.
    - apply f_to_Z_inj. rewrite !(pf_to_of _ _ H). exact E.
  Qed.

  Lemma f_of_Z_add a b : f_of_Z (a + b) = fadd (f_of_Z a) (f_of_Z b).
  Proof.
    apply f_to_Z_inj. rewrite (pf_add _ _ H), !(pf_to_of _ _ H). apply Zplus_mod.
  Qed.
  Lemma f_of_Z_mul a b : f_of_Z (a * b) = fmul (f_of_Z a) (f_of_Z b).
  Proof.
    apply f_to_Z_inj. rewrite (pf_mul _ _ H), !(pf_to_of _ _ H). apply Zmult_mod.
  Qed.
  Lemma f_of_Z_sub a b : f_of_Z (a - b) = fsub (f_of_Z a) (f_of_Z b).
  Proof.
    apply f_to_Z_inj. rewrite (pf_sub _ _ H), !(pf_to_of _ _ H). apply Zminus_mod.
  Qed.
  Lemma f_of_Z_0 : f_of_Z 0 = f0.
  Proof. apply f_to_Z_inj. rewrite (pf_to_of _ _ H), (pf_zero _ _ H). apply Z.mod_0_l.
         pose proof pf_p_ge_2; lia. Qed.
  Lemma f_of_Z_1 : f_of_Z 1 = f1.
  Proof. apply f_to_Z_inj. rewrite (pf_to_of _ _ H), (pf_one _ _ H). apply Z.mod_small.
         pose proof pf_p_ge_2; lia. Qed.

  Lemma f_of_Z_neq_0 z : 0 < z < p -> f_of_Z z <> (f0 : F).
  Proof.
    intros Hz E. rewrite <- f_of_Z_0 in E. apply f_of_Z_eq_iff in E.
    rewrite Z.mod_small, Z.mod_0_l in E by lia. lia.
  Qed.

  Lemma f_of_Z_eq_0 z : f_of_Z z = (f0 : F) <-> (p | z).
  Proof.
    pose proof pf_p_ge_2 as Hp.
    rewrite <- f_of_Z_0, f_of_Z_eq_iff, Z.mod_0_l by lia.
    split; intros E; [apply Z.mod_divide | apply Z.mod_divide]; auto; lia.
  Qed.
End PrimeField.

(** ** Field facts *)
Section FieldFacts.
  Context {F : Type} {Fo : FOps F} (HF : is_field Fo).

  Lemma field_theory_of : field_theory f0 f1 fadd fmul fsub fopp fdiv finv (@eq F).
  Proof.
    constructor.
    - apply (ff_ring _ HF).
    - apply (ff_one_neq_zero _ HF).
    - reflexivity.
    - apply (ff_inv _ HF).
  Qed.

  Lemma feqb_refl x : feqb x x = true.
  Proof. apply (ff_eqb _ HF). reflexivity. Qed.
  Lemma feqb_neq x y : x <> y -> feqb x y = false.
  Proof. intros N. destruct (feqb x y) eqn:E; [|reflexivity]. apply (ff_eqb _ HF) in E. congruence. Qed.
  Lemma feq_dec (x y : F) : {x = y} + {x <> y}.
  Proof.
    destruct (feqb x y) eqn:E.
    - left. apply (ff_eqb _ HF); exact E.
    - right. intros ->. rewrite feqb_refl in E. discriminate.
  Qed.

  Add Ring Fring : (ff_ring _ HF).
  Add Field Ffield : field_theory_of.

  Lemma fmul_integral x y : fmul x y = f0 -> x = f0 \/ y = f0.
  Proof.
    intros E. destruct (feq_dec x f0) as [Hx|Hx]; [left; exact Hx|right].
    transitivity (fmul (fmul (finv x) x) y).
    - rewrite (ff_inv _ HF) by exact Hx. ring.
    - transitivity (fmul (finv x) (fmul x y)); [ring|]. rewrite E. ring.
  Qed.

  Lemma fmul_neq_0 x y : x <> f0 -> y <> f0 -> fmul x y <> f0.
  Proof. intros Hx Hy E. destruct (fmul_integral _ _ E); auto. Qed.

  Lemma finv_neq_0 x : x <> f0 -> finv x <> f0.
  Proof.
    intros Hx E. apply (ff_one_neq_zero _ HF). rewrite <- (ff_inv _ HF x Hx), E. ring.
  Qed.

  Lemma fmul_cancel_l a x y : a <> f0 -> fmul a x = fmul a y -> x = y.
  Proof.
    intros Ha E. transitivity (fmul (fmul (finv a) a) x).
    - rewrite (ff_inv _ HF) by exact Ha. ring.
    - transitivity (fmul (finv a) (fmul a x)); [ring|]. rewrite E.
      transitivity (fmul (fmul (finv a) a) y); [ring|].
      rewrite (ff_inv _ HF) by exact Ha. ring.
  Qed.

  Lemma fsub_eq_0 x y : fsub x y = f0 -> x = y.
  Proof. intros E. transitivity (fadd (fsub x y) y); [ring|]. rewrite E. ring. Qed.

  Lemma fadd_cancel_r a x y : fadd x a = fadd y a -> x = y.
  Proof. intros E. transitivity (fsub (fadd x a) a); [ring|]. rewrite E. ring. Qed.

  Lemma finverse_some x : x <> f0 -> finverse x = Some (finv x).
  Proof. intros Hx. unfold finverse, fis_zero. rewrite feqb_neq by exact Hx. reflexivity. Qed.
  Lemma finverse_none : finverse f0 = None.
  Proof. unfold finverse, fis_zero. rewrite feqb_refl. reflexivity. Qed.
  Lemma finv_r x : x <> f0 -> fmul x (finv x) = f1.
  Proof. intros Hx. rewrite <- (ff_inv _ HF x Hx). ring. Qed.
End FieldFacts.
