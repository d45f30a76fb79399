(** * Freshman: in characteristic p, the p-th power of a polynomial in an operator is the polynomial in its p-th power *)
From Coq Require Import Znumtheory.
From Verif Require Import Base Field Spec SpecMinPoly FieldPow LinOp.
Local Open Scope nat_scope.

Fixpoint binom (n k : nat) : nat :=
  match n, k with
  | _, O => 1
  | O, S _ => 0
  | S n', S k' => binom n' k' + binom n' (S k')
  end.
Lemma binom_0 n : binom n 0 = 1. Proof. destruct n; reflexivity. Qed.
Lemma binom_big : forall n k, n < k -> binom n k = 0.
Proof. induction n as [|n IH]; intros [|k] H; try lia; [reflexivity|]. cbn. rewrite !IH by lia. reflexivity. Qed.
Lemma binom_diag n : binom n n = 1.
Proof. induction n as [|n IH]; [reflexivity|]. cbn. rewrite IH, binom_big by lia. reflexivity. Qed.
Lemma binom_absorb : forall n k, S k * binom (S n) (S k) = S n * binom n k.
Proof.
  induction n as [|n IH]; intros k.
  - destruct k as [|k]; cbn; lia.
  - change (binom (S (S n)) (S k)) with (binom (S n) k + binom (S n) (S k)).
    pose proof (IH k) as H1. destruct k as [|k].
    + rewrite !binom_0 in *. lia.
    + pose proof (IH k) as H2. change (binom (S n) (S k)) with (binom n k + binom n (S k)) in *. nia.
Qed.
Lemma binom_prime p k : prime (Z.of_nat p) -> 0 < k < p -> (Z.of_nat p | Z.of_nat (binom p k))%Z.
Proof.
  intros Hp Hk. destruct p as [|p]; [lia|]. destruct k as [|k]; [lia|].
  assert (D : (Z.of_nat (S p) | Z.of_nat (S k) * Z.of_nat (binom (S p) (S k)))%Z).
  { rewrite <- Nat2Z.inj_mul, binom_absorb, Nat2Z.inj_mul. apply Z.divide_factor_l. }
  apply prime_mult in D; [|exact Hp]. destruct D as [D|D]; [|exact D].
  apply Z.divide_pos_le in D; lia.
Qed.

Section Freshman.
  Context {F : Type} {Fo : FOps F} {p : Z} (HP : is_prime_field Fo p).
  Let HF : is_field Fo := prime_field_is_field HP.
  Add Ring FringFr : (ff_ring _ HF).
  Context {V : Type} {vz : V} {vadd : V -> V -> V} {vsc : F -> V -> V} (HV : is_module Fo vz vadd vsc).
  Set Default Proof Using "HP HV".

  Fixpoint vsum (n : nat) (f : nat -> V) : V := match n with O => vz | S k => vadd (vsum k f) (f k) end.
  Lemma vsum_ext n f g : (forall i, i < n -> f i = g i) -> vsum n f = vsum n g.
  Proof. induction n as [|n IH]; intros H; cbn; [reflexivity|]. rewrite IH, H by (intros; apply H || lia; lia). reflexivity. Qed.
  Lemma vsum_add n f g : vsum n (fun i => vadd (f i) (g i)) = vadd (vsum n f) (vsum n g).
  Proof. induction n as [|n IH]; cbn; [symmetry; apply (vm_0 _ _ _ _ HV)|]. rewrite IH. apply (vadd_swap HF HV). Qed.
  Lemma vsum_first n f : vsum (S n) f = vadd (f 0) (vsum n (fun i => f (S i))).
  Proof.
    induction n as [|n IH]; cbn in *; [apply (vm_comm _ _ _ _ HV)|]. rewrite IH. symmetry. apply (vm_assoc _ _ _ _ HV).
  Qed.
  Lemma vsum_zero n f : (forall i, i < n -> f i = vz) -> vsum n f = vz.
  Proof. induction n as [|n IH]; intros H; cbn; [reflexivity|]. rewrite IH, H by (intros; apply H || lia; lia). apply (vm_0 _ _ _ _ HV). Qed.
  Lemma vsum_lin A n f : is_linear vadd vsc A -> A (vsum n f) = vsum n (fun i => A (f i)).
  Proof. intros HA. induction n as [|n IH]; cbn; [apply (lin_z HF HV HA)|]. rewrite (proj1 HA), IH. reflexivity. Qed.

  Definition fc (n : nat) : F := f_of_Z (Z.of_nat n).
  Lemma fc_add m n : fc (m + n) = fadd (fc m) (fc n).
  Proof. unfold fc. rewrite Nat2Z.inj_add. apply (f_of_Z_add HP). Qed.

  Section Two.
    Context (X Y : V -> V) (HX : is_linear vadd vsc X) (HY : is_linear vadd vsc Y) (XY : forall v, X (Y v) = Y (X v)).
    Set Default Proof Using "HP HV HX HY XY".

    Lemma binomial n v : iter n (fun w => vadd (X w) (Y w)) v =
      vsum (S n) (fun k => vsc (fc (binom n k)) (iter k X (iter (n - k) Y v))).
    Proof.
      induction n as [|n IH].
      - cbn. unfold fc. cbn. rewrite (f_of_Z_1 HP), (vm_sc1 _ _ _ _ HV). symmetry. apply (vm_0 _ _ _ _ HV).
      - cbn [iter]. rewrite IH. rewrite (vsum_lin X) by exact HX. rewrite (vsum_lin Y) by exact HY.
        rewrite (vsum_first (S n)).
        set (f := fun k => vsc (fc (binom n k)) (iter (S k) X (iter (n - k) Y v))).
        set (g := fun k => vsc (fc (binom n k)) (iter k X (iter (S n - k) Y v))).
        transitivity (vadd (vsum (S n) f) (vsum (S n) g)).
        { f_equal; apply vsum_ext; intros k Hk; unfold f, g.
          - rewrite (proj2 HX). reflexivity.
          - rewrite (proj2 HY). f_equal. rewrite <- (iter_comm X Y) by exact XY. f_equal.
            replace (S n - k) with (S (n - k)) by lia. reflexivity. }
        rewrite (vsum_first n g). rewrite (vm_comm _ _ _ _ HV (vsum (S n) f)), <- (vm_assoc _ _ _ _ HV). f_equal.
        { unfold g. rewrite !binom_0. reflexivity. }
        transitivity (vadd (vsum (S n) (fun k => g (S k))) (vsum (S n) f)).
        { f_equal. cbn [vsum]. unfold g. rewrite (binom_big n (S n)) by lia. change (fc 0) with (f_of_Z 0 : F). rewrite (f_of_Z_0 HP), (vm_sc0 _ _ _ _ HV).
          symmetry. apply (vadd_0_r HF HV). }
        rewrite <- vsum_add. apply vsum_ext. intros k Hk. unfold f, g.
        change (binom (S n) (S k)) with (binom n k + binom n (S k)). rewrite fc_add, (vm_scadd _ _ _ _ HV).
        replace (S n - S k) with (n - k) by lia. apply (vm_comm _ _ _ _ HV).
    Qed.

    Lemma freshman v : iter (Z.to_nat p) (fun w => vadd (X w) (Y w)) v = vadd (iter (Z.to_nat p) X v) (iter (Z.to_nat p) Y v).
    Proof.
      pose proof (pf_p_ge_2 HP) as Hp2. rewrite binomial. rewrite vsum_first.
      destruct (Z.to_nat p) as [|q] eqn:Ep; [lia|]. cbn [vsum]. rewrite vsum_zero.
      - rewrite (vm_0 _ _ _ _ HV), binom_0, binom_diag. unfold fc. cbn [Z.of_nat Pos.of_succ_nat]. rewrite (f_of_Z_1 HP), !(vm_sc1 _ _ _ _ HV).
        rewrite Nat.sub_0_r, Nat.sub_diag. cbn [iter]. apply (vm_comm _ _ _ _ HV).
      - intros i Hi. replace (fc (binom (S q) (S i))) with (f0 : F); [apply (vm_sc0 _ _ _ _ HV)|].
        symmetry. unfold fc. apply (f_of_Z_eq_0 HP). replace p with (Z.of_nat (S q)) by lia. apply binom_prime; [|lia].
        replace (Z.of_nat (S q)) with p by lia. apply (pf_prime _ _ HP).
    Qed.
  End Two.
  Set Default Proof Using "HP HV".

  Lemma fermat_all (c : F) : fpow c (Z.to_nat p) = c.
  Proof.
    pose proof (pf_p_ge_2 HP) as Hp2. destruct (feq_dec HF c f0) as [->|E]; [apply (fpow_0 HF); lia|].
    replace (Z.to_nat p) with (S (Z.to_nat (p - 1))) by lia. cbn [fpow]. rewrite (fermat HP) by exact E. ring.
  Qed.

  Lemma act_frobenius A (HA : is_linear vadd vsc A) g v :
    iter (Z.to_nat p) (act (vz := vz) (vadd := vadd) (vsc := vsc) (A := A) g) v =
    act (vz := vz) (vadd := vadd) (vsc := vsc) (A := iter (Z.to_nat p) A) g v.
  Proof.
    revert v. induction g as [|c g IH]; intros v.
    - cbn [act]. pose proof (pf_p_ge_2 HP). destruct (Z.to_nat p) as [|q] eqn:Ep; [lia|]. reflexivity.
    - cbn [act]. rewrite <- IH.
      rewrite (freshman (fun w => vsc c w) (fun w => A (act g w))).
      + f_equal.
        * transitivity (vsc (fpow c (Z.to_nat p)) v); [|rewrite fermat_all; reflexivity]. generalize (Z.to_nat p). intros n. clear - HV HP. induction n as [|n IH]; cbn [iter fpow].
          -- symmetry. apply (vm_sc1 _ _ _ _ HV).
          -- rewrite IH, <- (vm_scmul _ _ _ _ HV). reflexivity.
        * apply (iter_comp A (act g)). intros w. symmetry. apply (act_A HF HV HA).
      + split; intros; [apply (vm_scv _ _ _ _ HV)|]. rewrite <- !(vm_scmul _ _ _ _ HV). f_equal. ring.
      + pose proof (act_linear HF HV HA g) as [L1 L2]. split; intros; [rewrite L1; apply (proj1 HA)|rewrite L2; apply (proj2 HA)].
      + intros w. rewrite (proj2 (act_linear HF HV HA g)), (proj2 HA). reflexivity.
  Qed.
End Freshman.
