(** * ProofSubspaceMeaning: the three algorithms in terms of iterates of the linear layer, and how they depend on each other *)
From Verif Require Import Base Field Spec SpecPoseidon SpecMinPoly LinAlg LinOp Vec ModelSubspace Elim F13 ProofSubspace ProofSubspaceIff ProofKrylov ProofMinPoly ProofMinPoly2 CyclicCert PolyDiv.
From Verif Require ProofTrail2.
Local Open Scope nat_scope.

Section Meaning.
  Context {F : Type} {Fo : FOps F} (HF : is_field Fo).
  Add Ring FringSM : (ff_ring _ HF).

  Lemma iter_list t (M : @mat F) k (v : vec F t) : proj1_sig (iter k (mop M) v) = iter k (mat_apply t t M) (proj1_sig v).
  Proof. induction k as [|k IH]; cbn [iter]; [reflexivity|]. rewrite mop_list, IH. reflexivity. Qed.

  Theorem algorithm_1_meaning t (M : @mat F) : 2 <= t ->
    (algorithm_1 M t <-> forall x, length x = t -> (forall k, k < t -> nth 0 (iter k (mat_apply t t M) x) f0 = f0) -> x = repeat f0 t).
  Proof.
    intros Ht. rewrite (algorithm_1_iff HF Ht). split.
    - intros HL x Lx H. apply to_vec_z; [exact Lx|]. apply (obs_zero HF Ht HL). intros k Hk. unfold obs, vc. rewrite iter_list, (to_vec_list x Lx). apply H, Hk.
    - intros H c Hc j Hj. assert (E : proj1_sig (mkvec (t := t) c) = repeat f0 t).
      { apply H; [apply vec_length|]. intros k Hk. rewrite <- iter_list. change (obs (M := M) k (mkvec (t := t) c) = f0). rewrite (obs_sum HF Ht).
        etransitivity; [|exact (Hc k Hk)]. apply sumn_ext. intros l Hl. rewrite vc_mk by exact Hl. reflexivity. }
      rewrite <- (vc_mk (t := t) c j Hj). unfold vc. rewrite E. apply nth_repeat.
  Qed.

  Definition e_0 (t : nat) : list F := f1 :: repeat f0 (t - 1).
  Lemma e_0_unit t : 1 <= t -> e_0 t = proj1_sig (unit_vec (t := t) 0).
  Proof.
    intros Ht. unfold e_0, unit_vec, mkvec. cbn [proj1_sig]. destruct t as [|t]; [lia|]. cbn [seq map Nat.eqb]. f_equal.
    replace (S t - 1) with t by lia. rewrite <- (map_const_repeat f0 t 1). apply map_ext_in. intros k Hk. apply in_seq in Hk. destruct k; [lia|reflexivity].
  Qed.
  Definition spanned (t r : nat) (M : @mat F) : Prop :=
    forall y, length y = t -> exists a, length a = t /\
      forall i, i < t -> nth i y f0 = sumn t (fun k => fmul (nth k a f0) (nth i (iter (r * k) (mat_apply t t M) (e_0 t)) f0)).

  Lemma right_krylov_meaning t r (M : @mat F) : 2 <= t -> right_krylov (t := t) (mat_pow t M r) <-> spanned t r M.
  Proof.
    intros Ht. assert (W : forall k i, vc (iter k (mop (mat_pow t M r)) (unit_vec (t := t) 0)) i = nth i (iter (r * k) (mat_apply t t M) (e_0 t)) f0).
    { intros k i. unfold vc. rewrite (iter_ext _ (iter r (mop M))) by (intros v; apply (mop_pow HF)). rewrite <- iter_mul, iter_list, e_0_unit by lia.
      rewrite Nat.mul_comm. reflexivity. }
    split.
    - intros HR y Ly. destruct (comb_all HF Ht HR y Ly) as [_ [c Hc]]. replace (S (t - 1)) with t in Hc by lia.
      exists (map c (seq 0 t)). split; [rewrite map_length, seq_length; reflexivity|]. intros i Hi. rewrite Hc by exact Hi. apply sumn_ext. intros k Hk.
      rewrite (nth_map_d _ _ k 0) by (rewrite seq_length; exact Hk). rewrite seq_nth by exact Hk. cbn [Nat.add]. rewrite W. reflexivity.
    - intros HS. unfold right_krylov. apply (nonsingular_transpose HF t (fun j i => vc (iter j (mop (mat_pow t M r)) (unit_vec 0)) i)). intros y Hy i Hi.
      assert (Lb : length (basis_vector (F := F) t i) = t) by (unfold basis_vector; rewrite map_length, seq_length; reflexivity).
      destruct (HS (basis_vector t i) Lb) as [a [_ Ha]].
      transitivity (sumn t (fun l => fmul (y l) (nth l (basis_vector t i) f0))).
      + rewrite (sumn_single HF t i); [rewrite basis_vector_nth, Nat.eqb_refl by exact Hi; ring|exact Hi|].
        intros l Hl N. rewrite basis_vector_nth by exact Hl. destruct (Nat.eqb_spec l i); [contradiction|ring].
      + transitivity (sumn t (fun l => sumn t (fun k => fmul (nth k a f0) (fmul (vc (iter k (mop (mat_pow t M r)) (unit_vec (t := t) 0)) l) (y l))))).
        * apply sumn_ext. intros l Hl. rewrite Ha, <- (sumn_mul_l HF) by exact Hl. apply sumn_ext. intros k Hk. rewrite W. ring.
        * rewrite (sumn_swap HF). apply (sumn_zero HF). intros k Hk. rewrite (sumn_mul_l HF), Hy by exact Hk. ring.
  Qed.
  Lemma right_krylov_1 t (M : @mat F) : right_krylov (t := t) (mat_pow t M 1) <-> right_krylov (t := t) M.
  Proof.
    split; intros H; (eapply (nonsingular_ext t); [|exact H]); intros i j Hi Hj; cbv beta; apply (f_equal (fun v => vc v i)), iter_ext; intros v;
      apply mop_ext; intros a b Ha Hb; [|symmetry]; apply (ProofTrail2.mat_pow_1 HF); assumption.
  Qed.

  Theorem algorithm_2_meaning t (M : @mat F) : 2 <= t -> (algorithm_2 M t <-> spanned t 1 M).
  Proof. intros Ht. rewrite (algorithm_2_iff HF Ht), <- (right_krylov_meaning t 1 M Ht). symmetry. apply right_krylov_1. Qed.
  Theorem algorithm_3_meaning t (M : @mat F) : 2 <= t -> (algorithm_3 M t <-> forall r, 2 <= r <= 4 * t -> spanned t r M).
  Proof.
    intros Ht. rewrite (algorithm_3_iff HF M Ht). split; intros H r Hr; apply (right_krylov_meaning t r M Ht), H, Hr.
  Qed.
  Theorem algorithm_3_2 t (M : @mat F) : 2 <= t -> algorithm_3 M t -> algorithm_2 M t.
  Proof.
    intros Ht H. apply (algorithm_2_iff HF Ht). apply (right_krylov_powers HF M 2 Ht). apply (algorithm_3_iff HF M Ht); [exact H|lia].
  Qed.
  Theorem minpoly_algorithms t (M : @mat F) : 2 <= t -> check_minpoly_condition t M ->
    algorithm_1 M t /\ algorithm_2 M t /\ forall r, 1 <= r <= 2 * t -> algorithm_2 (mat_pow t M r) t.
  Proof.
    intros Ht HC. assert (W1 : 1 <= t) by lia.
    assert (K : forall r, 1 <= r <= 2 * t -> algorithm_2 (mat_pow t M r) t).
    { intros r Hr. apply (algorithm_2_iff HF Ht). apply (no_small_right HF W1).
      apply (check_minpoly_iff HF) with (i := r) in HC; [|exact Hr]. destruct HC as [g [[Hk _] [Lg Hirr]]].
      apply (irreducible_no_small HF _ g Lg Hirr). apply (annihilates_act HF). exact Hk. }
    split; [|split; [|exact K]].
    - apply (algorithm_1_iff HF Ht). apply (no_small_left HF W1). apply (check_no_small HF t M W1 HC).
    - apply (algorithm_2_iff HF Ht). apply (no_small_right HF W1). apply (check_no_small HF t M W1 HC).
  Qed.
End Meaning.

(** ** Width 2 *)
Section Width2.
  Context {F : Type} {Fo : FOps F} (HF : is_field Fo).
  Add Ring FringW2 : (ff_ring _ HF).

  Lemma left_krylov_2 (M : @mat F) : left_krylov (t := 2) M <-> M 0 1 <> f0.
  Proof.
    assert (E : forall j, j < 2 -> mat_pow 2 M 1 0 j = M 0 j) by (intros j Hj; apply (ProofTrail2.mat_pow_1 HF); lia).
    split.
    - intros H Z. apply (ff_one_neq_zero _ HF). apply (H (fun j => if j =? 1 then f1 else f0)) with (j := 1); [|lia].
      intros [|[|k]] Hk; [| |lia]; cbn [sumn Nat.eqb].
      + cbn [mat_pow mat_id Nat.eqb]. unfold mat_id. cbn [Nat.eqb]. ring.
      + rewrite !E, Z by lia. ring.
    - intros N x Hx. pose proof (Hx 0 ltac:(lia)) as H0. pose proof (Hx 1 ltac:(lia)) as H1. cbn [sumn] in H0, H1. rewrite !E in H1 by lia.
      cbn [mat_pow] in H0. unfold mat_id in H0. cbn [Nat.eqb] in H0.
      assert (X0 : x 0 = f0) by (rewrite <- H0; ring). rewrite X0 in H1.
      assert (X1 : x 1 = f0).
      { transitivity (fmul (fmul (finv (M 0 1)) (M 0 1)) (x 1)); [rewrite (ff_inv _ HF _ N); ring|].
        transitivity (fmul (finv (M 0 1)) (fadd (fadd f0 (fmul (M 0 0) f0)) (fmul (M 0 1) (x 1)))); [ring|]. rewrite H1. ring. }
      intros [|[|j]] Hj; [exact X0|exact X1|lia].
  Qed.
  Lemma right_krylov_2 (M : @mat F) : right_krylov (t := 2) M <-> M 1 0 <> f0.
  Proof.
    assert (E : forall i, i < 2 -> vc (iter 1 (mop M) (unit_vec (t := 2) 0)) i = M i 0) by (intros i Hi; cbn [iter]; apply (mop_unit HF); lia).
    assert (E0 : forall i, i < 2 -> vc (iter 0 (mop M) (unit_vec (t := 2) 0)) i = if i =? 0 then f1 else f0).
    { intros i Hi. cbn [iter]. unfold unit_vec. rewrite vc_mk by exact Hi. reflexivity. }
    split.
    - intros H Z. apply (ff_one_neq_zero _ HF). apply (H (fun j => if j =? 1 then f1 else fopp (M 0 0))) with (j := 1); [|lia].
      intros [|[|k]] Hk; [| |lia]; cbn [sumn]; rewrite E, E0 by lia; cbn [Nat.eqb]; [ring|]. rewrite Z. ring.
    - intros N x Hx. pose proof (Hx 0 ltac:(lia)) as H0. pose proof (Hx 1 ltac:(lia)) as H1. cbn [sumn] in H0, H1. rewrite E, E0 in H0, H1 by lia.
      cbn [Nat.eqb] in H0, H1. assert (X1 : x 1 = f0).
      { transitivity (fmul (fmul (finv (M 1 0)) (M 1 0)) (x 1)); [rewrite (ff_inv _ HF _ N); ring|].
        transitivity (fmul (finv (M 1 0)) (fadd (fadd f0 (fmul f0 (x 0))) (fmul (M 1 0) (x 1)))); [ring|]. rewrite H1. ring. }
      rewrite X1 in H0. assert (X0 : x 0 = f0) by (rewrite <- H0; ring).
      intros [|[|j]] Hj; [exact X0|exact X1|lia].
  Qed.
  Theorem width_2 (M : @mat F) : (algorithm_1 M 2 <-> M 0 1 <> f0) /\ (algorithm_2 M 2 <-> M 1 0 <> f0) /\
    (algorithm_3 M 2 <-> forall r, 2 <= r <= 8 -> mat_pow 2 M r 1 0 <> f0).
  Proof.
    split; [rewrite (algorithm_1_iff HF (le_n 2)); apply left_krylov_2|]. split; [rewrite (algorithm_2_iff HF (le_n 2)); apply right_krylov_2|].
    rewrite (algorithm_3_iff HF M (le_n 2)). split; intros H r Hr; apply right_krylov_2, H; lia.
  Qed.
  Lemma minpoly_2 (A : @mat F) s : A 1 0 <> f0 ->
    (forall i j, i < 2 -> j < 2 -> mat_poly 2 [f1; fopp s; f1] A i j = f0) ->
    (forall x, fmul x (fsub (fopp s) x) <> f1) ->
    minpoly_fulfilled 2 A.
  Proof.
    intros N HA Hs. exists [f1; fopp s]. split; [split|split; [reflexivity|split; [cbn; lia|]]].
    - exact HA.
    - intros [|x [|y h]] Hh Hk; cbn [length] in Hh; [| |lia].
      + apply (ff_one_neq_zero _ HF). specialize (Hk 0 0 ltac:(lia) ltac:(lia)). unfold mat_poly in Hk. cbn [app length sumn nth mat_pow] in Hk.
        unfold mat_id in Hk. cbn [Nat.eqb] in Hk. rewrite <- Hk. ring.
      + apply N. specialize (Hk 1 0 ltac:(lia) ltac:(lia)). unfold mat_poly in Hk. cbn [app length sumn nth] in Hk.
        rewrite (ProofTrail2.mat_pow_1 HF) in Hk by lia. cbn [mat_pow] in Hk. unfold mat_id in Hk. cbn [Nat.eqb] in Hk. rewrite <- Hk. ring.
    - intros [a [b [La [Lb H]]]]. cbn [length] in La, Lb.
      destruct a as [|x [|x' a]]; [| |cbn in La; lia]; (destruct b as [|y [|y' b]]; [| |cbn in Lb; lia]).
      1, 2, 3: apply (ff_one_neq_zero _ HF); specialize (H 2); unfold product_coefficient in H; cbn [app sumn nth Nat.sub] in H; rewrite <- H; ring.
      pose proof (H 0) as H0. pose proof (H 1) as H1. unfold product_coefficient in H0, H1. cbn [app sumn nth Nat.sub] in H0, H1.
      apply (Hs x). rewrite <- H1. etransitivity; [|exact H0]. ring.
  Qed.
End Width2.

(** ** What does not follow, over the field with 13 elements *)
Section Refuted.
  Lemma all13 (x : F13) : In x (l13 [0; 1; 2; 3; 4; 5; 6; 7; 8; 9; 10; 11; 12]%Z).
  Proof.
    rewrite <- (pf_of_to _ _ F13_field x). pose proof (pf_range _ _ F13_field x) as H. set (z := f_to_Z x) in *. clearbody z.
    unfold l13. change (f_of_Z z) with (e13 z). apply in_map.
    assert (z = 0 \/ z = 1 \/ z = 2 \/ z = 3 \/ z = 4 \/ z = 5 \/ z = 6 \/ z = 7 \/ z = 8 \/ z = 9 \/ z = 10 \/ z = 11 \/ z = 12)%Z by lia.
    cbn [In]. intuition.
  Qed.
  Theorem order_7 : check_minpoly_condition 2 (entry [l13 [0; 12]; l13 [1; 7]]%Z) /\ ~ algorithm_3 (entry [l13 [0; 12]; l13 [1; 7]]%Z) 2.
  Proof.
    split.
    - apply (check_minpoly_iff F13_is_field). intros i Hi. assert (i = 1 \/ i = 2 \/ i = 3 \/ i = 4) as [->|[->|[->| ->]]] by lia.
      1: apply (minpoly_2 F13_is_field _ (e13 7)). 4: apply (minpoly_2 F13_is_field _ (e13 8)). 7: apply (minpoly_2 F13_is_field _ (e13 10)). 10: apply (minpoly_2 F13_is_field _ (e13 10)).
      1, 4, 7, 10: intros E; apply (f_equal (@f_to_Z _ F13_ops)) in E; vm_compute in E; discriminate.
      2, 4, 6, 8: intros x E; pose proof (all13 x) as Hx; apply (ff_eqb _ F13_is_field) in E;
        cbn [l13 map In] in Hx; repeat (destruct Hx as [<-|Hx]; [vm_compute in E; discriminate|]); destruct Hx.
      all: intros [|[|i]] [|[|j]] Hi' Hj'; try lia; apply (ff_eqb _ F13_is_field); vm_compute; reflexivity.
    - intros H. apply (proj2 (proj2 (width_2 F13_is_field _))) with (r := 7) in H; [|lia]. apply H. apply (ff_eqb _ F13_is_field). vm_compute. reflexivity.
  Qed.
  Theorem independent_13 :
    (let M := entry [l13 [1; 1]; l13 [0; 2]]%Z in algorithm_1 M 2 /\ ~ algorithm_2 M 2) /\
    (let M := entry [l13 [1; 0]; l13 [1; 2]]%Z in algorithm_3 M 2 /\ ~ algorithm_1 M 2) /\
    (let M := entry [l13 [0; 1]; l13 [1; 0]]%Z in algorithm_1 M 2 /\ algorithm_2 M 2 /\ ~ algorithm_3 M 2).
  Proof.
    assert (NE : forall x y : F13, feqb x y = false -> x <> y) by (intros x y H E; apply (ff_eqb _ F13_is_field) in E; congruence).
    assert (EQ : forall x y : F13, feqb x y = true -> x = y) by (intros x y H; apply (ff_eqb _ F13_is_field), H).
    split; [|split]; intros M; destruct (width_2 F13_is_field M) as [W1 [W2 W3]].
    - rewrite W1, W2. split; [apply NE; vm_compute; reflexivity|]. intros H. apply H, EQ. vm_compute. reflexivity.
    - rewrite W1, W3. split; [|intros H; apply H, EQ; vm_compute; reflexivity].
      intros r Hr. apply NE. assert (r = 2 \/ r = 3 \/ r = 4 \/ r = 5 \/ r = 6 \/ r = 7 \/ r = 8) as [->|[->|[->|[->|[->|[->| ->]]]]]] by lia; vm_compute; reflexivity.
    - rewrite W1, W2, W3. split; [apply NE; vm_compute; reflexivity|]. split; [apply NE; vm_compute; reflexivity|].
      intros H. apply (H 2); [lia|]. apply EQ. vm_compute. reflexivity.
  Qed.
End Refuted.

Theorem minpoly_decides {F} {Fo : FOps F} (HF : is_field Fo) t (M : @mat F) : 2 <= t -> check_minpoly_condition t M ->
  algorithm_1 M t /\ algorithm_2 M t /\
  (algorithm_3 M t <-> forall r, 2 * t < r <= 4 * t -> spanned t r M).
Proof.
  intros Ht HC. destruct (minpoly_algorithms HF t M Ht HC) as [H1 [H2 H3]]. split; [exact H1|]. split; [exact H2|].
  rewrite (algorithm_3_meaning HF t M Ht). split; intros H r Hr; [apply H; lia|].
  destruct (Nat.le_gt_cases r (2 * t)) as [L|L]; [|apply H; lia].
  apply (right_krylov_meaning HF t r M Ht), (algorithm_2_iff HF Ht), H3. lia.
Qed.
