(** * ProofKrylov: the Krylov conditions of [ProofSubspace] for matrices of integers, in every field with p elements *)
From Coq Require Import Znumtheory.
From Verif Require Import Base Field Spec SpecPoseidon SpecMinPoly LinAlg FieldPow Fp LinOp PolyMod Vec Transfer Elim MinPolyCert
  ModelSubspace SpecInstances ProofInstances ProofSubspace CyclicCert.
Local Open Scope nat_scope.

Section Entries.
  Context {F : Type} {Fo : FOps F} (HF : is_field Fo) {t : nat}.
  Add Ring FringKr : (ff_ring _ HF).
  Lemma right_krylov_entries (A : @mat F) : 1 <= t ->
    (right_krylov (t := t) A <-> nonsingular t (fun i j => mat_pow t A j i 0)).
  Proof.
    intros Ht. assert (E : forall i j, i < t -> j < t -> vc (iter j (mop (t := t) A) (unit_vec 0)) i = mat_pow t A j i 0).
    { intros i j Hi Hj. rewrite <- (mop_pow HF). apply (mop_unit HF); [exact Hi|lia]. }
    split; intros H; eapply (nonsingular_ext t); try exact H; intros i j Hi Hj; cbv beta; [|symmetry]; apply E; assumption.
  Qed.

  (** when no small polynomial in A kills a nonzero vector *)
  Context (Ht : 1 <= t) {A : @mat F}
    (NS : forall h (w : vec F t), length h < t -> w <> vz -> LinOp.act (vz := vz) (vadd := vadd) (vsc := vsc) (A := mop A) (h ++ [f1]) w <> vz).
  Lemma no_small_right : right_krylov (t := t) A.
  Proof. apply (krylov HF Ht NS). apply (unit_vec_neq HF). lia. Qed.
  Lemma no_small_left : left_krylov (t := t) A.
  Proof.
    intros x Hx j Hj. destruct (vm_dec _ _ _ _ (vec_module HF) (mkvec (t := t) x)) as [Z|N].
    - rewrite <- (vc_mk (t := t) x j Hj), Z. exact (vc_mk (fun _ => f0) j Hj).
    - exfalso. destruct (krylov_span HF Ht NS (mkvec x) (unit_vec 0) N) as [g [Lg Eg]].
      assert (E0 : vc (unit_vec (t := t) 0) 0 = f1) by (unfold unit_vec; rewrite vc_mk by lia; reflexivity).
      apply (ff_one_neq_zero _ HF). rewrite <- E0, <- Eg.
      rewrite (act_vc HF) by (apply (mop_linear HF) || lia). apply (sumn_zero HF). intros k Hk.
      assert (Z : vc (iter k (mop A) (mkvec (t := t) x)) 0 = f0); [|rewrite Z; ring].
      rewrite <- (mop_pow HF). unfold mop. rewrite vc_mk by lia. rewrite Lg in Hk. rewrite <- (Hx k Hk).
      apply sumn_ext. intros l Hl. rewrite vc_mk by exact Hl. reflexivity.
  Qed.
End Entries.

Definition cyclic_cert (P : mparams) (Hok : params_ok P = true) (p : Z) (t : nat) (m : list (list Z)) (f : list Z) (L : positive) : bool :=
  ((pz P =? p) && (2 <? p))%Z && (2 <=? t) && shape_b t t m &&
  cyc_b (Fo := fp_ops P Hok) t (map (map (f_of_Z (FOps := fp_ops P Hok))) m) (map (f_of_Z (FOps := fp_ops P Hok)) f) L (4 * t).

(** both conditions, for all powers up to 4t *)
Definition krylov_ok {F} {Fo : FOps F} (t : nat) (A : @mat F) : Prop :=
  left_krylov (t := t) A /\ forall r, 1 <= r <= 4 * t -> right_krylov (t := t) (mat_pow t A r).

Theorem cyclic_cert_ok P Hok p t m f L : prime p -> cyclic_cert P Hok p t m f L = true ->
  forall F (Fo : FOps F), is_prime_field Fo p -> krylov_ok t (entry (map (map (f_of_Z (F := F))) m)).
Proof.
  intros Hpr H F Fo HP. unfold cyclic_cert in H. rewrite !andb_true_iff in H. destruct H as [[[[H1 H2] H3] H4] H5].
  apply Z.eqb_eq in H1. apply Z.ltb_lt in H2. apply Nat.leb_le in H3. apply shape_ok in H4.
  assert (HPc : is_prime_field (fp_ops P Hok) p) by (rewrite <- H1; apply fp_is_prime_field; rewrite H1; assumption).
  assert (HF := prime_field_is_field HP). assert (HFc := prime_field_is_field HPc). assert (T1 : 1 <= t) by lia.
  destruct (cyc_ok HPc H3 (map_of_Z_dims (Fo := fp_ops P Hok) t t m H4) H5) as [A B].
  assert (E : forall i j, i < t -> j < t -> entry (map (map (f_of_Z (F := F))) m) i j = phi (Fo := fp_ops P Hok) (entry (Fo := fp_ops P Hok) (map (map (f_of_Z (FOps := fp_ops P Hok))) m) i j)).
  { intros i j Hi Hj. apply (entry_transfer HPc HP m t t); [apply (proj1 H4)|intros k Hk; apply (shape_nth t t m k H4 Hk)|exact Hi|exact Hj]. }
  split.
  - eapply (nonsingular_transfer HPc HP t); [|exact A]. intros i j Hi Hj. cbv beta. apply (mat_pow_transfer HPc HP t _ _ i E); [lia|exact Hj].
  - intros r Hr. apply (right_krylov_entries HF _ T1). eapply (nonsingular_transfer HPc HP t); [|exact (proj1 (right_krylov_entries HFc _ T1) (B r Hr))].
    intros i j Hi Hj. cbv beta. apply (mat_pow_transfer HPc HP t); [|exact Hi|lia]. apply (mat_pow_transfer HPc HP t). exact E.
Qed.

Theorem krylov_ok_algorithms {F} {Fo : FOps F} (HF : is_field Fo) t (A : @mat F) : 2 <= t -> krylov_ok t A ->
  algorithm_1 A t /\ algorithm_2 A t /\ algorithm_3 A t.
Proof. intros Ht [H1 H2]. apply (algorithms_accept HF); assumption. Qed.
