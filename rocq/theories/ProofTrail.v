(** * ProofTrail: differences that avoid the S-boxes of partial rounds *)
From Verif Require Import Base Field Spec SpecPoseidon LinAlg FieldPow Elim ProofSubspace.
Local Open Scope nat_scope.

Section Trail.
  Context {F : Type} {Fo : FOps F} (HF : is_field Fo) {t : nat} (Ht : 1 <= t) {M : @mat F}.
  Add Ring FringTl : (ff_ring _ HF).
  (** a round: any function on element 0, constants on the others, then the matrix *)
  Context {s : nat -> F -> F} {c : nat -> nat -> F}.
  Definition tround (x : list F) (r : nat) : list F :=
    mat_apply t t M (map (fun i => if i =? 0 then s r (nth 0 x f0) else fadd (nth i x f0) (c r i)) (seq 0 t)).
  Definition tstate (lo k : nat) (x : list F) : list F := fold_left tround (seq lo k) x.

  Lemma tround_diff x y r i : nth 0 x f0 = nth 0 y f0 -> i < t ->
    fsub (nth i (tround x r) f0) (nth i (tround y r) f0) = sumn t (fun j => fmul (M i j) (fsub (nth j x f0) (nth j y f0))).
  Proof.
    intros E Hi. unfold tround. rewrite !mat_apply_nth by exact Hi.
    rewrite <- (sumn_sub HF). apply sumn_ext. intros j Hj.
    rewrite !(nth_map_d _ _ j 0) by (rewrite seq_length; exact Hj). rewrite !seq_nth by exact Hj. cbn [Nat.add].
    destruct (Nat.eqb_spec j 0) as [->|N]; [rewrite E|]; ring.
  Qed.
  Lemma tstate_S lo k x : tstate lo (S k) x = tround (tstate lo k x) (lo + k).
  Proof. unfold tstate. rewrite seq_S, fold_left_app. reflexivity. Qed.
  Lemma tstate_diff lo x y k : (forall l, l < k -> nth 0 (tstate lo l x) f0 = nth 0 (tstate lo l y) f0) ->
    forall i, i < t -> fsub (nth i (tstate lo k x) f0) (nth i (tstate lo k y) f0) =
      sumn t (fun j => fmul (mat_pow t M k i j) (fsub (nth j x f0) (nth j y f0))).
  Proof.
    induction k as [|k IH]; intros H i Hi.
    - cbn [tstate seq fold_left mat_pow]. rewrite (sumn_single HF t i); [unfold mat_id; rewrite Nat.eqb_refl; unfold tstate; cbn; ring|exact Hi|].
      intros j Hj N. unfold mat_id. destruct (Nat.eqb_spec i j); [congruence|]. ring.
    - rewrite !tstate_S, tround_diff; [|apply H; lia|exact Hi]. cbn [mat_pow]. unfold mat_mul.
      transitivity (sumn t (fun l => sumn t (fun j => fmul (fmul (M i l) (mat_pow t M k l j)) (fsub (nth j x f0) (nth j y f0))))).
      + apply sumn_ext. intros l Hl. rewrite IH by (exact Hl || (intros; apply H; lia)).
        rewrite <- (sumn_mul_l HF). apply sumn_ext. intros j Hj. ring.
      + rewrite (sumn_swap HF). apply sumn_ext. intros j Hj. apply (sumn_mul_r HF).
  Qed.

  Lemma first_difference lo x y n : (forall k, k < n -> nth 0 (tstate lo k x) f0 = nth 0 (tstate lo k y) f0) \/
    exists k, k < n /\ nth 0 (tstate lo k x) f0 <> nth 0 (tstate lo k y) f0.
  Proof.
    induction n as [|n [IH|[k [Hk N]]]]; [left; intros k Hk; lia| |right; exists k; split; [lia|exact N]].
    destruct (feq_dec HF (nth 0 (tstate lo n x) f0) (nth 0 (tstate lo n y) f0)) as [E|N].
    - left. intros k Hk. destruct (Nat.eq_dec k n) as [->|]; [exact E|]. apply IH. lia.
    - right. exists n. split; [lia|exact N].
  Qed.
  Theorem trail_active lo x y : left_krylov (t := t) M -> length x = t -> length y = t -> x <> y ->
    exists k, k < t /\ nth 0 (tstate lo k x) f0 <> nth 0 (tstate lo k y) f0.
  Proof.
    intros HL Lx Ly N. destruct (first_difference lo x y t) as [H|H]; [|exact H]. exfalso. apply N.
    apply (nth_ext _ _ f0 f0); [lia|]. intros i Hi. apply (fsub_eq_0 HF).
    apply (HL (fun j => fsub (nth j x f0) (nth j y f0))); [|lia]. intros k Hk.
    rewrite <- (tstate_diff lo x y k) by (lia || (intros; apply H; lia)).
    rewrite (H k Hk). ring.
  Qed.
  Theorem trail_exists lo n : n < t -> exists x y, length x = t /\ length y = t /\ x <> y /\
    forall k, k < n -> nth 0 (tstate lo k x) f0 = nth 0 (tstate lo k y) f0.
  Proof.
    intros Hn. destruct (underdetermined HF n t (fun k j => mat_pow t M k 0 j) Hn) as [d [[j [Hj Nj]] Hd]].
    exists (map d (seq 0 t)), (repeat f0 t). split; [rewrite map_length, seq_length; reflexivity|]. split; [apply repeat_length|].
    assert (En : forall i, i < t -> nth i (map d (seq 0 t)) f0 = d i).
    { intros i Hi. rewrite (nth_map_d _ _ i 0) by (rewrite seq_length; exact Hi). rewrite seq_nth by exact Hi. reflexivity. }
    split.
    - intros E. apply Nj. rewrite <- (En j Hj), E. apply nth_repeat.
    - induction k as [k IH] using lt_wf_ind. intros Hk. apply (fsub_eq_0 HF).
      rewrite (tstate_diff lo) by (lia || (intros l Hl; apply IH; lia)).
      etransitivity; [|exact (Hd k Hk)]. apply sumn_ext. intros i Hi. rewrite En, nth_repeat by exact Hi. ring.
  Qed.
End Trail.
Arguments tround {F Fo} t M s c.
Arguments tstate {F Fo} t M s c.
