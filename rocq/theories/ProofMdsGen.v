(** * ProofMdsGen: the matrices of create_mds_p are MDS *)
From Verif Require Import Base Field Spec SpecMDS SpecPoseidon LinAlg MatLoops Elim MDS ModelGrain ModelPoseidon.
From Verif Require ProofPoseidonFin Props_Poseidon.
Local Open Scope nat_scope.

Section M.
  Context {F : Type} {Fo : FOps F} (HF : is_field Fo).
  Add Ring FRMdsGen : (ff_ring _ HF).
  Lemma dup_false (l : list F) : has_duplicates l = false -> NoDup l.
  Proof.
    intros H. unfold has_duplicates in H. apply negb_false_iff in H. rewrite forallb_forall in H. apply (NoDup_nth l f0). intros i j Hi Hj E.
    specialize (H i ltac:(apply in_seq; lia)). rewrite forallb_forall in H. specialize (H j ltac:(apply in_seq; lia)). apply orb_true_iff in H. destruct H as [H|H]; [apply Nat.eqb_eq; exact H|].
    apply negb_true_iff in H. rewrite E in H. assert (K : feqb (nth j l f0) (nth j l f0) = true) by now apply (ff_eqb _ HF). congruence.
  Qed.
  Lemma list_len fuel n k : forall s l s', grain_list fuel n k s = Ok (l, s') -> length l = k.
  Proof.
    induction k as [|k IH]; intros s l s' H; cbn [grain_list] in H; [injection H as <- _; reflexivity|]. inv_ok H. destruct a as [v s1]. inv_ok H. destruct a as [l1 s2]. injection H as <- _. apply IH in E0. cbn. lia.
  Qed.
  Lemma distinct_ok fuel tries n k : forall s l s', distinct_list (F := F) fuel tries n k s = Ok (l, s') -> length l = k /\ NoDup l.
  Proof.
    induction tries as [|m IH]; intros s l s' H; cbn [distinct_list] in H; [discriminate|]. inv_ok H. destruct a as [v s1]. destruct (has_duplicates (map f_of_Z v)) eqn:D; [apply IH in H; exact H|].
    injection H as <- _. split; [rewrite map_length; apply list_len in E; exact E|apply dup_false; exact D].
  Qed.
  Definition cauchy (t : nat) (M : list (list F)) : Prop :=
    exists xs ys, length xs = t /\ length ys = t /\ NoDup (xs ++ ys) /\ forall i j, i < t -> j < t -> fmul (entry M i j) (fadd (nth i xs f0) (nth j ys f0)) = f1.
  Lemma create_cauchy fuel tries n t : forall s M s', create_mds_p (F := F) fuel tries n t s = Ok (M, s') -> dims t t M /\ cauchy t M.
  Proof.
    induction tries as [|m IH]; intros s M s' H; cbn [create_mds_p] in H; [discriminate|]. inv_ok H. destruct a as [l s1]. cbv zeta in H.
    match type of H with (if ?f then _ else _) = _ => destruct f eqn:Hf; [|apply IH in H; exact H] end. injection H as <- _. apply distinct_ok in E. destruct E as [L N].
    rewrite forallb_forall in Hf. split; [apply (mk_mat_dims t t (fun i j => finv (fadd (nth i (firstn t l) f0) (nth j (skipn t l) f0))))|].
    exists (firstn t l), (skipn t l). split; [rewrite firstn_length; lia|]. split; [rewrite skipn_length; lia|]. rewrite firstn_skipn. split; [exact N|]. intros i j Hi Hj.
    pose proof (mk_mat_entry t t (fun i j => finv (fadd (nth i (firstn t l) f0) (nth j (skipn t l) f0))) i j Hi Hj) as Ee. unfold mk_mat in Ee. rewrite Ee. clear Ee.
    specialize (Hf i ltac:(apply in_seq; lia)). rewrite forallb_forall in Hf. specialize (Hf j ltac:(apply in_seq; lia)). apply negb_true_iff in Hf.
    apply (ff_inv _ HF). intros C. apply (ff_eqb _ HF) in C. congruence.
  Qed.
  Lemma cauchy_mds t M : cauchy t M -> minors_nonsingular t (entry M).
  Proof.
    intros (xs & ys & Lx & Ly & N & H).
    assert (Nz : forall i j, i < t -> j < t -> fadd (nth i xs f0) (nth j ys f0) <> f0).
    { intros i j Hi Hj C. specialize (H i j Hi Hj). rewrite C in H. apply (ff_one_neq_zero _ HF). rewrite <- H. ring. }
    assert (Ei : forall i j, i < t -> j < t -> entry M i j = finv (fadd (nth i xs f0) (nth j ys f0))).
    { intros i j Hi Hj. pose proof (H i j Hi Hj) as E. pose proof (ff_inv _ HF _ (Nz i j Hi Hj)) as V. set (u := fadd _ _) in *. set (e := entry M i j) in *.
      transitivity (fmul e (fmul (finv u) u)); [rewrite V; ring|]. transitivity (fmul (fmul e u) (finv u)); [ring|]. rewrite E. ring. }
    rewrite (NoDup_nth _ f0), app_length, Lx, Ly in N. intros rows cols NR NC EL HR HCs.
    eapply (nonsingular_ext _ (fun i j => finv (fadd (nth (nth i rows 0) xs f0) (nth (nth j cols 0) ys f0)))).
    - intros i j Hi Hj. symmetry. apply Ei; [apply HR|apply HCs]; apply nth_In; lia.
    - apply (cauchy_minors HF t (fun i => nth i xs f0) (fun j => nth j ys f0)); try assumption.
      + intros i j Hi Hj E. apply N; [lia|lia|]. rewrite !app_nth1 by lia. exact E.
      + intros i j Hi Hj E. assert (t + i = t + j); [|lia]. apply N; [lia|lia|]. rewrite !app_nth2 by lia. rewrite Lx. replace (t + i - t) with i by lia. replace (t + j - t) with j by lia. exact E.
  Qed.
  Theorem create_mds fuel tries n t s M s' : create_mds_p (F := F) fuel tries n t s = Ok (M, s') ->
    dims t t M /\ cauchy t M /\ minors_nonsingular t (entry M) /\ is_mds t (entry M).
  Proof.
    intros H. apply create_cauchy in H. destruct H as [D C]. pose proof (cauchy_mds t M C) as X. repeat split; try apply D; try assumption. apply (minors_mds HF). exact X.
  Qed.
  Lemma seq_nth_lt a k i : i < k -> nth i (seq a k) 0 = a + i.
  Proof. apply seq_nth. Qed.
  (** with one partial round every MDS matrix is accepted *)
  Theorem one_round_accepted dbg t d rf (M rc : list (list F)) : dims t t M -> is_mds t (entry M) -> Props_Poseidon.ps_exact_constants t (rf + 1) rc ->
    (N.of_nat rf + 1 < usize_mod)%N -> (d = 3 \/ d = 5 \/ d = 7) -> rf mod 2 = 0 -> 2 <= t -> exists P, ps_new dbg t d rf 1 M rc = Ok P.
  Proof.
    intros HD HM HR Hov Hd Hr Ht. pose proof (mds_minors HF t _ HM) as X.
    destruct (Props_Poseidon.C16_poseidon_new_success_iff F Fo HF dbg t d rf 1 M rc HD HR Hov) as [[_ A] _]. apply A.
    split; [exact Hd|]. split; [exact Hr|]. split; [exact Ht|]. split; [lia|].
    assert (S1 : forall a k, a + k <= t -> nonsingular k (fun i j => entry M (a + i) (a + j))).
    { intros a k Hk. specialize (X (seq a k) (seq a k) (seq_NoDup k a) (seq_NoDup k a) eq_refl).
      rewrite seq_length in X. eapply nonsingular_ext; [|apply X; intros r Hr'; apply in_seq in Hr'; lia]. intros i j Hi Hj. cbn beta. rewrite !seq_nth by assumption. reflexivity. }
    split.
    - intros k Hk. apply (S1 0 k). lia.
    - intros k Hk k' Hk'. assert (k = 1) by lia. subst k. eapply nonsingular_ext; [|apply (S1 1 k'); lia]. intros i j Hi Hj.
      cbn [mat_pow]. rewrite (mat_mul_id_r HF) by lia. reflexivity.
  Qed.
End M.

