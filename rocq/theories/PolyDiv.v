(** * PolyDiv: an irreducible minimal polynomial of full degree excludes small annihilators *)
From Verif Require Import Base Field Spec SpecPoseidon SpecMinPoly LinAlg FieldPow LinOp Vec.
Local Open Scope nat_scope.

Section PolyDiv.
  Context {F : Type} {Fo : FOps F} (HF : is_field Fo).
  Add Ring FringPD : (ff_ring _ HF).

  Lemma nth_shift n (l : list F) k : nth k (repeat f0 n ++ l) f0 = if k <? n then f0 else nth (k - n) l f0.
  Proof.
    destruct (Nat.ltb_spec k n) as [L|L].
    - rewrite app_nth1 by (rewrite repeat_length; exact L). apply nth_repeat.
    - rewrite app_nth2 by (rewrite repeat_length; exact L). rewrite repeat_length. reflexivity.
  Qed.
  (** the product with one more leading coefficient *)
  Lemma product_snoc q c (h : list F) k :
    product_coefficient (q ++ [c]) h k = fadd (product_coefficient q h k) (if k <? length q then f0 else fmul c (nth (k - length q) h f0)).
  Proof.
    unfold product_coefficient.
    transitivity (sumn (S k) (fun i => fadd (fmul (nth i q f0) (nth (k - i) h f0)) (if i =? length q then fmul c (nth (k - i) h f0) else f0))).
    { apply sumn_ext. intros i Hi. destruct (Nat.eqb_spec i (length q)) as [->|N].
      - rewrite nth_middle, (nth_overflow q) by lia. ring.
      - destruct (Nat.lt_ge_cases i (length q)).
        + rewrite app_nth1 by assumption. ring.
        + rewrite (nth_overflow (q ++ [c])), (nth_overflow q) by (rewrite ?app_length; cbn; lia). ring. }
    rewrite (sumn_add HF). f_equal. destruct (Nat.ltb_spec k (length q)) as [L|L].
    - apply (sumn_zero HF). intros i Hi. destruct (Nat.eqb_spec i (length q)); [lia|reflexivity].
    - rewrite (sumn_single HF (S k) (length q) (fun i => if i =? length q then fmul c (nth (k - i) h f0) else f0)); [rewrite Nat.eqb_refl; reflexivity|lia|].
      intros i Hi N. destruct (Nat.eqb_spec i (length q)); [contradiction|reflexivity].
  Qed.

  Definition psub_lists (n : nat) (a b : list F) : list F := map (fun i => fsub (nth i a f0) (nth i b f0)) (seq 0 n).
  Lemma psub_nth n a b k : nth k (psub_lists n a b) f0 = if k <? n then fsub (nth k a f0) (nth k b f0) else f0.
  Proof.
    unfold psub_lists. destruct (Nat.ltb_spec k n) as [L|L].
    - rewrite (nth_indep _ f0 (fsub (nth 0 a f0) (nth 0 b f0))) by (rewrite map_length, seq_length; exact L).
      rewrite (map_nth (fun i => fsub (nth i a f0) (nth i b f0))), seq_nth by exact L. reflexivity.
    - apply nth_overflow. rewrite map_length, seq_length. exact L.
  Qed.

  (** division of [m] by the monic [h ++ [1]] *)
  Lemma monic_division h : forall n m, length m = n + length h ->
    exists q r, length q = n /\ length r = length h /\ (1 <= n -> last q f0 = last m f0) /\
      forall k, nth k m f0 = fadd (product_coefficient q (h ++ [f1]) k) (nth k r f0).
  Proof.
    induction n as [|n IH]; intros m Hm.
    - exists [], m. split; [reflexivity|]. split; [lia|]. split; [lia|]. intros k. unfold product_coefficient.
      rewrite (sumn_zero HF); [ring|]. intros i Hi. destruct i; cbn; ring.
    - assert (Nm : m <> []) by (intros ->; cbn in Hm; lia). destruct (exists_last Nm) as [m' [c ->]].
      rewrite app_length in Hm. cbn in Hm.
      set (s := map (fmul c) (h ++ [f1])).
      destruct (IH (psub_lists (n + length h) m' (repeat f0 n ++ s))) as [q [r [Lq [Lr [_ E]]]]].
      { unfold psub_lists. rewrite map_length, seq_length. reflexivity. }
      exists (q ++ [c]), r. split; [rewrite app_length; cbn; lia|]. split; [exact Lr|].
      split; [intros _; rewrite !last_last; reflexivity|]. intros k. rewrite product_snoc. specialize (E k).
      rewrite psub_nth, nth_shift in E. rewrite Lq.
      assert (Es : forall j, nth j s f0 = fmul c (nth j (h ++ [f1]) f0)).
      { intros j. unfold s. destruct (Nat.lt_ge_cases j (length (h ++ [f1]))) as [L|L].
        - rewrite (nth_indep _ f0 (fmul c f0)) by (rewrite map_length; exact L). apply map_nth.
        - rewrite !nth_overflow by (rewrite ?map_length; exact L). ring. }
      rewrite Es in E.
      replace (fadd (fadd (product_coefficient q (h ++ [f1]) k) (if k <? n then f0 else fmul c (nth (k - n) (h ++ [f1]) f0))) (nth k r f0))
        with (fadd (fadd (product_coefficient q (h ++ [f1]) k) (nth k r f0)) (if k <? n then f0 else fmul c (nth (k - n) (h ++ [f1]) f0))) by ring.
      rewrite <- E.
      destruct (Nat.ltb_spec k (n + length h)) as [L|L].
      + rewrite app_nth1 by lia. ring.
      + destruct (Nat.ltb_spec k n) as [L2|L2]; [lia|].
        destruct (Nat.eq_dec k (n + length h)) as [->|N].
        * replace (n + length h) with (length m') by lia. rewrite nth_middle.
          replace (length m' - n) with (length h) by lia. rewrite nth_middle. ring.
        * rewrite !nth_overflow by (rewrite ?app_length; cbn; lia). ring.
  Qed.

  Context {t : nat}.
  Notation act A := (LinOp.act (vz := vz) (vadd := vadd) (vsc := vsc) (A := A)).

  Theorem irreducible_no_small (A : @mat F) g : length g = t -> is_irreducible g ->
    (forall v : vec F t, act (mop A) (g ++ [f1]) v = vz) ->
    forall h (w : vec F t), length h < t -> w <> vz -> act (mop A) (h ++ [f1]) w <> vz.
  Proof.
    intros Lg Hirr Hk.
    assert (X : forall e h (w : vec F t), length h = e -> e < t -> w <> vz -> act (mop A) (h ++ [f1]) w <> vz).
    2:{ intros h w Hh. apply (X (length h)); [reflexivity|exact Hh]. }
    induction e as [e IH] using lt_wf_ind. intros h w Lh He Hw Hz.
    destruct (monic_division h (S t - e) (g ++ [f1])) as [q [r [Lq [Lr [Eq E]]]]].
    { rewrite app_length. change (length [f1]) with 1. lia. }
    specialize (Eq ltac:(lia)). rewrite last_last in Eq.
    assert (HV := vec_module HF (t := t)). assert (HA := mop_linear HF (t := t) A).
    assert (Er : act (mop A) r w = vz).
    { assert (S1 : act (mop A) (g ++ [f1]) w = vadd (act (mop A) (pmull q (h ++ [f1])) w) (act (mop A) r w)).
      { rewrite <- (act_paddl HF (mop A) HA). apply (act_coeffs HF (mop A) HA). intros k.
        rewrite (paddl_nth HF), (pmull_nth HF). apply E. }
      rewrite Hk, (act_pmull HF (mop A) HA), Hz, (act_z HF HV HA), (vm_0 _ _ _ _ HV) in S1. symmetry. exact S1. }
    assert (D : (exists x, In x r /\ x <> f0) \/ (forall x, In x r -> x = f0)).
    { clear -HF. induction r as [|z c [[y [Hy Hn]]|IHr]].
      - right. intros z [].
      - left. exists y. split; [right; exact Hy|exact Hn].
      - destruct (feq_dec HF z f0) as [->|N]; [right; intros y [<-|Hy]; [reflexivity|apply IHr, Hy]|].
        left. exists z. split; [left; reflexivity|exact N]. }
    destruct D as [D|D].
    - revert Er. apply (nonzero_act HF HV HA e w); [|lia|exact D].
      intros h' Hh'. apply (IH (length h')); [exact Hh'|reflexivity|lia|exact Hw].
    - (* the division is exact *)
      assert (Nq : q <> []) by (intros ->; cbn [length] in Lq; lia). destruct (exists_last Nq) as [q' [c ->]].
      rewrite last_last in Eq. subst c. rewrite app_length in Lq. cbn [length] in Lq.
      destruct e as [|e].
      { destruct h; [|discriminate]. cbn [app] in Hz. rewrite (act_1 HF HV HA) in Hz. contradiction. }
      apply (proj2 Hirr). exists q', h. split; [lia|]. split; [lia|]. intros k. rewrite E.
      assert (nth k r f0 = f0) as ->; [|ring].
      destruct (Nat.lt_ge_cases k (length r)) as [L|L]; [apply D, nth_In, L|apply nth_overflow, L].
  Qed.
End PolyDiv.
