(** * CyclicCert: computed certificates for the Krylov conditions of [ProofSubspace] *)
From Verif Require Import Base Field Spec SpecPoseidon SpecMinPoly LinAlg FieldPow LinOp PolyMod Vec Transfer Elim ProofSubspace.
Local Open Scope nat_scope.

Section Transpose.
  Context {F : Type} {Fo : FOps F} (HF : is_field Fo).
  Add Ring FringTr : (ff_ring _ HF).
  Lemma nonsingular_transpose n (A : @mat F) : nonsingular n A -> nonsingular n (fun i j => A j i).
  Proof.
    intros H. destruct (nonsingular_invertible HF n A H) as [B [H1 H2]].
    apply (invertible_nonsingular HF). exists (fun i j => B j i). split; intros i j Hi Hj.
    - transitivity (mat_mul n B A j i); [unfold mat_mul; apply sumn_ext; intros k Hk; ring|]. rewrite H2 by assumption. unfold mat_id. rewrite Nat.eqb_sym. reflexivity.
    - transitivity (mat_mul n A B j i); [unfold mat_mul; apply sumn_ext; intros k Hk; ring|]. rewrite H1 by assumption. unfold mat_id. rewrite Nat.eqb_sym. reflexivity.
  Qed.
End Transpose.

Section Compute.
  Context {F : Type} {Fo : FOps F}.
  (** r, r M, r M^2, ... *)
  Fixpoint left_rows (t : nat) (m : list (list F)) (r : list F) (n : nat) : list (list F) :=
    match n with O => [] | S k => r :: left_rows t m (row_mul r m (repeat f0 t)) k end.
  Definition dot (a b : list F) : F := fold_left fadd (map (fun '(x, y) => fmul x y) (combine a b)) f0.
  (** v, M v, M^2 v, ... *)
  Fixpoint right_rows (m : list (list F)) (v : list F) (n : nat) : list (list F) :=
    match n with O => [] | S k => v :: right_rows m (map (fun r => dot r v) m) k end.
  Fixpoint lact (m : list (list F)) (g v : list F) : list F :=
    match g with [] => repeat f0 (length v) | c :: g' => let u := lact m g' v in paxpy c v (map (fun r => dot r u) m) end.
  Definition cyc_b (t : nat) (m : list (list F)) (f : list F) (L : positive) (n : nat) : bool :=
    let e := f1 :: repeat f0 (t - 1) in
    if elim t (left_rows t m e t) then
    if elim t (right_rows m e t) then
    if length f =? t then
    if multiple_b L n then
    if leqb (lact m (f ++ [f1]) e) (repeat f0 t) then
      elim t (ppowers f (xpow f L) (pone t) t)
    else false else false else false else false else false.
End Compute.

Section Correct.
  Context {F : Type} {Fo : FOps F} {p : Z} (HP : is_prime_field Fo p).
  Let HF : is_field Fo := prime_field_is_field HP.
  Add Ring FringCC : (ff_ring _ HF).
  Context {t : nat} (Ht : 2 <= t) {m : list (list F)} (Hm : dims t t m).
  Notation act A := (LinOp.act (vz := vz) (vadd := vadd) (vsc := vsc) (A := A)).
  Notation M := (mop (t := t) (entry m)).
  Notation e0 := (unit_vec (t := t) 0).

  Lemma e0_list : f1 :: repeat f0 (t - 1) = proj1_sig e0.
  Proof.
    unfold unit_vec, mkvec. cbn [proj1_sig]. destruct t as [|n]; [lia|]. cbn [seq map Nat.eqb]. f_equal.
    replace (S n - 1) with n by lia. rewrite <- (map_const_repeat f0 n 1). apply map_ext_in. intros i Hi. apply in_seq in Hi.
    destruct i; [lia|reflexivity].
  Qed.
  Lemma dot_ok a b n : length a = n -> length b = n -> dot a b = sumn n (fun j => fmul (nth j a f0) (nth j b f0)).
  Proof.
    intros La Lb. unfold dot. rewrite (fold_left_fadd HF), map_length, combine_length, La, Lb, Nat.min_id.
    transitivity (sumn n (fun j => fmul (nth j a f0) (nth j b f0))); [|reflexivity].
    transitivity (sumn n (fun i => nth i (map (fun '(x, y) => fmul x y) (combine a b)) f0)); [ring|].
    apply sumn_ext. intros j Hj. rewrite (nth_map_d _ _ j (f0, f0)) by (rewrite combine_length; lia). rewrite combine_nth by lia. reflexivity.
  Qed.
  Lemma map_dot_ok (v : vec F t) : map (fun r => dot r (proj1_sig v)) m = proj1_sig (M v).
  Proof.
    destruct Hm as [Lm Rm]. unfold mop, mkvec. cbn [proj1_sig].
    etransitivity; [apply (list_as_map f0)|]. rewrite map_length, Lm. apply map_ext_in. intros i Hi. apply in_seq in Hi.
    rewrite (nth_map_d _ _ i []) by lia. rewrite (dot_ok _ _ t); [reflexivity|apply Rm; lia|apply vec_length].
  Qed.
  Lemma right_rows_ok n : forall (v : vec F t) k, k < n -> nth k (right_rows m (proj1_sig v) n) [] = proj1_sig (iter k M v).
  Proof.
    induction n as [|n IH]; intros v k Hk; [lia|]. cbn [right_rows]. destruct k as [|k]; [reflexivity|]. cbn [nth].
    rewrite map_dot_ok, IH by lia. cbn [iter]. rewrite iter_shift. reflexivity.
  Qed.
  Lemma lact_ok (v : vec F t) g : lact m g (proj1_sig v) = proj1_sig (act M g v).
  Proof.
    induction g as [|c g IH]; cbn [lact LinOp.act].
    - rewrite vec_length. symmetry. apply map_const_repeat.
    - rewrite IH, map_dot_ok. set (u := M (act M g v)). unfold vadd, mkvec. cbn [proj1_sig].
      etransitivity; [apply (list_as_map f0)|]. rewrite (paxpy_length c _ _ t) by apply vec_length.
      apply map_ext_in. intros i Hi. apply in_seq in Hi.
      unfold paxpy. rewrite (nth_map_d _ _ i (f0, f0)) by (rewrite combine_length, !vec_length; lia).
      rewrite combine_nth by (rewrite !vec_length; reflexivity). unfold vsc. rewrite vc_mk by lia. reflexivity.
  Qed.
  Lemma left_rows_length r n : length (left_rows t m r n) = n.
  Proof. revert r. induction n as [|n IH]; intros r; cbn; [reflexivity|]. rewrite IH. reflexivity. Qed.
  Lemma right_rows_length v n : length (right_rows m v n) = n.
  Proof. revert v. induction n as [|n IH]; intros r; cbn; [reflexivity|]. rewrite IH. reflexivity. Qed.
  (** row 0 of a power, multiplied once more *)
  Lemma pow_comm k : forall i j, i < t -> j < t -> mat_pow t (entry m) (S k) i j = mat_mul t (mat_pow t (entry m) k) (entry m) i j.
  Proof.
    induction k as [|k IH]; intros i j Hi Hj.
    - cbn [mat_pow]. rewrite (mat_mul_id_r HF), (mat_mul_id_l HF) by assumption. reflexivity.
    - change (mat_pow t (entry m) (S (S k))) with (mat_mul t (entry m) (mat_pow t (entry m) (S k))).
      transitivity (mat_mul t (entry m) (mat_mul t (mat_pow t (entry m) k) (entry m)) i j).
      { unfold mat_mul at 1 2. apply sumn_ext. intros l Hl. rewrite IH by assumption. reflexivity. }
      rewrite (mat_mul_assoc HF). reflexivity.
  Qed.
  Lemma left_rows_ok n : forall r k, length r = t -> (forall j, j < t -> nth j r f0 = mat_pow t (entry m) k 0 j) ->
    forall l, l < n -> length (nth l (left_rows t m r n) []) = t /\
      forall j, j < t -> nth j (nth l (left_rows t m r n) []) f0 = mat_pow t (entry m) (k + l) 0 j.
  Proof.
    destruct Hm as [Lm Rm]. induction n as [|n IH]; intros r k Lr Er l Hl; [lia|]. cbn [left_rows]. destruct l as [|l]; cbn [nth].
    - rewrite Nat.add_0_r. split; assumption.
    - destruct (row_mul_ok HF t t r m (repeat f0 t) Lr Lm Rm (repeat_length _ _)) as [L N].
      replace (k + S l) with (S k + l) by lia. apply IH; [exact L| |lia].
      intros j Hj. rewrite N by exact Hj. rewrite nth_repeat, pow_comm by lia. unfold mat_mul.
      transitivity (sumn t (fun l => fmul (nth l r f0) (nth j (nth l m []) f0))); [ring|].
      apply sumn_ext. intros i Hi. rewrite Er by exact Hi. reflexivity.
  Qed.

  Lemma elim_rows (rows : list (list F)) : length rows = t -> (forall i, i < t -> length (nth i rows []) = t) -> elim t rows = true ->
    nonsingular t (entry rows).
  Proof. intros L R H. apply (elim_ok HF t rows (conj L R) H). lia. Qed.

  (** one vector is enough *)
  Lemma krylov_one (A : @mat F) (w : vec F t) : (forall h, length h < t -> act (mop A) (h ++ [f1]) w <> vz) ->
    nonsingular t (fun i j => vc (iter j (mop A) w) i).
  Proof.
    intros NS x Hx j Hj. destruct (feq_dec HF (x j) f0) as [E|E]; [exact E|]. exfalso.
    apply (nonzero_act HF (vec_module HF) (mop_linear HF A) t w) with (c := map x (seq 0 t)).
    - exact NS.
    - rewrite map_length, seq_length. lia.
    - exists (x j). split; [apply in_map, in_seq; lia|exact E].
    - apply vec_ext. intros i Hi. rewrite (act_vc HF) by (apply (mop_linear HF) || exact Hi).
      rewrite map_length, seq_length. unfold vz. rewrite vc_mk by exact Hi. etransitivity; [|exact (Hx i Hi)].
      apply sumn_ext. intros k Hk. rewrite (nth_map_d _ _ k 0) by (rewrite seq_length; exact Hk).
      rewrite seq_nth by exact Hk. cbn [Nat.add]. ring.
  Qed.
  (** powers of an operator on a vector killed by a short polynomial *)
  Lemma reduce (B : vec F t -> vec F t) (HB : is_linear vadd vsc B) h (w : vec F t) : 1 <= length h -> act B (h ++ [f1]) w = vz ->
    forall n, exists c, length c = length h /\ act B c w = iter n B w.
  Proof.
    intros Hh Hk. induction n as [|n [c [Lc Ec]]].
    - exists (f1 :: repeat f0 (length h - 1)). split; [cbn; rewrite repeat_length; lia|]. cbn [LinOp.act iter].
      rewrite (act_zeros HF (vec_module HF) HB), (lin_z HF (vec_module HF) HB), (vadd_0_r HF (vec_module HF)). apply (vm_sc1 _ _ _ _ (vec_module HF)).
    - assert (Nc : c <> []) by (intros ->; cbn in Lc; lia).
      exists (xmod h c). split; [rewrite xmod_length by assumption; reflexivity|].
      rewrite (act_xmod HF (vec_module HF) HB h c w Lc Nc Hk), Ec. reflexivity.
  Qed.

  Context {f : list F} {L : positive} {n : nat} (H : cyc_b t m f L n = true).

  Theorem cyc_ok : left_krylov (t := t) (entry m) /\ forall r, 1 <= r <= n -> right_krylov (t := t) (mat_pow t (entry m) r).
  Proof.
    unfold cyc_b in H. rewrite e0_list in H.
    destruct (elim t (left_rows t m (proj1_sig e0) t)) eqn:H1; [|discriminate].
    destruct (elim t (right_rows m (proj1_sig e0) t)) eqn:H2; [|discriminate].
    destruct (length f =? t) eqn:H3; [|discriminate]. apply Nat.eqb_eq in H3.
    destruct (multiple_b L n) eqn:H4; [|discriminate].
    destruct (leqb (lact m (f ++ [f1]) (proj1_sig e0)) (repeat f0 t)) eqn:H5; [|discriminate]. apply (leqb_true HP) in H5.
    rename H into H6. rewrite lact_ok in H5.
    assert (HV := vec_module HF (t := t)). assert (HM := mop_linear HF (t := t) (entry m)).
    (* left *)
    assert (HL : left_krylov (t := t) (entry m)).
    { assert (E0 : forall j, j < t -> nth j (proj1_sig e0) f0 = mat_pow t (entry m) 0 0 j).
      { intros j Hj. change (nth j (proj1_sig e0) f0) with (vc e0 j). unfold unit_vec. rewrite vc_mk by exact Hj. cbn [mat_pow]. unfold mat_id. rewrite Nat.eqb_sym. reflexivity. }
      pose proof (left_rows_ok t (proj1_sig e0) 0 (vec_length _) E0) as R.
      apply (nonsingular_ext t (entry (left_rows t m (proj1_sig e0) t))).
      - intros i j Hi Hj. unfold entry. apply (proj2 (R i Hi)). exact Hj.
      - apply elim_rows; [apply left_rows_length|intros i Hi; apply (R i Hi)|exact H1]. }
    split; [exact HL|].
    (* right *)
    assert (HR : nonsingular t (fun i j => vc (iter j M e0) i)).
    { apply (nonsingular_ext t (fun i j => entry (right_rows m (proj1_sig e0) t) j i)).
      - intros i j Hi Hj. unfold entry. rewrite right_rows_ok by exact Hj. reflexivity.
      - apply (nonsingular_transpose HF). apply elim_rows; [apply right_rows_length| |exact H2].
        intros i Hi. rewrite right_rows_ok by exact Hi. apply vec_length. }
    assert (K0 : act M (f ++ [f1]) e0 = vz).
    { apply vec_eq. rewrite H5. symmetry. apply map_const_repeat. }
    (* f kills every vector *)
    assert (Span : forall v : vec F t, exists g, act M g e0 = v).
    { intros u. destruct (nonsingular_invertible HF t _ HR) as [B [HB _]].
      exists (map (fun k => sumn t (fun j => fmul (B k j) (vc u j))) (seq 0 t)).
      apply vec_ext. intros i Hi. rewrite (act_vc HF) by assumption. rewrite map_length, seq_length.
      transitivity (sumn t (fun k => fmul (vc (iter k M e0) i) (sumn t (fun j => fmul (B k j) (vc u j))))).
      { apply sumn_ext. intros k Hk. rewrite (nth_map_d _ _ k 0) by (rewrite seq_length; exact Hk). rewrite seq_nth by exact Hk. cbn [Nat.add]. ring. }
      transitivity (sumn t (fun j => fmul (mat_mul t (fun i j => vc (iter j M e0) i) B i j) (vc u j))).
      { unfold mat_mul. transitivity (sumn t (fun k => sumn t (fun j => fmul (fmul (vc (iter k M e0) i) (B k j)) (vc u j)))).
        - apply sumn_ext. intros k Hk. rewrite <- (sumn_mul_l HF). apply sumn_ext. intros j Hj. ring.
        - rewrite (sumn_swap HF). apply sumn_ext. intros j Hj. apply (sumn_mul_r HF). }
      transitivity (sumn t (fun j => fmul (mat_id i j) (vc u j))).
      { apply sumn_ext. intros j Hj. rewrite HB by assumption. reflexivity. }
      rewrite (sumn_single HF t i); [unfold mat_id; rewrite Nat.eqb_refl; ring|exact Hi|].
      intros j Hj N. unfold mat_id. destruct (Nat.eqb_spec i j); [congruence|]. ring. }
    assert (Kill : forall v : vec F t, act M (f ++ [f1]) v = vz).
    { intros v. destruct (Span v) as [g <-]. rewrite (act_comm HF HV HM), K0. apply (act_z HF HV HM). }
    (* the powers of M^L *)
    destruct (xpow_spec HP HV HM Ht H3 Kill L) as [Lx Ex].
    set (Q := ppowers f (xpow f L) (pone t) t) in *.
    assert (QP : forall n q, length q = t -> forall k, k < n ->
      length (nth k (ppowers f (xpow f L) q n) []) = t /\
      forall v : vec F t, act M (nth k (ppowers f (xpow f L) q n) []) v = iter (k * Pos.to_nat L) M (act M q v)).
    { induction n0 as [|n0 IH]; intros q Lq k Hk; [lia|]. cbn [ppowers]. destruct k as [|k]; cbn [nth].
      - split; [exact Lq|]. intros v. reflexivity.
      - destruct (IH (pmulm f (xpow f L) q)) with (k := k) as [L1 E1]; [apply (pmulm_len Ht H3); exact Lq|lia|].
        split; [exact L1|]. intros v. rewrite E1, (pmulm_act HP HV HM Ht H3 Kill) by exact Lq.
        rewrite Ex, <- iter_add. f_equal. lia. }
    specialize (QP t (pone t) (pone_len Ht H3)). fold Q in QP.
    assert (HQ : nonsingular t (entry Q)).
    { apply elim_rows; [|intros i Hi; apply (QP i Hi)|exact H6].
      unfold Q. clear. generalize (pone (F := F) t). generalize (xpow f L). induction t as [|k IH]; intros h q; cbn; [reflexivity|]. rewrite IH. reflexivity. }
    intros r Hr. set (B := iter r M).
    assert (HB : is_linear vadd vsc B) by (apply (iter_linear HF HV HM)).
    assert (EB : forall v, mop (t := t) (mat_pow t (entry m) r) v = B v) by (intros v; apply (mop_pow HF)).
    apply krylov_one. intros h Hh. rewrite (act_ext _ B) by exact EB. intros Hz.
    destruct h as [|c0 h0].
    { cbn [app] in Hz. rewrite (act_1 HF HV HB) in Hz. assert (T0 : 0 < t) by lia. exact (unit_vec_neq HF 0 T0 Hz). }
    set (h := c0 :: h0) in *.
    destruct (multiple_ok L n r H4 Hr) as [q Hq].
    assert (Red : forall N, exists C : nat -> list F, forall k, k < N -> length (C k) = length h /\ act B (C k) e0 = iter (k * q) B e0).
    { induction N as [|N [C HC]]; [exists (fun _ => []); intros k Hk; lia|].
      assert (Lh : 1 <= length h) by (cbn; lia). destruct (reduce B HB h e0 Lh Hz (N * q)) as [c [Lc Ec]].
      exists (fun k => if k =? N then c else C k). intros k Hk. destruct (Nat.eqb_spec k N) as [->|Nk]; [split; assumption|]. apply HC. lia. }
    destruct (Red t) as [C HC].
    destruct (underdetermined HF (length h) t (fun l k => nth l (C k) f0) Hh) as [y [[j [Hj Hy]] HU]].
    apply Hy. apply (nonsingular_transpose HF t _ HQ y); [|exact Hj]. clear j Hj Hy. intros i Hi.
    apply (HR (fun i => sumn t (fun k => fmul (entry Q k i) (y k)))); [|exact Hi]. clear i Hi. intros i Hi.
    (* both sides are the same combination of the vectors M^(L k) e0 *)
    transitivity (sumn t (fun k => fmul (y k) (vc (act M (nth k Q []) e0) i))).
    { transitivity (sumn t (fun l => sumn t (fun k => fmul (y k) (fmul (nth l (nth k Q []) f0) (vc (iter l M e0) i))))).
      { apply sumn_ext. intros l Hl. rewrite <- (sumn_mul_l HF). apply sumn_ext. intros k Hk. unfold entry. ring. }
      rewrite (sumn_swap HF). apply sumn_ext. intros k Hk. rewrite (sumn_mul_l HF). f_equal.
      rewrite (act_vc HF) by assumption. rewrite (proj1 (QP k Hk)). reflexivity. }
    transitivity (sumn t (fun k => fmul (y k) (vc (act B (C k) e0) i))).
    { apply sumn_ext. intros k Hk. f_equal. f_equal. rewrite (proj2 (QP k Hk)), (proj2 (HC k Hk)), (pone_act HP HV HM).
      unfold B. rewrite <- iter_mul. f_equal. rewrite Hq. lia. }
    transitivity (sumn t (fun k => sumn (length h) (fun l => fmul (fmul (nth l (C k) f0) (y k)) (vc (iter l B e0) i)))).
    { apply sumn_ext. intros k Hk. rewrite (act_vc HF) by assumption. rewrite (proj1 (HC k Hk)), <- (sumn_mul_l HF). apply sumn_ext. intros l Hl. ring. }
    rewrite (sumn_swap HF). apply (sumn_zero HF). intros l Hl. rewrite (sumn_mul_r HF), (HU l Hl). ring.
  Qed.
End Correct.
