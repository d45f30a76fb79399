(** * ProofReject: certificates that a drawn diagonal fails check_minpoly_condition *)
From Coq Require Import Znumtheory.
From Verif Require Import Base Field Spec SpecPoseidon SpecMinPoly LinAlg FieldPow Fp Vec LinOp Elim Transfer PolyMod MinPolyCert
  ModelSubspace ModelGenerate.
From Verif Require ProofMinPoly2.
Local Open Scope nat_scope.

Definition reject_b (P : mparams) (Hok : params_ok P = true) (p : Z) (t : nat) (R : list (list Z)) (certs : list (list Z * list Z)) : bool :=
  let z := map (f_of_Z (FOps := fp_ops P Hok)) in
  (pz P =? p)%Z && (2 <? p)%Z && (1 <=? t) && (length R =? length certs) &&
  forallb (fun '(g, (h, w)) =>
    (length g =? t) && (length h <? t) && (length w =? t) &&
    negb (leqb (Fo := fp_ops P Hok) (z w) (repeat (f0 (FOps := fp_ops P Hok)) t)) &&
    leqb (Fo := fp_ops P Hok)
      (jact (Fo := fp_ops P Hok) (z (map (fun x => x - 1)%Z g)) (z h ++ [f1 (FOps := fp_ops P Hok)]) (z w))
      (repeat (f0 (FOps := fp_ops P Hok)) t)) (combine R certs).

Lemma combine_In {A B} (l : list A) : forall (m : list B) x, length l = length m -> In x l -> exists y, In (x, y) (combine l m).
Proof.
  induction l as [|a l IH]; intros [|b m] x HL Hx; try discriminate; [destruct Hx|].
  destruct Hx as [->|Hx]; [exists b; left; reflexivity|]. destruct (IH m x ltac:(cbn in HL; lia) Hx) as [y Hy]. exists y. right. exact Hy.
Qed.

Lemma leqb_refl {F} {Fo : FOps F} (HF : is_field Fo) (a : list F) : leqb a a = true.
Proof. induction a as [|x a IH]; [reflexivity|]. cbn [leqb]. rewrite (proj2 (ff_eqb _ HF x x) eq_refl). exact IH. Qed.

Section Matrix.
  Context {F : Type} {Fo : FOps F} {p : Z} (HP : is_prime_field Fo p).
  Let HF : is_field Fo := prime_field_is_field HP.
  Add Ring FringRj : (ff_ring _ HF).

  Lemma circulant_entry (v : list F) i j : i < length v -> j < length v ->
    entry (matrix_circulant v) i j = nth ((j + length v - i) mod length v) v f0.
  Proof.
    intros Hi Hj. unfold entry, matrix_circulant. rewrite (nth_map_d _ _ i 0) by (rewrite seq_length; exact Hi). rewrite seq_nth by exact Hi.
    rewrite (nth_map_d _ _ j 0) by (rewrite seq_length; exact Hj). rewrite seq_nth by exact Hj. reflexivity.
  Qed.
  Lemma circulant_row (v : list F) i : length (matrix_circulant v) = length v /\ (i < length v -> length (nth i (matrix_circulant v) []) = length v).
  Proof.
    unfold matrix_circulant. split; [rewrite map_length, seq_length; reflexivity|]. intros Hi.
    rewrite (nth_map_d _ _ i 0) by (rewrite seq_length; exact Hi). rewrite map_length, seq_length. reflexivity.
  Qed.
  Lemma diagonal_entry (d : list F) i j : i < length d -> j < length d ->
    entry (matrix_diagonal d) i j = if i =? j then nth i d f0 else f0.
  Proof.
    intros Hi Hj. unfold entry, matrix_diagonal. rewrite (nth_map_d _ _ i 0) by (rewrite seq_length; exact Hi). rewrite seq_nth by exact Hi.
    rewrite (nth_map_d _ _ j 0) by (rewrite seq_length; exact Hj). rewrite seq_nth by exact Hj. reflexivity.
  Qed.
  Lemma diagonal_row (d : list F) i : length (matrix_diagonal d) = length d /\ (i < length d -> length (nth i (matrix_diagonal d) []) = length d).
  Proof.
    unfold matrix_diagonal. split; [rewrite map_length, seq_length; reflexivity|]. intros Hi.
    rewrite (nth_map_d _ _ i 0) by (rewrite seq_length; exact Hi). rewrite map_length, seq_length. reflexivity.
  Qed.

  Lemma partial_matrix_row t (l : list Z) : 1 <= t -> length l = t ->
    length (partial_matrix (F := F) t l) = t /\ forall i, i < t -> length (nth i (partial_matrix (F := F) t l) []) = t.
  Proof.
    intros Ht Ll. unfold partial_matrix, matrix_add.
    set (v := f_of_Z 0 :: repeat (f_of_Z 1) (t - 1)). set (d := map (f_of_Z (F := F)) l).
    assert (Lv : length v = t) by (unfold v; cbn [length]; rewrite repeat_length; lia).
    assert (Ld : length d = t) by (unfold d; rewrite map_length; exact Ll).
    split; [rewrite map_length, combine_length, (proj1 (circulant_row v 0)), (proj1 (diagonal_row d 0)); lia|].
    intros i Hi. rewrite (nth_map_d _ _ i ([], [])) by (rewrite combine_length, (proj1 (circulant_row v 0)), (proj1 (diagonal_row d 0)); lia).
    rewrite combine_nth by (rewrite (proj1 (circulant_row v 0)), (proj1 (diagonal_row d 0)); lia).
    rewrite map_length, combine_length, (proj2 (circulant_row v i)), (proj2 (diagonal_row d i)) by lia. lia.
  Qed.
  Lemma partial_matrix_entry t (l : list Z) i j : length l = t -> i < t -> j < t ->
    entry (partial_matrix (F := F) t l) i j = if i =? j then f_of_Z (nth i l 0%Z) else f1.
  Proof.
    intros Ll Hi Hj. unfold partial_matrix, matrix_add.
    set (v := f_of_Z 0 :: repeat (f_of_Z 1) (t - 1)). set (d := map (f_of_Z (F := F)) l).
    assert (Lv : length v = t) by (unfold v; cbn [length]; rewrite repeat_length; lia).
    assert (Ld : length d = t) by (unfold d; rewrite map_length; exact Ll).
    unfold entry at 1. rewrite (nth_map_d _ _ i ([], [])) by (rewrite combine_length, (proj1 (circulant_row v 0)), (proj1 (diagonal_row d 0)); lia).
    rewrite combine_nth by (rewrite (proj1 (circulant_row v 0)), (proj1 (diagonal_row d 0)); lia).
    rewrite (nth_map_d _ _ j (f0, f0)) by (rewrite combine_length, (proj2 (circulant_row v i)), (proj2 (diagonal_row d i)) by lia; lia).
    rewrite combine_nth by (rewrite (proj2 (circulant_row v i)), (proj2 (diagonal_row d i)); lia).
    fold (entry (matrix_circulant v) i j). fold (entry (matrix_diagonal d) i j).
    rewrite circulant_entry, diagonal_entry, Lv by lia. destruct (Nat.eqb_spec i j) as [->|N].
    - replace (j + t - j) with t by lia. rewrite Nat.mod_same by lia. unfold v, d. cbn [nth].
      rewrite (nth_map_d _ _ j 0%Z) by lia. rewrite (f_of_Z_0 HP). ring.
    - assert (Hm : exists k, (j + t - i) mod t = S k /\ k < t - 1).
      { pose proof (Nat.mod_upper_bound (j + t - i) t ltac:(lia)) as B. destruct ((j + t - i) mod t) as [|k] eqn:Ek; [|exists k; split; [reflexivity|lia]].
        exfalso. destruct (Nat.lt_ge_cases j i) as [L|G].
        - rewrite Nat.mod_small in Ek by lia. lia.
        - replace (j + t - i) with (j - i + 1 * t) in Ek by lia. rewrite Nat.mod_add in Ek by lia. rewrite Nat.mod_small in Ek by lia. lia. }
      destruct Hm as [k [-> Hk]]. unfold v. cbn [nth]. rewrite nth_repeat_lt by exact Hk. rewrite (f_of_Z_1 HP). ring.
  Qed.
End Matrix.

Theorem reject_ok P Hok p t R certs : prime p -> reject_b P Hok p t R certs = true ->
  forall g, In g R -> forall F (Fo : FOps F), is_prime_field Fo p -> ~ check_minpoly_condition t (entry (partial_matrix (F := F) t g)).
Proof.
  intros Hpr H g Hg F Fo HP HC. unfold reject_b in H. rewrite !andb_true_iff in H. destruct H as [[[[H1 H2] H3] H4] H5].
  apply Z.eqb_eq in H1. apply Z.ltb_lt in H2. apply Nat.leb_le in H3. apply Nat.eqb_eq in H4.
  assert (HPc : is_prime_field (fp_ops P Hok) p) by (rewrite <- H1; apply fp_is_prime_field; rewrite H1; assumption).
  pose proof (prime_field_is_field HP) as HF. pose proof (prime_field_is_field HPc) as HFc.
  destruct (combine_In R certs g H4 Hg) as [[h w] Hin]. rewrite forallb_forall in H5. specialize (H5 _ Hin). cbn beta iota in H5.
  rewrite !andb_true_iff in H5. destruct H5 as [[[[L1 L2] L3] Nw] K]. apply Nat.eqb_eq in L1, L3. apply Nat.ltb_lt in L2.
  set (z := map (f_of_Z (FOps := fp_ops P Hok))) in *. set (d := z (map (fun x => x - 1)%Z g)) in *.
  assert (Ld : length d = t) by (unfold d, z; rewrite !map_length; exact L1).
  assert (Lw : (length (z w) =? t) = true) by (apply Nat.eqb_eq; unfold z; rewrite map_length; exact L3).
  apply (leqb_true HPc) in K.
  (* no small polynomial in F *)
  assert (NS : no_small t (entry (partial_matrix (F := F) t g))).
  { intros h' w' Lh [j [Hj Wj]] Z. apply (ProofMinPoly2.check_no_small HF t _ H3 HC h' (mkvec w') Lh).
    - intros E. apply Wj. pose proof (vc_mk (t := t) w' j Hj) as Ej. rewrite E in Ej. rewrite <- Ej. exact (vc_mk (fun _ => f0) j Hj).
    - rewrite (act_poly HF). apply mop_units. intros k Hk. rewrite <- (Z k Hk). apply sumn_ext. intros l Hl. rewrite vc_mk by exact Hl. reflexivity. }
  assert (NSc : no_small (Fo := fp_ops P Hok) t (jmat (Fo := fp_ops P Hok) d)).
  { eapply (no_small_transfer HP HPc); [|exact NS]. intros i j Hi Hj. rewrite (partial_matrix_entry HP) by assumption.
    unfold jmat. destruct (i =? j); [|rewrite (phi_1 HP HPc); reflexivity].
    rewrite (phi_of_Z HP HPc). unfold d, z. rewrite map_map, (nth_map_d _ _ i 0%Z) by lia.
    rewrite <- (f_of_Z_1 HPc), <- (f_of_Z_add HPc). f_equal. lia. }
  set (wv := exist _ (z w) Lw : vec _ t).
  apply (no_small_vec HPc _ NSc (z h) wv).
  - unfold z. rewrite map_length. exact L2.
  - intros E. apply negb_true_iff in Nw. apply (f_equal (@proj1_sig _ _)) in E. cbn [proj1_sig wv] in E.
    assert (Ez : z w = repeat (f0 (FOps := fp_ops P Hok)) t) by (rewrite E; apply map_const_repeat).
    rewrite Ez, (leqb_refl HFc) in Nw. discriminate.
  - apply vec_eq. rewrite <- (jact_ok HPc) by exact Ld. cbn [proj1_sig wv]. rewrite K. symmetry. apply map_const_repeat.
Qed.
