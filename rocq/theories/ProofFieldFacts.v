(** * ProofFieldFacts: the declared fields, their generators and the S-box exponents *)
From Verif Require Import Base Field Spec FieldPow Poly Pock Primes ZField SpecPoseidon2 SpecPoseidon SpecInstances SpecFields
  ModelFields ModelInstances ModelPoseidon2 ModelPoseidon LinAlg ProofCollision.
From Verif Require ProofPoseidonFin ProofPoseidon ProofInstances.
From Coq Require Import Znumtheory.
Local Open Scope nat_scope.

Theorem declared_primes : forall p g, In (p, g) declared_fields -> prime p.
Proof.
  intros p g H. unfold declared_fields in H. cbn [In] in H.
  destruct H as [E|H]; [injection E as <- _; exact prime_babybear|].
  destruct H as [E|H]; [injection E as <- _; exact prime_bls12|].
  destruct H as [E|H]; [injection E as <- _; exact prime_bn256|].
  destruct H as [E|H]; [injection E as <- _; exact prime_goldilocks|].
  destruct H as [E|H]; [injection E as <- _; exact prime_pallas|].
  destruct H as [E|H]; [injection E as <- _; exact prime_vesta|]. destruct H.
Qed.

Lemma fmul_one_r {F} {Fo : FOps F} (HF : is_field Fo) (x : F) : fmul x f1 = x.
Proof. destruct (ff_ring _ HF) as [_ _ _ M1 MC _ _ _ _]. rewrite MC. apply M1. Qed.

Lemma primitive_generates {F} {Fo : FOps F} {p} (HP : is_prime_field Fo p) (g : F) :
  (forall k, fpow g k = f1 <-> (p - 1 | Z.of_nat k)%Z) -> forall x, x <> f0 -> exists k, fpow g k = x.
Proof.
  intros Hg x Hx. pose proof (prime_field_is_field HP) as HF. pose proof (pf_p_ge_2 HP) as Hp.
  assert (G0 : g <> f0).
  { intros ->. assert (E : fpow f0 (Z.to_nat (p - 1)) = (f1 : F)) by (apply Hg; rewrite Z2Nat.id by lia; apply Z.divide_refl).
    rewrite (fpow_0 HF) in E by lia. apply (ff_one_neq_zero _ HF). symmetry. exact E. }
  assert (D : forall a b, a < b -> b < Z.to_nat (p - 1) -> fpow g a <> fpow g b).
  { intros a b Hab Hb E. replace b with (a + (b - a)) in E by lia. rewrite (fpow_add HF) in E.
    assert (E1 : fpow g (b - a) = f1).
    { apply (fmul_cancel_l HF (fpow g a)); [apply (fpow_neq_0 HF), G0|]. rewrite <- E. symmetry. apply (fmul_one_r HF). }
    apply Hg in E1. apply Z.divide_pos_le in E1; lia. }
  set (pw := map (fpow g) (seq 0 (Z.to_nat (p - 1)))).
  assert (N : NoDup pw).
  { apply NoDup_map_in; [|apply seq_NoDup]. intros a b Ha Hb E. apply in_seq in Ha, Hb.
    destruct (Nat.lt_trichotomy a b) as [L|[L|L]]; [|exact L|]; exfalso; [apply (D a b)|apply (D b a)]; try lia; congruence. }
  assert (I : incl (units (p := p)) pw).
  { apply NoDup_length_incl; [exact N| |].
    - unfold pw. rewrite map_length, seq_length, (units_length (p := p)). lia.
    - intros y Hy. unfold pw in Hy. apply in_map_iff in Hy. destruct Hy as [k [<- _]]. apply (units_In HP). apply (fpow_neq_0 HF), G0. }
  assert (Hin : In x pw) by (apply I, (units_In HP), Hx).
  unfold pw in Hin. apply in_map_iff in Hin. destruct Hin as [k [E _]]. exists k. exact E.
Qed.

Theorem declared_generators : forall p g, In (p, g) declared_fields ->
  forall F (Fo : FOps F), is_prime_field Fo p ->
    (forall k, fpow (f_of_Z g) k = (f1 : F) <-> (p - 1 | Z.of_nat k)%Z) /\
    (forall x : F, x <> f0 -> exists k, fpow (f_of_Z g) k = x).
Proof.
  intros p g H F Fo HP.
  assert (G : forall k, fpow (f_of_Z g) k = (f1 : F) <-> (p - 1 | Z.of_nat k)%Z).
  { unfold declared_fields in H. cbn [In] in H.
    destruct H as [E|H]; [injection E as <- <-; exact (primitive_root _ _ _ _ facts_babybear cert_babybear_primes eq_refl HP)|].
    destruct H as [E|H]; [injection E as <- <-; exact (primitive_root _ _ _ _ facts_bls12 cert_bls12_primes eq_refl HP)|].
    destruct H as [E|H]; [injection E as <- <-; exact (primitive_root _ _ _ _ facts_bn256 cert_bn256_primes eq_refl HP)|].
    destruct H as [E|H]; [injection E as <- <-; exact (primitive_root _ _ _ _ facts_goldilocks cert_goldilocks_primes eq_refl HP)|].
    destruct H as [E|H]; [injection E as <- <-; exact (primitive_root _ _ _ _ facts_pallas cert_pallas_primes eq_refl HP)|].
    destruct H as [E|H]; [injection E as <- <-; exact (primitive_root _ _ _ _ facts_vesta cert_vesta_primes eq_refl HP)|]. destruct H. }
  split; [exact G|]. apply (primitive_generates HP). exact G.
Qed.

(** ** S-box exponents *)
Definition least_b (p : Z) (d : nat) : bool :=
  (3 <=? d) && (Z.gcd (Z.of_nat d) (p - 1) =? 1)%Z && forallb (fun e => negb (Z.gcd (Z.of_nat e) (p - 1) =? 1)%Z) (seq 3 (d - 3)).
Lemma least_ok p d : least_b p d = true -> least_exponent p d.
Proof.
  unfold least_b. rewrite !andb_true_iff. intros [[H1 H2] H3]. apply Nat.leb_le in H1. apply Z.eqb_eq in H2.
  split; [exact H1|]. split; [exact H2|]. intros e He E. rewrite forallb_forall in H3.
  specialize (H3 e ltac:(apply in_seq; lia)). rewrite E in H3. discriminate.
Qed.

Definition sbox_pairs : list (Z * nat) :=
  [(p_babybear, 7); (p_goldilocks, 7); (p_bls12, 5); (p_bn256, 5); (p_pallas, 5); (p_vesta, 5)].

Lemma sbox_pairs_least : forallb (fun '(p, d) => least_b p d) sbox_pairs = true.
Proof. vm_cast_no_check (eq_refl true). Qed.
Lemma shipped_in_pairs : forallb (fun '(p, d) => existsb (fun '(q, e) => (p =? q)%Z && (d =? e)) sbox_pairs) shipped_sboxes = true.
Proof. vm_cast_no_check (eq_refl true). Qed.

Theorem shipped_exponents : forall p d, In (p, d) shipped_sboxes ->
  least_exponent p d /\ forall F (Fo : FOps F), is_prime_field Fo p ->
    (forall x y : F, fpow x d = fpow y d -> x = y) /\ (forall y : F, exists x, fpow x d = y).
Proof.
  intros p d H.
  assert (L : least_exponent p d).
  { pose proof shipped_in_pairs as E. rewrite forallb_forall in E. specialize (E _ H). cbn beta in E.
    apply existsb_exists in E. destruct E as [[q e] [Hin E]]. apply andb_true_iff in E. destruct E as [E1 E2].
    apply Z.eqb_eq in E1. apply Nat.eqb_eq in E2. subst q e. apply least_ok.
    pose proof sbox_pairs_least as E. rewrite forallb_forall in E. exact (E _ Hin). }
  split; [exact L|]. intros F Fo HP. destruct L as [L3 [Lg _]]. split.
  - apply (pow_injective_iff HP d); [lia|exact Lg].
  - intros y. destruct (pow_bij HP d ltac:(lia) Lg) as [e He]. exists (fpow y e). apply He.
Qed.

(** ** Accepted instances that are not permutations *)
Lemma declared_three : forallb (fun '(p, _) => (Z.gcd 3 (p - 1) =? 3)%Z) declared_fields = true.
Proof. vm_cast_no_check (eq_refl true). Qed.
Theorem three_not_coprime : forall p g, In (p, g) declared_fields -> Z.gcd 3 (p - 1) = 3%Z.
Proof.
  intros p g H. pose proof declared_three as E. rewrite forallb_forall in E. specialize (E _ H). cbn beta in E.
  apply Z.eqb_eq in E. exact E.
Qed.

Section Accepted.
  Context {F : Type} {Fo : FOps F} {p : Z} (HP : is_prime_field Fo p).
  Let HF : is_field Fo := prime_field_is_field HP.

  Theorem p2_accepted dbg t d : p2_width t -> sbox_degree d -> Z.gcd (Z.of_nat d) (p - 1) <> 1%Z ->
    exists diag mi rc (P : Poseidon2Params F), p2_new dbg t d 8 56 diag mi rc = Ok P /\
      dims 64 t rc /\ length diag = t /\ collision t (p2_permutation dbg P).
  Proof.
    intros Hw Hd Hg. exists (repeat f0 t), [], (repeat (repeat f0 t) 64).
    assert (HD : forall r, r < 64 -> length (nth r (repeat (repeat (f0 : F) t) 64) []) = t).
    { intros r Hr. rewrite (nth_indep _ [] (repeat f0 t)) by (rewrite repeat_length; exact Hr). rewrite nth_repeat. apply repeat_length. }
    assert (Hov : (N.of_nat 8 + N.of_nat 56 < usize_mod)%N) by (vm_compute; reflexivity).
    assert (HN : exists P, p2_new dbg t d 8 56 (repeat (f0 : F) t) [] (repeat (repeat f0 t) 64) = Ok P).
    { apply (ProofInstances.p2_new_succeeds dbg 2 t d 8 56). constructor; try assumption; try reflexivity; [lia|].
      apply Z.gcd_1_r. }
    destruct HN as [P HPn]. exists P. split; [exact HPn|]. split; [|split].
    - split; [apply repeat_length|exact HD].
    - apply repeat_length.
    - eapply (p2_collision HP); try eassumption; [|lia].
      split; [|split].
      + intros r Hr. change (8 / 2) with 4 in Hr. rewrite HD by lia. lia.
      + intros r Hr. change (8 / 2) with 4 in Hr. rewrite HD by lia. unfold p2_width in Hw. cbn in Hw. lia.
      + intros _ _. rewrite repeat_length. lia.
  Qed.

  Definition id_rows (t : nat) : list (list F) := map (fun i => map (fun j => mat_id i j) (seq 0 t)) (seq 0 t).
  Lemma id_rows_dims t : dims t t (id_rows t).
  Proof.
    split; [unfold id_rows; rewrite map_length, seq_length; reflexivity|]. intros i Hi. unfold id_rows.
    rewrite (nth_indep _ [] (map (fun j => mat_id 0 j) (seq 0 t))) by (rewrite map_length, seq_length; exact Hi).
    rewrite (map_nth (fun i => map (fun j => mat_id i j) (seq 0 t)) _ 0). rewrite map_length. apply seq_length.
  Qed.
  Lemma id_rows_entry t i j : i < t -> j < t -> entry (id_rows t) i j = mat_id i j.
  Proof.
    intros Hi Hj. unfold entry, id_rows.
    rewrite (nth_indep _ [] (map (fun j => mat_id 0 j) (seq 0 t))) by (rewrite map_length, seq_length; exact Hi).
    rewrite (map_nth (fun i => map (fun j => mat_id i j) (seq 0 t)) _ 0). rewrite seq_nth by exact Hi.
    rewrite (nth_indep _ f0 (mat_id (0 + i) 0)) by (rewrite map_length, seq_length; exact Hj).
    rewrite (map_nth (fun j => mat_id (0 + i) j) _ 0). rewrite seq_nth by exact Hj. reflexivity.
  Qed.
  Lemma nonsingular_id k (M : @mat F) : (forall i j, i < k -> j < k -> M i j = mat_id i j) -> nonsingular k M.
  Proof.
    intros E x Hx j Hj. specialize (Hx j Hj). rewrite <- Hx. symmetry.
    rewrite (sumn_ext k _ (fun l => fmul (mat_id j l) (x l))) by (intros l Hl; rewrite E by assumption; reflexivity).
    unfold mat_id. apply (sumn_delta HF k j x). exact Hj.
  Qed.

  Lemma mat_pow_id n (M : @mat F) k : (forall i j, i < n -> j < n -> M i j = mat_id i j) ->
    forall i j, i < n -> j < n -> mat_pow n M k i j = mat_id i j.
  Proof.
    intros E. induction k as [|k IH]; intros i j Hi Hj; cbn [mat_pow]; [reflexivity|].
    rewrite <- (mat_mul_id_l HF n mat_id i j Hi). unfold mat_mul. apply sumn_ext. intros l Hl.
    rewrite E, IH by assumption. reflexivity.
  Qed.

  Theorem ps_accepted dbg t d : 2 <= t -> sbox_degree d -> Z.gcd (Z.of_nat d) (p - 1) <> 1%Z ->
    exists mds rc (P : PoseidonParams F), ps_new dbg t d 8 56 mds rc = Ok P /\
      dims t t mds /\ dims 64 t rc /\ collision t (ps_permutation dbg P) /\ collision t (ps_permutation_not_opt dbg P).
  Proof.
    intros Ht Hd Hg. exists (id_rows t), (repeat (repeat f0 t) 64).
    assert (HD : forall r, r < 64 -> length (nth r (repeat (repeat (f0 : F) t) 64) []) = t).
    { intros r Hr. rewrite (nth_indep _ [] (repeat f0 t)) by (rewrite repeat_length; exact Hr). rewrite nth_repeat. apply repeat_length. }
    assert (Hov : (N.of_nat 8 + N.of_nat 56 < usize_mod)%N) by (vm_compute; reflexivity).
    assert (HR : ProofPoseidon.ps_rows_ok t 8 56 (repeat (repeat (f0 : F) t) 64)) by (intros r Hr; rewrite HD by lia; lia).
    assert (HI : forall i j, i < t - 1 -> j < t - 1 -> drop0 (entry (id_rows t)) i j = mat_id i j).
    { intros i j Hi Hj. unfold drop0. rewrite id_rows_entry by lia. reflexivity. }
    assert (HN : exists P, ps_new dbg t d 8 56 (id_rows t) (repeat (repeat f0 t) 64) = Ok P).
    { apply (ProofPoseidonFin.ps_new_success HF dbg t d 8 56 (id_rows t) _ (id_rows_dims t) HR).
      - intros r Hr. rewrite HD by lia. lia.
      - exact Hov.
      - split; [exact Hd|]. split; [reflexivity|]. split; [exact Ht|]. split; [lia|]. split.
        + intros k Hk. apply nonsingular_id. intros i j Hi Hj. apply id_rows_entry; lia.
        + intros k Hk l Hl. apply nonsingular_id. intros i j Hi Hj. apply mat_pow_id; [exact HI|lia|lia]. }
    destruct HN as [P HPn]. exists P. split; [exact HPn|]. split; [apply id_rows_dims|]. split.
    - split; [apply repeat_length|exact HD].
    - apply (ps_collision HP dbg t d 8 56 (id_rows t) _ P HPn Hov (id_rows_dims t) HR Hg).
  Qed.
End Accepted.
