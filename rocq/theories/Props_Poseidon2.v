(** * Properties of the Poseidon2 permutation: C01-C03, C05-C10, C55 *)
From Verif Require Import Base Field Spec SpecPoseidon2 SpecMDS ModelUtils ModelPoseidon2 F13.
From Verif Require ProofPoseidon2 ProofPoseidon2Lin ProofPoseidon2Bij ProofPoseidon2Dep
  ProofPoseidon2Extra ProofPoseidon2MDS MDS.

(** ** C01 *)
Theorem C01_poseidon2_reference :
  forall F (Fo : FOps F), is_field Fo ->
  forall dbg t d rf rp (diag : list F) (mi rc : list (list F)) P x,
    p2_new dbg t d rf rp diag mi rc = Ok P ->
    (N.of_nat rf + N.of_nat rp < usize_mod)%N ->
    p2_width t -> sbox_degree d -> p2_data_ok t rf rp diag rc -> length x = t ->
    p2_permutation dbg P x = Ok (p2_ref t d rf rp diag rc x).
Proof. exact @ProofPoseidon2.p2_permutation_ref. Qed.
Print Assumptions C01_poseidon2_reference.

(** concrete cases over the field with 13 elements; the expected values were computed
    from the matrices by a separate script *)
Definition ex3 dbg := @p2_new F13 dbg 3 5 2 1 (l13 [1;1;2]%Z) [] (map l13 [[1;2;3];[4;0;0];[5;6;7]]%Z).
Definition ex4 dbg := @p2_new F13 dbg 4 7 2 2 (l13 [1;2;3;6]%Z) [] (map l13 [[1;2;3;4];[4];[7;1];[5;6;7;8]]%Z).
Definition ex8 dbg := @p2_new F13 dbg 8 5 2 1 (l13 [1;2;3;5;6;7;8;9]%Z) []
                        (map l13 [[1;2;3;4;5;6;7;8];[4];[8;7;6;5;4;3;2;1]]%Z).
Definition run13 (P : res (Poseidon2Params F13)) (x : list Z) : res (list Z) :=
  P <- P ;; out13 (@p2_permutation _ F13_ops true P (l13 x)).

Example C01_ex3 : run13 (ex3 true) [1;2;3]%Z = Ok [2;10;0]%Z.
Proof. vm_compute. reflexivity. Qed.
Example C01_ex4 : run13 (ex4 true) [1;2;3;4]%Z = Ok [5;7;11;1]%Z.
Proof. vm_compute. reflexivity. Qed.
Example C01_ex8 : run13 (ex8 true) [1;0;0;0;0;0;0;0]%Z = Ok [11;12;7;5;10;2;12;9]%Z.
Proof. vm_compute. reflexivity. Qed.

(** the hypotheses hold in these cases *)
Example C01_hyp4 : (exists P, ex4 true = Ok P) /\ p2_width 4 /\ sbox_degree 7 /\
  p2_data_ok 4 2 2 (l13 [1;2;3;6]%Z) (map l13 [[1;2;3;4];[4];[7;1];[5;6;7;8]]%Z).
Proof.
  repeat split.
  - eexists. vm_compute. reflexivity.
  - unfold p2_width. cbn. auto.
  - unfold sbox_degree. cbn. auto.
  - intros r Hr. cbn in Hr. destruct r as [|[|[|[|r]]]]; cbn; lia.
  - intros r Hr. cbn in Hr. destruct r as [|[|[|[|r]]]]; cbn; lia.
  - cbn. lia.
Qed.

(** ** C02 *)
Theorem C02_poseidon2_returns_iff :
  forall F (Fo : FOps F), is_field Fo ->
  forall dbg t d rf rp (diag : list F) (mi rc : list (list F)) P x,
    p2_new dbg t d rf rp diag mi rc = Ok P ->
    (N.of_nat rf + N.of_nat rp < usize_mod)%N ->
    ((exists y, p2_permutation dbg P x = Ok y) <->
     length x = t /\ p2_width t /\ (rf + rp = 0 \/ sbox_degree d) /\ p2_data_ok t rf rp diag rc) /\
    ((exists y, p2_permutation dbg P x = Ok y) \/ p2_permutation dbg P x = Panic) /\
    (forall y, p2_permutation dbg P x = Ok y -> length y = t).
Proof. exact @ProofPoseidon2Extra.p2_permutation_returns_iff. Qed.
Print Assumptions C02_poseidon2_returns_iff.

(** wrong input length, unsupported width, short constant row, short diagonal *)
Example C02_ex_len : run13 (ex4 true) [1;2;3]%Z = Panic.
Proof. vm_compute. reflexivity. Qed.
Example C02_ex_width : run13 (@p2_new F13 true 5 5 0 0 [] [] []) [1;2;3;4;5]%Z = Panic.
Proof. vm_compute. reflexivity. Qed.
Example C02_ex_row : run13 (@p2_new F13 false 4 5 2 0 [] [] (map l13 [[1;2;3;4];[1;2;3]]%Z)) [1;2;3;4]%Z = Panic.
Proof. vm_compute. reflexivity. Qed.
Example C02_ex_diag : run13 (@p2_new F13 false 4 5 0 1 (l13 [1;2;3]%Z) [] (map l13 [[1]]%Z)) [1;2;3;4]%Z = Panic.
Proof. vm_compute. reflexivity. Qed.

(** ** C03 *)
Theorem C03_poseidon2_bijective :
  forall F (Fo : FOps F) p, is_prime_field Fo p ->
  forall dbg t d rf rp (diag : list F) (mi rc : list (list F)) P,
    p2_new dbg t d rf rp diag mi rc = Ok P ->
    (N.of_nat rf + N.of_nat rp < usize_mod)%N ->
    p2_width t -> sbox_degree d -> p2_data_ok t rf rp diag rc ->
    Z.gcd (Z.of_nat d) (p - 1) = 1%Z -> ~ In p (ext_bad_primes t) ->
    (rp = 0 \/ invertible t (int_matrix t diag)) ->
    bijective_on t (p2_permutation dbg P).
Proof. exact @ProofPoseidon2Bij.p2_permutation_bijective. Qed.
Print Assumptions C03_poseidon2_bijective.

(** the conditions are also necessary *)
Theorem C03_poseidon2_bijective_iff :
  forall F (Fo : FOps F) p, is_prime_field Fo p ->
  forall dbg t d rf rp (diag : list F) (mi rc : list (list F)) P,
    p2_new dbg t d rf rp diag mi rc = Ok P ->
    (N.of_nat rf + N.of_nat rp < usize_mod)%N ->
    p2_width t -> sbox_degree d -> p2_data_ok t rf rp diag rc ->
    (bijective_on t (p2_permutation dbg P) <->
     (rf + rp = 0 \/ Z.gcd (Z.of_nat d) (p - 1) = 1%Z) /\ ~ In p (ext_bad_primes t) /\
     (rp = 0 \/ invertible t (int_matrix t diag))).
Proof. exact @ProofPoseidon2Bij.p2_permutation_bijective_iff. Qed.
Print Assumptions C03_poseidon2_bijective_iff.

(** for p > 7 no width is excluded *)
Theorem C03_bad_primes_small : forall p t, In p (ext_bad_primes t) -> (p <= 7)%Z.
Proof. exact ProofPoseidon2Bij.ext_bad_primes_small. Qed.
Print Assumptions C03_bad_primes_small.

(** the internal matrix is invertible iff 1 + sum 1/d_i <> 0 (for non-zero d_i) *)
Theorem C03_internal_invertible_iff :
  forall F (Fo : FOps F), is_field Fo ->
  forall t (diag : list F), 4 <= t -> (forall i, i < t -> nth i diag f0 <> f0) ->
    (nonsingular t (int_matrix t diag) <->
     fadd f1 (sumn t (fun i => finv (nth i diag f0))) <> f0).
Proof. exact @ProofPoseidon2Bij.int_nonsingular_iff. Qed.
Print Assumptions C03_internal_invertible_iff.

Example C03_ex : exists P, ex4 true = Ok P /\ bijective_on 4 (@p2_permutation _ F13_ops true P).
Proof.
  destruct C01_hyp4 as [[P HP] [Hw [Hd Hdata]]]. exists P. split; [exact HP|].
  apply (C03_poseidon2_bijective F13 F13_ops 13 F13_field true 4 7 2 2 _ _ _ P HP); try assumption.
  - vm_compute. reflexivity.
  - vm_compute. reflexivity.
  - intros H. cbn in H. lia.
  - right. apply (LinAlg.nonsingular_invertible F13_is_field).
    apply (C03_internal_invertible_iff F13 F13_ops F13_is_field).
    + lia.
    + intros i Hi C. apply (f_equal (@f_to_Z _ F13_ops)) in C. destruct i as [|[|[|[|i]]]]; try lia; vm_compute in C; discriminate.
    + intros C. apply (f_equal (@f_to_Z _ F13_ops)) in C. vm_compute in C. discriminate.
Qed.

(** ** C05 *)
Theorem C05_external_is_matrix :
  forall F (Fo : FOps F), is_field Fo ->
  forall (P : Poseidon2Params F) x, p2_width (p2_t P) -> length x = p2_t P ->
    p2_matmul_external P x = Ok (mat_apply (p2_t P) (p2_t P) (ext_matrix (p2_t P)) x).
Proof. exact @ProofPoseidon2.p2_matmul_external_ok. Qed.
Print Assumptions C05_external_is_matrix.

Theorem C05_external_invertible_iff :
  forall F (Fo : FOps F) p, is_prime_field Fo p ->
  forall t, p2_width t -> (invertible t (ext_matrix t) <-> ~ In p (ext_bad_primes t)).
Proof. exact @ProofPoseidon2Lin.ext_invertible_iff. Qed.
Print Assumptions C05_external_invertible_iff.

Example C05_ex : invertible 24 (@ext_matrix _ F13_ops 24).
Proof. apply (C05_external_invertible_iff _ _ _ F13_field); cbn; [tauto|lia]. Qed.

(** ** C06 *)
Theorem C06_external_mds_iff :
  forall F (Fo : FOps F) p, is_prime_field Fo p ->
  forall t, In t [2;3;4] -> (is_mds t (ext_matrix t) <-> ~ In p (mds_bad_primes t)).
Proof. exact @ProofPoseidon2MDS.ext_mds_iff. Qed.
Print Assumptions C06_external_mds_iff.

Theorem C06_mds_iff_minors :
  forall F (Fo : FOps F), is_field Fo ->
  forall n (A : mat), is_mds n A <-> minors_nonsingular n A.
Proof. exact @MDS.mds_iff_minors. Qed.
Print Assumptions C06_mds_iff_minors.

(** width 3 over F_13 is MDS; width 4 is not (13 divides a 2 x 2 minor), so the condition is not vacuous *)
Example C06_ex3 : is_mds 3 (@ext_matrix _ F13_ops 3).
Proof. apply (C06_external_mds_iff _ _ _ F13_field); cbn; [tauto|lia]. Qed.
Example C06_ex4 : ~ is_mds 4 (@ext_matrix _ F13_ops 4).
Proof. intros H. apply (C06_external_mds_iff _ _ _ F13_field) in H; [|cbn; tauto]. apply H. cbn. tauto. Qed.

(** ** C07 *)
Theorem C07_internal_is_matrix :
  forall F (Fo : FOps F), is_field Fo ->
  forall (P : Poseidon2Params F) x diag,
    p2_width (p2_t P) -> length x = p2_t P -> (4 <= p2_t P -> p2_t P <= length diag) ->
    p2_matmul_internal P x diag = Ok (mat_apply (p2_t P) (p2_t P) (int_matrix (p2_t P) diag) x).
Proof. exact @ProofPoseidon2.p2_matmul_internal_ok. Qed.
Print Assumptions C07_internal_is_matrix.

(** for t = 2, 3 the supplied diagonal is ignored: the matrix applied is ones plus the
    supplied diagonal only for the diagonals (1,2) and (1,1,2) *)
Theorem C07_small_width_diagonal :
  forall F (Fo : FOps F), is_field Fo ->
  forall t (diag : list F), t = 2 \/ t = 3 -> length diag = t ->
    (mat_eq t (int_matrix t diag) (fun i j => if i =? j then fadd (nth i diag f0) f1 else f1) <->
     diag = match t with 2 => [f1; fadd f1 f1] | _ => [f1; f1; fadd f1 f1] end).
Proof. exact @ProofPoseidon2Extra.int_matrix_small. Qed.
Print Assumptions C07_small_width_diagonal.

Example C07_ex : (* diagonal (5,5,5) has the same effect as (1,1,2) *)
  run13 (@p2_new F13 true 3 5 2 1 (l13 [5;5;5]%Z) [] (map l13 [[1;2;3];[4;0;0];[5;6;7]]%Z)) [1;2;3]%Z =
  run13 (ex3 true) [1;2;3]%Z.
Proof. vm_compute. reflexivity. Qed.

(** ** C08: false as stated; d = 11 is accepted and unusable *)
Theorem C08_degrees_usable_refuted :
  forall F (Fo : FOps F), is_field Fo ->
  forall dbg t rf rp (diag : list F) (mi rc : list (list F)),
    rf mod 2 = 0 -> (N.of_nat rf + N.of_nat rp < usize_mod)%N -> 0 < rf + rp ->
    exists P, p2_new dbg t 11 rf rp diag mi rc = Ok P /\ forall x, p2_permutation dbg P x = Panic.
Proof. exact @ProofPoseidon2Extra.p2_d11. Qed.
Print Assumptions C08_degrees_usable_refuted.

(** the degrees that are accepted are exactly 3, 5, 7 and 11 *)
Theorem C08_accepted_degrees :
  forall F dbg t d rf rp (diag : list F) (mi rc : list (list F)),
    (N.of_nat rf + N.of_nat rp < usize_mod)%N ->
    ((exists P, p2_new dbg t d rf rp diag mi rc = Ok P) <-> (sbox_degree d \/ d = 11) /\ rf mod 2 = 0).
Proof. exact @ProofPoseidon2Extra.p2_new_iff. Qed.
Print Assumptions C08_accepted_degrees.

Example C08_ex : run13 (@p2_new F13 true 3 11 8 1 (l13 [1;1;2]%Z) [] (repeat (l13 [1;2;3]%Z) 9)) [1;2;3]%Z = Panic
  /\ exists P, @p2_new F13 true 3 11 8 1 (l13 [1;1;2]%Z) [] (repeat (l13 [1;2;3]%Z) 9) = Ok P.
Proof. split; [vm_compute; reflexivity|]. eexists. vm_compute. reflexivity. Qed.

(** ** C09 *)
Theorem C09_new_accepts_any_lengths :
  forall F dbg t d rf rp (diag : list F) (mi rc : list (list F)),
    (sbox_degree d \/ d = 11) -> rf mod 2 = 0 -> (N.of_nat rf + N.of_nat rp < usize_mod)%N ->
    exists P, p2_new dbg t d rf rp diag mi rc = Ok P.
Proof. exact @ProofPoseidon2Extra.p2_new_any. Qed.
Print Assumptions C09_new_accepts_any_lengths.

Theorem C09_short_data_panics :
  forall F (Fo : FOps F), is_field Fo ->
  forall dbg t d rf rp (diag : list F) (mi rc : list (list F)) P x,
    p2_new dbg t d rf rp diag mi rc = Ok P ->
    (N.of_nat rf + N.of_nat rp < usize_mod)%N ->
    ~ p2_data_ok t rf rp diag rc -> p2_permutation dbg P x = Panic.
Proof. exact @ProofPoseidon2Extra.p2_short_panics. Qed.
Print Assumptions C09_short_data_panics.

(** the scenario of the repository's test input_24_elements (poseidon2.rs:511-518) *)
Theorem C09_input_24_elements_panics :
  forall F (Fo : FOps F), is_field Fo ->
  forall dbg (diag : list F) (mi rc : list (list F)) x,
    (forall row, In row rc -> length row = 3) ->
    exists P, p2_new dbg 24 5 8 56 diag mi rc = Ok P /\ p2_permutation dbg P x = Panic.
Proof. exact @ProofPoseidon2Extra.p2_input_24. Qed.
Print Assumptions C09_input_24_elements_panics.

Theorem C09_surplus_ignored :
  forall F (Fo : FOps F), is_field Fo ->
  forall dbg t d rf rp (diag diag2 : list F) (mi mi' rc rc' : list (list F)) P P' x,
    p2_new dbg t d rf rp diag mi rc = Ok P -> p2_new dbg t d rf rp (diag ++ diag2) mi' rc' = Ok P' ->
    (N.of_nat rf + N.of_nat rp < usize_mod)%N ->
    p2_data_ok t rf rp diag rc ->
    (forall r, exists e, nth r rc' [] = nth r rc [] ++ e) ->
    p2_permutation dbg P x = p2_permutation dbg P' x.
Proof. exact @ProofPoseidon2Extra.p2_surplus. Qed.
Print Assumptions C09_surplus_ignored.

Example C09_ex_surplus :
  run13 (@p2_new F13 true 3 5 2 1 (l13 [1;1;2;9]%Z) [] (map l13 [[1;2;3;9];[4;0;0];[5;6;7;1;1];[8;8;8]]%Z)) [1;2;3]%Z =
  run13 (ex3 true) [1;2;3]%Z.
Proof. vm_compute. reflexivity. Qed.

(** ** C10 *)
Theorem C10_unused_constants :
  forall F (Fo : FOps F), is_field Fo ->
  forall dbg t d rf rp (g g' : list F) (mi mi' rc rc' : list (list F)) P P' x,
    p2_new dbg t d rf rp g mi rc = Ok P -> p2_new dbg t d rf rp g' mi' rc' = Ok P' ->
    (N.of_nat rf + N.of_nat rp < usize_mod)%N ->
    p2_data_ok t rf rp g rc -> p2_data_ok t rf rp g' rc' -> p2_agree t rf rp g g' rc rc' ->
    p2_permutation dbg P x = p2_permutation dbg P' x.
Proof. exact @ProofPoseidon2Dep.p2_permutation_agree. Qed.
Print Assumptions C10_unused_constants.

Theorem C10_mat_internal_unused :
  forall F (Fo : FOps F) dbg t d rf rp (g : list F) (mi mi' rc : list (list F)) P P' x,
    p2_new dbg t d rf rp g mi rc = Ok P -> p2_new dbg t d rf rp g mi' rc = Ok P' ->
    p2_permutation dbg P x = p2_permutation dbg P' x.
Proof. exact @ProofPoseidon2Dep.p2_mat_internal_unused. Qed.
Print Assumptions C10_mat_internal_unused.

Example C10_ex :
  run13 (@p2_new F13 true 3 5 2 1 (l13 [1;1;2]%Z) [l13 [7]%Z] (map l13 [[1;2;3];[4;11;12];[5;6;7]]%Z)) [1;2;3]%Z =
  run13 (ex3 true) [1;2;3]%Z.
Proof. vm_compute. reflexivity. Qed.

(** ** C55: overflow of rounds_f + rounds_p *)
Theorem C55_overflow_debug :
  forall F t d rf rp (diag : list F) (mi rc : list (list F)),
    (usize_mod <= N.of_nat rf + N.of_nat rp)%N -> p2_new true t d rf rp diag mi rc = Panic.
Proof. exact @ProofPoseidon2Extra.p2_new_overflow_debug. Qed.
Print Assumptions C55_overflow_debug.

Theorem C55_overflow_release :
  forall F (Fo : FOps F), is_field Fo ->
  forall t d rf rp (diag : list F) (mi rc : list (list F)) x,
    (N.of_nat rf < usize_mod)%N -> (N.of_nat rp < usize_mod)%N ->
    (usize_mod <= N.of_nat (rf / 2) + N.of_nat rp)%N ->
    rf mod 2 = 0 -> p2_width t -> sbox_degree d -> length x = t ->
    (forall r, r < rf -> t <= length (nth r rc [])) ->
    let k := N.to_nat (N.of_nat (rf / 2) + N.of_nat rp - usize_mod) in
    let full s r := p2_ref_full t d (nth r rc []) s in
    k < rf / 2 /\
    exists P, p2_new false t d rf rp diag mi rc = Ok P /\
      p2_permutation false P x =
        Ok (fold_left full (seq k (rf / 2))
             (fold_left full (seq 0 (rf / 2)) (mat_apply t t (ext_matrix t) x))).
Proof. exact @ProofPoseidon2Extra.p2_overflow_release. Qed.
Print Assumptions C55_overflow_release.

(** rounds_f = 8, rounds_p = 2^64 - 1: accepted, eight full rounds, no partial round *)
Example C55_ex : forall (x : list F13) rp, length x = 3 -> N.of_nat rp = (usize_mod - 1)%N ->
  let rc := repeat (l13 [1;2;3]%Z) 8 in
  exists P, p2_new false 3 5 8 rp (l13 [1;1;2]%Z) [] rc = Ok P /\
    exists y, @p2_permutation _ F13_ops false P x = Ok y.
Proof.
  intros x rp Hx E rc.
  destruct (C55_overflow_release F13 F13_ops F13_is_field 3 5 8 rp (l13 [1;1;2]%Z) [] rc x) as [_ [P [H1 H2]]].
  - vm_compute. reflexivity.
  - rewrite E. vm_compute. reflexivity.
  - rewrite E. vm_compute. discriminate.
  - reflexivity.
  - cbn; tauto.
  - cbn; tauto.
  - exact Hx.
  - intros r Hr. unfold rc. destruct r as [|[|[|[|[|[|[|[|r]]]]]]]]; cbn; lia.
  - exists P. split; [exact H1|]. eexists. exact H2.
Qed.
