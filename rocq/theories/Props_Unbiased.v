(** * Random parameters are unbiased (C94); the generated MDS matrices (C95) *)
From Verif Require Import Base Field Spec SpecNeptune SpecSingular SpecUnbiased SpecMDS SpecPoseidon ModelRandom ModelNeptune ModelGmimc ModelGrain ModelPoseidon F13 Props_Matrix Props_Neptune Props_Poseidon.
From Verif Require ProofUnbiased ProofMdsGen.
Local Open Scope nat_scope.

(** ** C94: every non-zero value is returned for the same number of sequences of k draws *)
Theorem C94_without_0 :
  forall F (Fo : FOps F) p, is_prime_field Fo p ->
  forall fuel k (a : F), k <= fuel -> a <> f0 ->
  exists L, lists_draws k (fun rng => exists pos, random_scalar_without_0 fuel rng 0 = Ok (a, pos)) L /\
    ((p - 1) * Z.of_nat (length L) = p ^ Z.of_nat k - 1)%Z.
Proof. exact @ProofUnbiased.scalar_draws. Qed.
Print Assumptions C94_without_0.

(** the diagonal of Neptune's internal matrix *)
Theorem C94_neptune_mu :
  forall F (Fo : FOps F) p, is_prime_field Fo p ->
  forall fuel k t (m : list F), k <= fuel -> nonzero_diagonal t m ->
  exists L, lists_draws k (fun rng => exists pos, np_instantiate_mu fuel t rng 0 = Ok (map (fun a => fsub a f1) m, pos)) L /\
    Z.of_nat (length L) = draws_number p 0 k t.
Proof. exact @ProofUnbiased.diagonal_draws. Qed.
Print Assumptions C94_neptune_mu.

(** all parameters together: every parameter set that NeptuneParams::new can return at all
    is returned for the same number of sequences of k draws *)
Theorem C94_neptune_new :
  forall F (Fo : FOps F) p, is_prime_field Fo p ->
  forall dbg fuel rng0 t d rf rp (P : NeptuneParams F) k,
  np_new dbg fuel rng0 t d rf rp = Ok P -> (N.of_nat rf + N.of_nat rp < usize_mod)%N -> k <= fuel ->
  exists L, lists_draws k (fun rng => np_new dbg fuel rng t d rf rp = Ok P) L /\
    Z.of_nat (length L) = let D := (rf + rp) * t + np_mat_draws t in if D <=? k then draws_number p 1 (k - D) t else 0%Z.
Proof. exact @ProofUnbiased.new_draws. Qed.
Print Assumptions C94_neptune_new.

(** the number is positive from k = D + t + 1 on *)
Theorem C94_positive :
  forall p extra, (2 <= p)%Z -> forall k t, (0 <= draws_number p extra k t)%Z /\ ((0 < draws_number p extra k t)%Z <-> t + extra <= k).
Proof. exact ProofUnbiased.draws_positive. Qed.
Print Assumptions C94_positive.

Theorem C94_gmimc_new :
  forall F (Fo : FOps F) p, is_prime_field Fo p ->
  forall rng0 t d rounds (P : GmimcParams F) k, gm_new rng0 t d rounds = Ok P ->
  exists L, lists_draws k (fun rng => gm_new rng t d rounds = Ok P) L /\
    Z.of_nat (length L) = if rounds <=? k then (p ^ Z.of_nat (k - rounds))%Z else 0%Z.
Proof. exact @ProofUnbiased.gmimc_draws. Qed.
Print Assumptions C94_gmimc_new.

(** 13 elements, 3 draws: 183 of the 2197 sequences give the value 5; 15 give the values 5 and 7: 0 5 7, 5 0 7 and 5 7 x *)
Example C94_ex_count : draws_number 13 0 3 1 = 183%Z /\ (12 * 183 = 13 ^ 3 - 1)%Z /\ draws_number 13 0 3 2 = 15%Z /\ draws_number 13 1 4 2 = 15%Z.
Proof. repeat split; reflexivity. Qed.
Example C94_ex_new : exists P, np_new (Fo := F13_ops) true 3 ex_rng 6 5 2 3 = Ok P /\ np_mat_draws 6 = 18 /\ 6 * 5 + 18 = 48.
Proof. eexists. split; [vm_compute; reflexivity|split; reflexivity]. Qed.
Example C94_ex_diagonal : nonzero_diagonal (Fo := F13_ops) 2 (l13 [5; 7]%Z).
Proof. split; [reflexivity|]. intros i Hi E. apply (f_equal (@f_to_Z _ F13_ops)) in E. do 2 (destruct i as [|i]; [vm_compute in E; discriminate|]). lia. Qed.

(** ** C95: every matrix that create_mds_p returns is a Cauchy matrix and MDS *)
Definition C95_cauchy {F : Type} {Fo : FOps F} (t : nat) (M : list (list F)) : Prop :=
  exists xs ys, length xs = t /\ length ys = t /\ NoDup (xs ++ ys) /\
    forall i j, i < t -> j < t -> fmul (entry M i j) (fadd (nth i xs f0) (nth j ys f0)) = f1.
Theorem C95_create_mds :
  forall F (Fo : FOps F), is_field Fo ->
  forall fuel tries n t s (M : list (list F)) s', create_mds_p fuel tries n t s = Ok (M, s') ->
  dims t t M /\ C95_cauchy t M /\ minors_nonsingular t (entry M) /\ is_mds t (entry M).
Proof. exact @ProofMdsGen.create_mds. Qed.
Print Assumptions C95_create_mds.

(** PoseidonParams::new accepts every MDS matrix if there is one partial round *)
Theorem C95_one_round_accepted :
  forall F (Fo : FOps F), is_field Fo ->
  forall dbg t d rf (M rc : list (list F)), dims t t M -> is_mds t (entry M) -> ps_exact_constants t (rf + 1) rc ->
  (N.of_nat rf + 1 < usize_mod)%N -> (d = 3 \/ d = 5 \/ d = 7) -> rf mod 2 = 0 -> 2 <= t -> exists P, ps_new dbg t d rf 1 M rc = Ok P.
Proof. exact @ProofMdsGen.one_round_accepted. Qed.
Print Assumptions C95_one_round_accepted.

(** ... but not for two: with 13 elements, t = 3, R_F = 2 and R_P = 2 the script produces constants and a matrix that PoseidonParams::new rejects *)
Definition C95_rows (l : list Z) : list (list F13) := map (fun i => l13 (firstn 3 (skipn (3 * i) l))) (seq 0 4).
Theorem C95_generated_accepted_refuted :
  ~ forall rc s M s', generate_constants_poseidon 100 4 3 2 2 13 (grain_start 1 1 4 3 2 2) = Ok (rc, s) ->
      create_mds_p (F := F13) 100 100 4 3 s = Ok (M, s') -> exists P, ps_new false 3 5 2 2 M (C95_rows rc) = Ok P.
Proof.
  intros H.
  set (o := generate_constants_poseidon 100 4 3 2 2 13 (grain_start 1 1 4 3 2 2)) in H. destruct o as [[rc s]| |] eqn:E; unfold o in E; clear o.
  2,3: vm_compute in E; discriminate.
  set (o := create_mds_p (F := F13) 100 100 4 3 s). destruct o as [[M s']| |] eqn:E'; unfold o in E'.
  - destruct (H rc s M s' eq_refl E') as [P X]. clear H o. vm_compute in E. injection E as <- <-. vm_compute in E'. injection E' as <- <-. vm_compute in X. discriminate.
  - clear H o. vm_compute in E. injection E as <- <-. vm_compute in E'. discriminate.
  - clear H o. vm_compute in E. injection E as <- <-. vm_compute in E'. discriminate.
Qed.
Print Assumptions C95_generated_accepted_refuted.

(** the matrix of the refutation *)
Example C95_ex : exists rc s s', generate_constants_poseidon 100 4 3 2 2 13 (grain_start 1 1 4 3 2 2) = Ok (rc, s) /\
  rc = [8; 12; 2; 1; 4; 8; 11; 7; 1; 2; 0; 9]%Z /\
  create_mds_p (F := F13) 100 100 4 3 s = Ok (map l13 [[1; 5; 4]%Z; [12; 11; 5]%Z; [5; 7; 10]%Z], s').
Proof. eexists. eexists. eexists. split; [vm_compute; reflexivity|]. split; [reflexivity|vm_compute; reflexivity]. Qed.
