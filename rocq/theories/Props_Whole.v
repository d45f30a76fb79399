(** * S-boxes with different inputs over the whole permutations: C79 *)
From Verif Require Import Base Field Spec SpecMDS SpecPoseidon2 SpecPoseidon SpecNeptune SpecBranch SpecPairs SpecFirst SpecWhole SpecInstances
  ModelPoseidon2 ModelPoseidon ModelNeptune ModelInstances ModelFields ModelSubspace Fp Primes F13.
From Verif Require LinAlg Elim ProofPoseidon2MDS ProofPoseidon2Bij ProofSubspaceMeaning ProofPairs2 ProofWhole2.
Local Open Scope nat_scope.

(** Poseidon2: two full rounds in a row have p2_branch t S-boxes with different inputs or more, t partial rounds at least one. *)
Theorem C79_poseidon2 :
  forall F (Fo : FOps F) p, is_prime_field Fo p ->
  forall dbg t d rf rp (diag : list F) mi rc P,
    p2_new dbg t d rf rp diag mi rc = Ok P -> (N.of_nat rf + N.of_nat rp < usize_mod)%N ->
    p2_width t -> ~ In p (branch_bad_primes t) -> sbox_degree d -> Z.gcd (Z.of_nat d) (p - 1) = 1%Z -> p2_data_ok t rf rp diag rc ->
    rp = 0 \/ invertible t (int_matrix t diag) /\ (4 <= t -> distinct_from_1 t (fun i => nth i diag f0)) ->
    whole_active t differ (p2_permutation dbg P) (p2_matmul_external P) (p2_full_round P) (p2_partial_round P)
      (rf / 2) (rf / 2 + rp) (rf + rp) (whole_bound rf (p2_branch t) (rp / t)).
Proof. exact @ProofWhole2.p2_whole. Qed.
Print Assumptions C79_poseidon2.

(** Poseidon with an MDS matrix; the optimised permutation returns the last of these states as well. *)
Theorem C79_poseidon :
  forall F (Fo : FOps F) p, is_prime_field Fo p ->
  forall dbg t d rf rp (mds rc : list (list F)) P,
    ps_new dbg t d rf rp mds rc = Ok P -> (N.of_nat rf + N.of_nat rp < usize_mod)%N ->
    dims t t mds -> (forall r, r < rf + rp -> t <= length (nth r rc [])) -> Z.gcd (Z.of_nat d) (p - 1) = 1%Z ->
    is_mds t (entry mds) -> algorithm_1 (entry mds) t ->
    forall perm, perm = ps_permutation dbg P \/ perm = ps_permutation_not_opt dbg P ->
    whole_active t differ perm (fun x => Ok x) (ps_full_round dbg P) (ps_partial_round dbg P)
      (rf / 2) (rf / 2 + rp) (rf + rp) (whole_bound rf (t + 1) (rp / t)).
Proof. exact @ProofWhole2.ps_whole. Qed.
Print Assumptions C79_poseidon.

(** Neptune: S-boxes on pairs of words in the external rounds, one S-box in an internal round. *)
Theorem C79_neptune :
  forall F (Fo : FOps F) p, is_prime_field Fo p ->
  forall dbg fuel rng t d rf rp (P : NeptuneParams F),
    np_new dbg fuel rng t d rf rp = Ok P -> (N.of_nat rf + N.of_nat rp < usize_mod)%N -> 2 <= t -> p <> 5%Z ->
    is_mds (t / 2) (even_part (entry (np_m_e P))) -> is_mds (t / 2) (odd_part (entry (np_m_e P))) ->
    rp = 0 \/ Z.gcd (Z.of_nat d) (p - 1) = 1%Z /\ invertible t (np_int_matrix (fun i => fadd (nth i (np_mu P) f0) f1)) /\
      distinct_from_1 t (fun i => nth i (np_mu P) f0) ->
    whole_active t differ_pairs (np_permutation dbg P) (np_external_matmul P) (np_external_round P) (np_internal_round P)
      (rf / 2) (rf / 2 + rp) (rf + rp) (whole_bound rf (t / 2 + 1) (rp / t)).
Proof. exact @ProofWhole2.np_whole. Qed.
Print Assumptions C79_neptune.

Theorem C79_poseidon2_shipped :
  forall I, In I p2_instances -> forall F (Fo : FOps F), is_prime_field Fo (qi_p I) -> forall dbg,
  exists Q, p2_instance_params dbg I = Ok Q /\
  whole_active (qi_t I) differ (p2_permutation dbg Q) (p2_matmul_external Q) (p2_full_round Q) (p2_partial_round Q)
    (qi_rf I / 2) (qi_rf I / 2 + qi_rp I) (qi_rf I + qi_rp I) (whole_bound (qi_rf I) (p2_branch (qi_t I)) (qi_rp I / qi_t I)).
Proof. exact ProofWhole2.p2_shipped_whole. Qed.
Print Assumptions C79_poseidon2_shipped.

Theorem C79_poseidon_shipped :
  forall I, In I ps_instances -> forall F (Fo : FOps F), is_prime_field Fo (si_p I) -> forall dbg,
  exists Q, ps_instance_params dbg I = Ok Q /\
  whole_active (si_t I) differ (ps_permutation dbg Q) (fun x => Ok x) (ps_full_round dbg Q) (ps_partial_round dbg Q)
    (si_rf I / 2) (si_rf I / 2 + si_rp I) (si_rf I + si_rp I) (whole_bound (si_rf I) (si_t I + 1) (si_rp I / si_t I)).
Proof. exact ProofWhole2.ps_shipped_whole. Qed.
Print Assumptions C79_poseidon_shipped.

(** Neptune's shipped instances of width 4 and 8: the diagonal is drawn at random, hence the last two conditions. *)
Theorem C79_neptune_shipped :
  forall I F (Fo : FOps F), In I np_instances -> ni_t I = 4 \/ ni_t I = 8 -> is_prime_field Fo (ni_p I) ->
  forall dbg fuel rng (P : NeptuneParams F), np_new dbg fuel rng (ni_t I) (ni_d I) (ni_rf I) (ni_rp I) = Ok P ->
  invertible (ni_t I) (np_int_matrix (fun i => fadd (nth i (np_mu P) f0) f1)) -> distinct_from_1 (ni_t I) (fun i => nth i (np_mu P) f0) ->
  whole_active (ni_t I) differ_pairs (np_permutation dbg P) (np_external_matmul P) (np_external_round P) (np_internal_round P)
    (ni_rf I / 2) (ni_rf I / 2 + ni_rp I) (ni_rf I + ni_rp I) (whole_bound (ni_rf I) (ni_t I / 2 + 1) (ni_rp I / ni_t I)).
Proof. exact ProofWhole2.np_shipped_whole. Qed.
Print Assumptions C79_neptune_shipped.

(** The bounds for the shipped instances, in the order of the lists, with the widths. *)
Example C79_ex_numbers :
  map (fun I => (qi_t I, whole_bound (qi_rf I) (p2_branch (qi_t I)) (qi_rp I / qi_t I))) p2_instances =
    [(16, 32); (24, 40); (2, 40); (3, 34); (4, 34); (8, 31); (3, 34); (8, 26); (12, 29); (16, 33); (20, 37); (3, 34); (4, 34); (8, 31); (3, 34)] /\
  map (fun I => (si_t I, whole_bound (si_rf I) (si_t I + 1) (si_rp I / si_t I))) ps_instances =
    [(16, 68); (24, 100); (2, 40); (3, 34); (4, 34); (8, 43); (3, 34); (8, 38); (12, 53); (16, 69); (20, 85); (3, 34); (4, 34); (8, 43); (3, 34)] /\
  map (fun I => (ni_t I, whole_bound (ni_rf I) (ni_t I / 2 + 1) (ni_rp I / ni_t I))) (filter (fun I => ni_t I <=? 8) np_instances) =
    [(4, 25); (4, 25); (8, 21); (8, 16); (4, 25); (8, 21); (4, 25)].
Proof. split; [|split]; lazy; reflexivity. Qed.

(** Counted along concrete runs modulo 13: the states before every round, and the S-boxes with different inputs. *)
Definition ex_run (start : list F13 -> res (list F13)) (round : nat -> list F13 -> res (list F13)) (n : nat) (x : list F13) : res (list (list F13)) :=
  s <- start x ;; mapM (fun k => for_range 0 k round s) (seq 0 n).
Definition ex_total (act : list F13 -> list F13 -> nat) (lo hi : nat) (a b : res (list (list F13))) : res (list nat) :=
  a <- a ;; b <- b ;; Ok (map (fun r => if (lo <=? r) && (r <? hi) then first_active (nth r a []) (nth r b []) else act (nth r a []) (nth r b [])) (seq 0 (length a))).
Definition ex_rc3 : list (list F13) := map (fun r => l13 [Z.of_nat r + 1; Z.of_nat r * 3 + 2; 5]%Z) (seq 0 8).
Definition ex_p2 := p2_new true 3 5 4 4 (l13 [1;1;2]%Z) [] ex_rc3.
Definition ex_np (t : nat) : res (NeptuneParams F13) := np_new true 1 (fun k => e13 (Z.of_nat k)) t 5 4 4.
Definition ex_np_run x := P <- ex_np 4 ;; ex_run (np_external_matmul P) (mixed (np_external_round P) (np_internal_round P) 2 6) 8 (l13 x).
Definition ex_p2_run x := P <- ex_p2 ;; ex_run (p2_matmul_external P) (mixed (p2_full_round P) (p2_partial_round P) 2 6) 8 (l13 x).
Example C79_ex_poseidon2 :
  (exists P, ex_p2 = Ok P) /\ is_prime_field F13_ops 13 /\ p2_width 3 /\ ~ In 13%Z (branch_bad_primes 3) /\ sbox_degree 5 /\
  Z.gcd (Z.of_nat 5) (13 - 1) = 1%Z /\ p2_data_ok 3 4 4 (l13 [1;1;2]%Z) ex_rc3 /\ invertible 3 (int_matrix 3 (l13 [1;1;2]%Z)) /\
  whole_bound 4 (p2_branch 3) (4 / 3) = 9 /\
  ex_total differ 2 6 (ex_p2_run [1;2;3]%Z) (ex_p2_run [1;2;4]%Z) = Ok [3; 3; 1; 1; 1; 1; 1; 3].
Proof.
  split; [eexists; vm_compute; reflexivity|]. split; [exact F13_field|]. split; [unfold p2_width; cbn [In]; lia|].
  split; [cbn [branch_bad_primes Nat.ltb Nat.leb In]; lia|]. split; [unfold sbox_degree; cbn [In]; lia|]. split; [reflexivity|].
  split; [split; [|split]|].
  - intros r Hr. change (4 / 2) with 2 in Hr. do 8 (destruct r as [|r]; [cbn; lia|]). lia.
  - intros r Hr. change (4 / 2) with 2 in Hr. do 8 (destruct r as [|r]; [cbn; lia|]). lia.
  - cbn. lia.
  - split; [|split; vm_compute; reflexivity]. apply (LinAlg.nonsingular_invertible F13_is_field). apply (ProofPoseidon2Bij.int3_nonsingular F13_is_field).
    intros E. apply (f_equal (@f_to_Z _ F13_ops)) in E. vm_compute in E. discriminate E.
Qed.

Definition ex_mds2 : list (list F13) := [l13 [2; 1]; l13 [1; 2]]%Z.
Definition ex_rc2 : list (list F13) := map (fun r => l13 [Z.of_nat r; 3]%Z) (seq 0 9).
Definition ex_ps := ps_new true 2 5 4 5 ex_mds2 ex_rc2.
Definition ex_ps_run x := P <- ex_ps ;; ex_run (fun x => Ok x) (mixed (ps_full_round true P) (ps_partial_round true P) 2 7) 9 (l13 x).
Example C79_ex_poseidon :
  (exists P, ex_ps = Ok P) /\ dims 2 2 ex_mds2 /\ (forall r, r < 4 + 5 -> 2 <= length (nth r ex_rc2 [])) /\ is_mds 2 (entry ex_mds2) /\
  algorithm_1 (entry ex_mds2) 2 /\ whole_bound 4 (2 + 1) (5 / 2) = 8 /\
  ex_total differ 2 7 (ex_ps_run [1;2]%Z) (ex_ps_run [1;3]%Z) = Ok [1; 2; 1; 1; 1; 1; 1; 2; 2].
Proof.
  assert (D : dims 2 2 ex_mds2) by (split; [reflexivity|]; intros [|[|i]] Hi; [reflexivity|reflexivity|lia]).
  split; [eexists; vm_compute; reflexivity|]. split; [exact D|]. split; [intros r Hr; do 9 (destruct r as [|r]; [cbn; lia|]); lia|]. split.
  { assert (HM : is_mds 2 (@ext_matrix _ F13_ops 2)).
    { apply (ProofPoseidon2MDS.ext_mds_iff F13_field 2 (or_introl eq_refl)). cbn. lia. }
    intros x Lx Nx. rewrite (LinAlg.mat_apply_ext 2 2 (entry ex_mds2) (ext_matrix 2) x x); [apply HM; assumption| |reflexivity].
    intros [|[|i]] [|[|j]] Hi Hj; try lia; vm_compute; reflexivity. }
  split.
  { apply (ProofSubspaceMeaning.width_2 F13_is_field). intros E. apply (f_equal (@f_to_Z _ F13_ops)) in E. vm_compute in E. discriminate E. }
  split; vm_compute; reflexivity.
Qed.

Example C79_ex_neptune :
  exists P, ex_np 4 = Ok P /\ ~ In 13%Z (np_mds_bad_primes 4) /\ is_mds (4 / 2) (even_part (entry (np_m_e P))) /\ is_mds (4 / 2) (odd_part (entry (np_m_e P))) /\
  distinct_from_1 4 (fun i => nth i (np_mu P) f0) /\ invertible 4 (np_int_matrix (fun i => fadd (nth i (np_mu P) f0) f1)) /\
  whole_bound 4 (4 / 2 + 1) (4 / 4) = 7 /\
  ex_total differ_pairs 2 6 (ex_np_run [1;2;3;4]%Z) (ex_np_run [1;2;4;4]%Z) = Ok [2; 2; 1; 1; 1; 1; 2; 2].
Proof.
  destruct (ex_np 4) as [P| |] eqn:HN; [|vm_compute in HN; discriminate HN|vm_compute in HN; discriminate HN].
  assert (B : ~ In 13%Z (np_mds_bad_primes 4)) by (cbn [np_mds_bad_primes In]; lia).
  destruct (ProofPairs2.np_fixed_mds F13_field _ _ _ _ _ _ _ _ HN ltac:(reflexivity) (or_introl eq_refl)) as [HE HO].
  assert (EM : np_mu P = l13 [5; 6; 7; 8]%Z).
  { assert (E : (P <- ex_np 4 ;; Ok (np_mu P)) = Ok (l13 [5; 6; 7; 8]%Z)) by (vm_compute; reflexivity).
    rewrite HN in E. cbn [bind] in E. injection E as E. exact E. }
  exists P. split; [reflexivity|]. split; [exact B|]. split; [apply HE, B|]. split; [apply HO, B|]. rewrite EM. split.
  { intros i j Hi Hj N E. apply (f_equal (@f_to_Z _ F13_ops)) in E.
    destruct i as [|[|[|[|i]]]], j as [|[|[|[|j]]]]; try lia; vm_compute in E; discriminate E. }
  split; [|split; vm_compute; reflexivity].
  apply (LinAlg.nonsingular_invertible F13_is_field). apply (ProofPoseidon2Bij.int_nonsingular_iff F13_is_field 4 (l13 [5; 6; 7; 8]%Z)); [lia| |].
  - intros i Hi E. apply (f_equal (@f_to_Z _ F13_ops)) in E. destruct i as [|[|[|[|i]]]]; try lia; vm_compute in E; discriminate E.
  - intros E. apply (f_equal (@f_to_Z _ F13_ops)) in E. vm_compute in E. discriminate E.
Qed.
