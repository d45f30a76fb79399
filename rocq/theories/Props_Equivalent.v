(** * The script's factorisation functions and small internal matrices: C62, C63 *)
From Verif Require Import Base Field Spec SpecPoseidon ModelPoseidon ModelPoseidon2 ModelInstances ModelSubspace ModelGenerate
  ModelEquivalent Fp Primes F13 Props_Matrix Props_Poseidon.
From Verif Require ProofEquivalent ProofSmall ProofMinPoly2.
Local Open Scope nat_scope.

(** ** C62: calc_equivalent_matrices and calc_equivalent_constants compute the tables that PoseidonParams::new stores *)
Theorem C62_equivalent_matrices :
  forall F (Fo : FOps F), is_field Fo ->
  forall dbg t d rf rp (mds rc : list (list F)) P,
    ps_new dbg t d rf rp mds rc = Ok P -> (N.of_nat rf + N.of_nat rp < usize_mod)%N -> dims t t mds ->
    forall M_i v_collection w_hat_collection m,
      calc_equivalent_matrices t rp mds M_i v_collection w_hat_collection m <->
      M_i = map (fun i => map (fun j => entry (ps_m_i P) j i) (seq 0 t)) (seq 0 t) /\
      v_collection = ps_v P /\ w_hat_collection = ps_w_hat P /\ m = entry mds 0 0.
Proof. exact @ProofEquivalent.calc_matrices_iff. Qed.
Print Assumptions C62_equivalent_matrices.

Theorem C62_equivalent_constants :
  forall F (Fo : FOps F), is_field Fo ->
  forall dbg t d rf rp (mds rc : list (list F)) P,
    ps_new dbg t d rf rp mds rc = Ok P -> (N.of_nat rf + N.of_nat rp < usize_mod)%N -> dims t t mds ->
    (forall row, In row rc -> length row = t) ->
    forall out, calc_equivalent_constants t rf rp (concat rc) mds out <->
      out = firstn (rf / 2) rc ++ [nth 0 (ps_opt_rc P) []] ++
            map (fun k => nth 0 (nth k (ps_opt_rc P) []) f0 :: repeat f0 (t - 1)) (seq 1 (rp - 1)) ++ skipn (rf / 2 + rp) rc.
Proof. exact @ProofEquivalent.calc_constants_iff. Qed.
Print Assumptions C62_equivalent_constants.

(** The script needs only that the matrix without its first row and column is invertible. *)
Theorem C62_script_defined_iff :
  forall F (Fo : FOps F), is_field Fo ->
  forall t rp (mds : list (list F)), 2 <= t -> 1 <= rp ->
    ((exists M_i vs ws m, calc_equivalent_matrices t rp mds M_i vs ws m) <-> invertible (t - 1) (drop0 (entry mds))).
Proof. exact @ProofEquivalent.calc_matrices_defined. Qed.
Print Assumptions C62_script_defined_iff.

Theorem C62_shipped :
  forall I, In I ps_instances -> forall F (Fo : FOps F), is_prime_field Fo (si_p I) -> forall dbg,
  exists Q, ps_instance_params dbg I = Ok Q /\
  (forall M_i vs ws m, calc_equivalent_matrices (si_t I) (si_rp I) (map (map f_of_Z) (si_mds I)) M_i vs ws m <->
     M_i = map (fun i => map (fun j => entry (ps_m_i Q) j i) (seq 0 (si_t I))) (seq 0 (si_t I)) /\
     vs = ps_v Q /\ ws = ps_w_hat Q /\ m = entry (map (map f_of_Z) (si_mds I)) 0 0) /\
  (forall out, calc_equivalent_constants (si_t I) (si_rf I) (si_rp I) (map f_of_Z (concat (si_rc I))) (map (map f_of_Z) (si_mds I)) out <->
     out = firstn (si_rf I / 2) (map (map f_of_Z) (si_rc I)) ++ [nth 0 (ps_opt_rc Q) []] ++
           map (fun k => nth 0 (nth k (ps_opt_rc Q) []) f0 :: repeat f0 (si_t I - 1)) (seq 1 (si_rp I - 1)) ++
           skipn (si_rf I / 2 + si_rp I) (map (map f_of_Z) (si_rc I))).
Proof. exact ProofEquivalent.ps_equivalent_shipped. Qed.
Print Assumptions C62_shipped.

Lemma ex_block_invertible : invertible 2 (drop0 (entry ex_mds)).
Proof.
  exists (entry (m13 [[8; 10]; [11; 1]]%Z)). split; intros i j Hi Hj;
    (destruct i as [|[|i]]; [| |lia]); (destruct j as [|[|j]]; [| |lia]); vm_compute; reflexivity.
Qed.
(** The constructor asks for more: it panics for five partial rounds with a matrix that the script factorises.
    So "the constructor accepts every matrix the script can factorise" is false. *)
Theorem C62_same_domain_refuted :
  exists (mds rc : list (list F13)), is_prime_field F13_ops 13 /\ dims 3 3 mds /\ ps_exact_constants 3 (2 + 5) rc /\ invertible 3 (entry mds) /\
    (exists M_i vs ws m, calc_equivalent_matrices 3 5 mds M_i vs ws m) /\ ps_new false 3 5 2 5 mds rc = Panic.
Proof.
  exists ex_mds, (ex_rc ++ ex_rc). split; [exact F13_field|]. split; [exact ex_dims|]. split; [|split; [|split]].
  - intros i Hi. do 7 (destruct i as [|i]; [reflexivity|]). lia.
  - exists (entry (m13 [[10; 1; 2]; [7; 10; 1]; [12; 7; 6]]%Z)). split; intros i j Hi Hj;
    (destruct i as [|[|[|i]]]; [| | |lia]); (destruct j as [|[|[|j]]]; [| | |lia]); vm_compute; reflexivity.
  - apply C62_script_defined_iff; [exact (prime_field_is_field F13_field)|lia|lia|exact ex_block_invertible].
  - vm_compute. reflexivity.
Qed.
Print Assumptions C62_same_domain_refuted.

(** three partial rounds: both constructors of the tables succeed, with these values *)
Example C62_ex : exists P, ps_new true 3 5 2 3 ex_mds ex_rc = Ok P /\ dims 3 3 ex_mds /\ (forall row, In row ex_rc -> length row = 3) /\
  map (map f_to_Z) (ps_opt_rc P) = [[4; 5; 12]; [7]; [5]]%Z /\ map (map f_to_Z) (ps_v P) = [[5; 1]; [4; 9]; [9; 1]]%Z.
Proof.
  eexists. split; [vm_compute; reflexivity|]. split; [exact ex_dims|]. split.
  - intros row Hr. repeat (destruct Hr as [<-|Hr]; [reflexivity|]). destruct Hr.
  - vm_compute. split; reflexivity.
Qed.

(** ** C63: internal matrices with two equal diagonal entries *)
(** The code's internal layer multiplies the vectors a (e_i - e_j) by the common diagonal entry: they form an invariant subspace. *)
Theorem C63_equal_diagonal_eigenvector :
  forall F (Fo : FOps F), is_field Fo ->
  forall P (diag : list F) i j a,
    p2_t P = 4 \/ p2_t P = 8 \/ p2_t P = 12 \/ p2_t P = 16 \/ p2_t P = 20 \/ p2_t P = 24 ->
    p2_t P <= length diag -> i < p2_t P -> j < p2_t P -> i <> j -> nth i diag f0 = nth j diag f0 ->
    let v := map (fun k => if k =? i then a else if k =? j then fopp a else f0) (seq 0 (p2_t P)) in
    p2_matmul_internal P v diag = Ok (map (fun x => fmul (nth i diag f0) x) v).
Proof. exact @ProofSmall.internal_equal_diag. Qed.
Print Assumptions C63_equal_diagonal_eigenvector.

(** check_minpoly_condition rejects them *)
Theorem C63_equal_diagonal_rejected :
  forall F (Fo : FOps F) p, is_prime_field Fo p -> forall t (l : list Z), length l = t -> ~ NoDup l ->
  ~ check_minpoly_condition t (entry (partial_matrix (F := F) t l)).
Proof. exact @ProofSmall.repeated_rejected. Qed.
Print Assumptions C63_equal_diagonal_rejected.

(** no shipped diagonal has two equal entries, except for t = 3 *)
Theorem C63_shipped_diagonals_distinct : forall I, In I p2_instances -> qi_t I <> 3 -> NoDup (qi_diag I).
Proof. exact ProofSmall.shipped_diagonals. Qed.
Print Assumptions C63_shipped_diagonals_distinct.

(** generate_matrix_partial_small_entries tries only four values, so that it finds nothing from t = 5 on *)
Theorem C63_small_entries_none :
  forall F (Fo : FOps F) p, is_prime_field Fo p -> forall t, 5 <= t ->
  forall r, generate_matrix_partial_small_entries (F := F) t r <-> r = None.
Proof. exact @ProofSmall.small_entries_none. Qed.
Print Assumptions C63_small_entries_none.
Theorem C63_small_entries_distinct :
  forall F (Fo : FOps F) p, is_prime_field Fo p -> forall t M, generate_matrix_partial_small_entries (F := F) t (Some M) ->
  t <= 4 /\ exists e, length e = t /\ incl e [2; 3; 4; 5]%Z /\ NoDup e /\ M = partial_matrix t e.
Proof. exact @ProofSmall.small_entries_distinct. Qed.
Print Assumptions C63_small_entries_distinct.
(** for t = 2 it finds the shipped matrix *)
Theorem C63_small_entries_width_2 :
  forall I, In I p2_instances -> qi_t I = 2 -> forall F (Fo : FOps F), is_prime_field Fo (qi_p I) ->
  forall r, generate_matrix_partial_small_entries (F := F) 2 r <-> r = Some (map (map f_of_Z) (qi_mat I)).
Proof. exact ProofSmall.small_entries_width_2. Qed.
Print Assumptions C63_small_entries_width_2.

(** t = 4, diagonal (3, 7, 3, 0) modulo 13: (5, 0, -5, 0) is multiplied by 3; and the hypotheses for t = 2 are met *)
Example C63_ex :
  (Q <- p2_new true 4 5 2 1 (l13 [3; 7; 3; 0]%Z) [] (m13 [[1;2;3;4];[1;2;3;4];[1;2;3;4]]%Z) ;; out13 (p2_matmul_internal Q (l13 [5; 0; -5; 0]%Z) (p2_diag Q))) =
    Ok [2; 0; 11; 0]%Z /\
  ~ NoDup [2; 2; 3]%Z /\ length (product_repeat [2; 3; 4; 5]%Z 5) = 1024 /\
  In POSEIDON2_BLS_2_PARAMS p2_instances /\ qi_t POSEIDON2_BLS_2_PARAMS = 2 /\
  is_prime_field (fp_ops P_bls12 P_bls12_ok) (qi_p POSEIDON2_BLS_2_PARAMS).
Proof.
  split; [vm_compute; reflexivity|]. split; [intros D; inversion D as [|x l D1 D2]; apply D1; left; reflexivity|].
  split; [vm_compute; reflexivity|]. split; [unfold p2_instances; cbn [In]; tauto|]. split; [reflexivity|].
  exact (fp_is_prime_field P_bls12 P_bls12_ok prime_bls12 eq_refl).
Qed.
