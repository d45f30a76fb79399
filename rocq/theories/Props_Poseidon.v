(** * Properties of Poseidon (poseidon.rs, poseidon_params.rs) and of the optimised round constants:
      C11, C13-C16, C20 *)
From Verif Require Import Base Field Spec ModelUtils ModelPoseidon2 ModelPoseidon SpecPoseidon F13 Props_Matrix.
From Verif Require ProofEquivRC ProofPoseidon ProofPoseidonOpt ProofPoseidonFin ProofTotal SpecPoseidon2.

(** one row of at least t constants for every round *)
Definition ps_enough_constants {F} (t rounds : nat) (rc : list (list F)) : Prop :=
  forall r, r < rounds -> t <= length (nth r rc []).
(** one row of exactly t constants for every round *)
Definition ps_exact_constants {F} (t rounds : nat) (rc : list (list F)) : Prop :=
  forall r, r < rounds -> length (nth r rc []) = t.

(** ** Example data over the field with 13 elements: t = 3, d = 5, R_F = 2, R_P = 3 *)
Definition ex_mds : list (list F13) := m13 [[2;3;1];[5;7;8];[1;1;4]]%Z.
Definition ex_rc : list (list F13) := m13 [[1;2;3];[4;5;6];[7;8;9];[10;11;12];[3;1;2]]%Z.
Lemma ex_dims : dims 3 3 ex_mds.
Proof. split; [reflexivity|]. intros i Hi. destruct i as [|[|[|]]]; reflexivity || lia. Qed.
Lemma ex_rows : ps_exact_constants 3 5 ex_rc.
Proof. intros i Hi. do 5 (destruct i as [|i]; [reflexivity|]). lia. Qed.
Lemma ex_rows' : ps_enough_constants 3 5 ex_rc.
Proof. intros i Hi. rewrite ex_rows by exact Hi. lia. Qed.
Definition ex_new dbg : res (PoseidonParams F13) := ps_new dbg 3 5 2 3 ex_mds ex_rc.

(** ** C11 *)
Theorem C11_p2_equivalent_round_constants :
  forall F (Fo : FOps F), is_field Fo ->
  forall dbg t d (rc mi : list (list F)) rfb rp opt x,
    dims t t mi -> 2 <= t -> (N.of_nat rfb + N.of_nat rp + 1 < usize_mod)%N ->
    p2_equivalent_round_constants dbg rc mi rfb rp = Ok opt ->
    1 <= rp /\ length opt = rp + 1 /\
    fold_left (fun s r => ps_ref_partial t d (entry mi) (nth r rc []) s) (seq rfb rp) x =
    fold_left (fun s k => post_round t d (entry mi) (nth 0 (nth (k + 1) opt []) f0) s) (seq 0 rp)
      (map (fun i => fadd (nth i x f0) (nth i (nth 0 opt []) f0)) (seq 0 t)).
Proof. exact @ProofEquivRC.p2_equivalent_rc_correct. Qed.
Print Assumptions C11_p2_equivalent_round_constants.

Theorem C11_p2_equivalent_round_constants_returns :
  forall F (Fo : FOps F), is_field Fo ->
  forall dbg t (rc mi : list (list F)) rfb rp,
    dims t t mi -> 2 <= t -> (N.of_nat rfb + N.of_nat rp + 1 < usize_mod)%N ->
    (forall k, k < rp -> length (nth (rfb + k) rc []) = t) ->
    ((exists opt, p2_equivalent_round_constants dbg rc mi rfb rp = Ok opt) <->
     1 <= rp /\ leading_blocks t (entry mi)).
Proof. exact @ProofEquivRC.p2_equivalent_rc_returns. Qed.
Print Assumptions C11_p2_equivalent_round_constants_returns.

(** three partial rounds; both sides evaluated *)
Example C11_ex : outm13 (p2_equivalent_round_constants true ex_rc ex_mds 1 3) = Ok [[4;5;12];[7];[5];[0;0;0]]%Z.
Proof. vm_compute. reflexivity. Qed.
Example C11_ex_sides :
  map f_to_Z (fold_left (fun s r => ps_ref_partial 3 5 (entry ex_mds) (nth r ex_rc []) s) (seq 1 3) (l13 [1;2;3]%Z)) = [7;6;7]%Z /\
  map f_to_Z (fold_left (fun s k => post_round 3 5 (entry ex_mds) (nth k (l13 [7;5;0]%Z) f0) s) (seq 0 3) (l13 [5;7;15]%Z)) = [7;6;7]%Z.
Proof. vm_compute. split; reflexivity. Qed.

(** ** C13 *)
Theorem C13_poseidon_reference :
  forall F (Fo : FOps F), is_field Fo ->
  forall dbg t d rf rp (mds rc : list (list F)) P x,
    ps_new dbg t d rf rp mds rc = Ok P ->
    (N.of_nat rf + N.of_nat rp < usize_mod)%N -> dims t t mds ->
    ps_enough_constants t (rf + rp) rc ->
    (length x = t -> ps_permutation dbg P x = Ok (ps_ref t d rf rp (entry mds) rc x) /\
                     ps_permutation_not_opt dbg P x = Ok (ps_ref t d rf rp (entry mds) rc x)) /\
    (length x <> t -> ps_permutation dbg P x = Panic /\ ps_permutation_not_opt dbg P x = Panic).
Proof. exact @ProofPoseidonFin.ps_permutation_ref. Qed.
Print Assumptions C13_poseidon_reference.

(** expected value computed by an independent script *)
Example C13_ex dbg : bind (ex_new dbg) (fun P => out13 (ps_permutation_not_opt dbg P (l13 [1;2;3]%Z))) = Ok [7;2;5]%Z.
Proof. destruct dbg; vm_compute; reflexivity. Qed.
Example C13_ex_ref : map f_to_Z (ps_ref 3 5 2 3 (entry ex_mds) ex_rc (l13 [1;2;3]%Z)) = [7;2;5]%Z.
Proof. vm_compute. reflexivity. Qed.
Example C13_ex_hyps dbg : exists P, ps_new dbg 3 5 2 3 ex_mds ex_rc = Ok P /\ dims 3 3 ex_mds /\
  ps_enough_constants 3 (2 + 3) ex_rc /\ (N.of_nat 2 + N.of_nat 3 < usize_mod)%N.
Proof.
  destruct dbg; (eexists; split; [vm_compute; reflexivity|]; split; [exact ex_dims|]; split; [exact ex_rows'|]; vm_compute; reflexivity).
Qed.

(** ** C14 *)
Theorem C14_optimised_equals_unoptimised :
  forall F (Fo : FOps F), is_field Fo ->
  forall dbg t d rf rp (mds rc : list (list F)) P x,
    ps_new dbg t d rf rp mds rc = Ok P ->
    (N.of_nat rf + N.of_nat rp < usize_mod)%N -> dims t t mds ->
    (forall k, k < rp -> t <= length (nth (rf / 2 + k) rc [])) ->
    ps_permutation dbg P x = ps_permutation_not_opt dbg P x.
Proof. exact @ProofPoseidonFin.ps_opt_eq. Qed.
Print Assumptions C14_optimised_equals_unoptimised.

(** debug builds: no condition on the constants *)
Theorem C14_optimised_equals_unoptimised_debug :
  forall F (Fo : FOps F), is_field Fo ->
  forall t d rf rp (mds rc : list (list F)) P x,
    ps_new true t d rf rp mds rc = Ok P ->
    (N.of_nat rf + N.of_nat rp < usize_mod)%N -> dims t t mds ->
    ps_permutation true P x = ps_permutation_not_opt true P x.
Proof. exact @ProofPoseidonFin.ps_opt_eq_debug. Qed.
Print Assumptions C14_optimised_equals_unoptimised_debug.

(** release builds accept a last row of constants that is too short, and then the two
    permutations differ: the claim without the row-length condition is false *)
Definition short_rc : list (list F13) := m13 [[4;5;6];[7;8]]%Z.
Theorem C14_every_accepted_release_refuted :
  exists (mds rc : list (list F13)) P x, is_prime_field F13_ops 13 /\ dims 3 3 mds /\ length x = 3 /\
    ps_new false 3 5 0 2 mds rc = Ok P /\ ps_permutation false P x <> ps_permutation_not_opt false P x.
Proof.
  exists ex_mds, short_rc. eexists. exists (l13 [1;2;3]%Z).
  split; [exact F13_field|]. split; [exact ex_dims|]. split; [reflexivity|]. split; [vm_compute; reflexivity|].
  intros H. apply (f_equal out13) in H. revert H. vm_compute. discriminate.
Qed.
Print Assumptions C14_every_accepted_release_refuted.

Example C14_ex dbg : bind (ex_new dbg) (fun P => out13 (ps_permutation dbg P (l13 [1;2;3]%Z))) = Ok [7;2;5]%Z.
Proof. destruct dbg; vm_compute; reflexivity. Qed.
Example C14_ex_short :
  bind (ps_new false 3 5 0 2 ex_mds short_rc) (fun P => out13 (ps_permutation false P (l13 [1;2;3]%Z))) = Ok [6;7;3]%Z /\
  bind (ps_new false 3 5 0 2 ex_mds short_rc) (fun P => out13 (ps_permutation_not_opt false P (l13 [1;2;3]%Z))) = Ok [10;0;6]%Z /\
  ps_new true 3 5 0 2 ex_mds short_rc = Panic.
Proof. vm_compute. repeat split. Qed.

(** ** C15 *)
Theorem C15_poseidon_bijection_iff :
  forall F (Fo : FOps F) p, is_prime_field Fo p ->
  forall dbg t d rf rp (mds rc : list (list F)) P,
    ps_new dbg t d rf rp mds rc = Ok P ->
    (N.of_nat rf + N.of_nat rp < usize_mod)%N -> dims t t mds ->
    ps_enough_constants t (rf + rp) rc ->
    (bijective_on t (ps_permutation dbg P) <-> Z.gcd (Z.of_nat d) (p - 1) = 1%Z) /\
    (bijective_on t (ps_permutation_not_opt dbg P) <-> Z.gcd (Z.of_nat d) (p - 1) = 1%Z).
Proof. exact @ProofPoseidonFin.ps_permutation_bijective_iff. Qed.
Print Assumptions C15_poseidon_bijection_iff.

(** d = 5 is coprime to 12, d = 3 is not: the same data gives a bijection and a non-bijection *)
Example C15_ex : Z.gcd (Z.of_nat 5) (13 - 1) = 1%Z /\ Z.gcd (Z.of_nat 3) (13 - 1) <> 1%Z /\
  (exists P, ps_new true 3 3 2 3 ex_mds ex_rc = Ok P).
Proof. split; [reflexivity|]. split; [discriminate|]. eexists. vm_compute. reflexivity. Qed.

(** ** C16 *)
Theorem C16_poseidon_new_success_iff :
  forall F (Fo : FOps F), is_field Fo ->
  forall dbg t d rf rp (mds rc : list (list F)),
    dims t t mds -> ps_exact_constants t (rf + rp) rc ->
    (N.of_nat rf + N.of_nat rp < usize_mod)%N ->
    ((exists P, ps_new dbg t d rf rp mds rc = Ok P) <->
      (d = 3 \/ d = 5 \/ d = 7) /\ rf mod 2 = 0 /\ 2 <= t /\ 1 <= rp /\ leading_blocks t (entry mds) /\
      (forall k, 1 <= k <= rp -> leading_blocks (t - 1) (mat_pow (t - 1) (drop0 (entry mds)) k))) /\
    ((exists P, ps_new dbg t d rf rp mds rc = Ok P) \/ ps_new dbg t d rf rp mds rc = Panic).
Proof.
  intros F Fo HF dbg t d rf rp mds rc Hd HR Hov.
  destruct (ProofPoseidonFin.ps_new_success HF dbg t d rf rp mds rc Hd) as [A B].
  - intros r Hr. rewrite HR by exact Hr. lia.
  - intros r Hr. rewrite HR by exact Hr. lia.
  - exact Hov.
  - split; [|exact B]. rewrite A. unfold SpecPoseidon2.sbox_degree. cbn [In]. intuition.
Qed.
Print Assumptions C16_poseidon_new_success_iff.

(** width 0 or 1, or no partial round: always a panic, for any constants *)
Theorem C16_poseidon_new_degenerate_panics :
  forall F (Fo : FOps F), is_field Fo ->
  forall dbg t d rf rp (mds rc : list (list F)), dims t t mds -> t < 2 \/ rp = 0 ->
    ps_new dbg t d rf rp mds rc = Panic.
Proof. exact @ProofPoseidonFin.ps_new_few_panics. Qed.
Print Assumptions C16_poseidon_new_degenerate_panics.

(** a matrix without exactly t rows, or whose first row has not length t, is rejected *)
Theorem C16_poseidon_new_wrong_size_panics :
  forall F (Fo : FOps F) dbg t d rf rp (mds rc : list (list F)),
    length mds <> t \/ length (nth 0 mds []) <> t -> ps_new dbg t d rf rp mds rc = Panic.
Proof. exact @ProofTotal.ps_new_wrong_size. Qed.
Print Assumptions C16_poseidon_new_wrong_size_panics.

(** the 3 x 3 matrix with t = 2: the factorisation itself would go through *)
Example C16_ex_wrong_size : length ex_mds <> 2 /\ (exists r, ps_equivalent_matrices false ex_mds 2 1 = Ok r) /\
  ps_new false 2 5 2 1 ex_mds ex_rc = Panic.
Proof. split; [discriminate|]. split; [eexists; vm_compute; reflexivity|vm_compute; reflexivity]. Qed.

(** the same matrix is accepted for four partial rounds and rejected for five: the top-left
    entry of (drop0 mds)^5 is zero although the matrix is invertible *)
Example C16_ex_accept : (exists P, ps_new false 3 5 2 4 ex_mds (ex_rc ++ ex_rc) = Ok P).
Proof. eexists. vm_compute. reflexivity. Qed.
Example C16_ex_reject : ps_new false 3 5 2 5 ex_mds (ex_rc ++ ex_rc) = Panic.
Proof. vm_compute. reflexivity. Qed.
Example C16_ex_degenerate : ps_new true 3 5 2 0 ex_mds ex_rc = Panic /\ ps_new true 1 5 2 3 (m13 [[2]]%Z) ex_rc = Panic.
Proof. vm_compute. split; reflexivity. Qed.

(** ** C20, Poseidon part *)
Theorem C20_poseidon_new_profiles :
  forall F (Fo : FOps F), is_field Fo ->
  forall t d rf rp (mds rc : list (list F)),
    dims t t mds -> ps_exact_constants t (rf + rp) rc ->
    (N.of_nat rf + N.of_nat rp < usize_mod)%N ->
    ps_new true t d rf rp mds rc = ps_new false t d rf rp mds rc.
Proof.
  intros F Fo HF t d rf rp mds rc Hd HR Hov. apply (ProofPoseidonFin.ps_new_profiles HF); try assumption;
    intros r Hr; rewrite HR by exact Hr; lia.
Qed.
Print Assumptions C20_poseidon_new_profiles.

Theorem C20_poseidon_permutation_profiles :
  forall F (Fo : FOps F), is_field Fo ->
  forall t d rf rp (mds rc : list (list F)) P x,
    dims t t mds -> ps_exact_constants t (rf + rp) rc ->
    (N.of_nat rf + N.of_nat rp < usize_mod)%N ->
    ps_new true t d rf rp mds rc = Ok P ->
    ps_permutation true P x = ps_permutation false P x /\
    ps_permutation_not_opt true P x = ps_permutation_not_opt false P x.
Proof.
  intros F Fo HF t d rf rp mds rc P x Hd HR Hov HN.
  apply (ProofPoseidonFin.ps_permutation_profiles HF t d rf rp mds rc); try assumption;
    intros r Hr; rewrite HR by exact Hr; lia.
Qed.
Print Assumptions C20_poseidon_permutation_profiles.
Example C20_ex_poseidon : ps_exact_constants 3 (2 + 3) ex_rc /\ ex_new true = ex_new false /\ ex_new true <> Panic.
Proof. split; [exact ex_rows|]. vm_compute. split; [reflexivity|discriminate]. Qed.
