(** * Active words of full rounds and differences of the S-boxes: C73, C74 *)
From Verif Require Import Base Field Spec SpecMDS SpecPoseidon2 SpecPoseidon SpecBranch SpecSbox SpecInstances
  ModelUtils ModelPoseidon2 ModelPoseidon ModelGmimc ModelNeptune ModelInstances Fp Primes F13.
From Verif Require ProofBranch2 ProofSbox ZField.
Local Open Scope nat_scope.

(** ** C73: how many words of two different states differ before and after full rounds *)
Theorem C73_external_branch :
  forall F (Fo : FOps F) p, is_prime_field Fo p -> forall t, p2_width t -> ~ In p (branch_bad_primes t) ->
  branch_number t (ext_matrix t : @mat F) (p2_branch t).
Proof. exact @ProofBranch2.ext_branch. Qed.
Print Assumptions C73_external_branch.

Theorem C73_poseidon2_round :
  forall F (Fo : FOps F) p, is_prime_field Fo p ->
  forall dbg t d rf rp (diag : list F) (mi rc : list (list F)) P r,
    p2_new dbg t d rf rp diag mi rc = Ok P -> (N.of_nat rf + N.of_nat rp < usize_mod)%N ->
    p2_width t -> ~ In p (branch_bad_primes t) -> sbox_degree d -> Z.gcd (Z.of_nat d) (p - 1) = 1%Z ->
    t <= length (nth r rc []) ->
    active_words t (p2_full_round P r) (p2_branch t) /\ full_diffusion t (p2_full_round P r).
Proof. exact @ProofBranch2.p2_full_active. Qed.
Print Assumptions C73_poseidon2_round.

Theorem C73_poseidon_round :
  forall F (Fo : FOps F) p, is_prime_field Fo p ->
  forall dbg t d rf rp (mds rc : list (list F)) P r,
    ps_new dbg t d rf rp mds rc = Ok P -> (N.of_nat rf + N.of_nat rp < usize_mod)%N ->
    dims t t mds -> 1 <= t -> is_mds t (entry mds) -> Z.gcd (Z.of_nat d) (p - 1) = 1%Z ->
    t <= length (nth r rc []) ->
    active_words t (ps_full_round dbg P r) (t + 1) /\ full_diffusion t (ps_full_round dbg P r).
Proof. exact @ProofBranch2.ps_full_active. Qed.
Print Assumptions C73_poseidon_round.

(** along any even number of consecutive full rounds *)
Theorem C73_poseidon2_trail :
  forall F (Fo : FOps F) p, is_prime_field Fo p ->
  forall dbg t d rf rp (diag : list F) (mi rc : list (list F)) P lo m,
    p2_new dbg t d rf rp diag mi rc = Ok P -> (N.of_nat rf + N.of_nat rp < usize_mod)%N ->
    p2_width t -> ~ In p (branch_bad_primes t) -> sbox_degree d -> Z.gcd (Z.of_nat d) (p - 1) = 1%Z ->
    (forall r, lo <= r < lo + 2 * m -> t <= length (nth r rc [])) ->
    trail_words t (p2_branch t) (p2_full_round P) lo m.
Proof. exact @ProofBranch2.p2_trail. Qed.
Print Assumptions C73_poseidon2_trail.

Theorem C73_poseidon_trail :
  forall F (Fo : FOps F) p, is_prime_field Fo p ->
  forall dbg t d rf rp (mds rc : list (list F)) P lo m,
    ps_new dbg t d rf rp mds rc = Ok P -> (N.of_nat rf + N.of_nat rp < usize_mod)%N ->
    dims t t mds -> 1 <= t -> is_mds t (entry mds) -> Z.gcd (Z.of_nat d) (p - 1) = 1%Z ->
    (forall r, lo <= r < lo + 2 * m -> t <= length (nth r rc [])) ->
    trail_words t (t + 1) (ps_full_round dbg P) lo m.
Proof. exact @ProofBranch2.ps_trail. Qed.
Print Assumptions C73_poseidon_trail.

Theorem C73_poseidon2_shipped :
  forall I, In I p2_instances -> forall F (Fo : FOps F), is_prime_field Fo (qi_p I) -> forall dbg,
  exists Q, p2_instance_params dbg I = Ok Q /\
  (forall r, r < qi_rf I / 2 \/ qi_rf I / 2 + qi_rp I <= r < qi_rf I + qi_rp I ->
     active_words (qi_t I) (p2_full_round Q r) (p2_branch (qi_t I)) /\ full_diffusion (qi_t I) (p2_full_round Q r)) /\
  (forall lo m, lo + 2 * m <= qi_rf I / 2 \/ qi_rf I / 2 + qi_rp I <= lo /\ lo + 2 * m <= qi_rf I + qi_rp I ->
     trail_words (qi_t I) (p2_branch (qi_t I)) (p2_full_round Q) lo m).
Proof. exact ProofBranch2.p2_shipped_active. Qed.
Print Assumptions C73_poseidon2_shipped.

Theorem C73_poseidon_shipped :
  forall I, In I ps_instances -> forall F (Fo : FOps F), is_prime_field Fo (si_p I) -> forall dbg,
  exists Q, ps_instance_params dbg I = Ok Q /\
  (forall r, r < si_rf I + si_rp I ->
     active_words (si_t I) (ps_full_round dbg Q r) (si_t I + 1) /\ full_diffusion (si_t I) (ps_full_round dbg Q r)) /\
  (forall lo m, lo + 2 * m <= si_rf I + si_rp I -> trail_words (si_t I) (si_t I + 1) (ps_full_round dbg Q) lo m).
Proof. exact ProofBranch2.ps_shipped_active. Qed.
Print Assumptions C73_poseidon_shipped.

(** Modulo 13 the 4 x 4 matrix maps (0, 1, 0, 2) to a vector with two zero words. *)
Theorem C73_bad_prime_refuted : ~ branch_number 4 (ext_matrix 4 : @mat F13) (p2_branch 4).
Proof. exact ProofBranch2.bad_prime_13. Qed.
Print Assumptions C73_bad_prime_refuted.

(** Over Goldilocks with t = 8 the vector (2, 0, 0, 0, -1, 0, 0, 0) attains 8/4 + 4; over F13 one changed word
    changes all three words of the next state. *)
Definition gl := fp_ops P_goldilocks P_goldilocks_ok.
Definition glv (l : list Z) : list (Fp P_goldilocks) := map (@f_of_Z _ gl) l.
Definition ex_p2 := p2_new true 3 5 2 0 (l13 [1;1;2]%Z) [] (map l13 [[1;2;3];[4;0;8]]%Z).
Example C73_ex :
  is_prime_field gl 18446744069414584321 /\ p2_width 8 /\ ~ In 18446744069414584321%Z (branch_bad_primes 8) /\
  map p2_branch [2;3;4;8;12;16;20;24] = [3;4;5;6;7;8;9;10] /\
  @weight _ gl (glv [2;0;0;0;-1;0;0;0]%Z) = 2 /\
  @weight _ gl (@mat_apply _ gl 8 8 (@ext_matrix _ gl 8) (glv [2;0;0;0;-1;0;0;0]%Z)) = 4 /\
  (exists P, ex_p2 = Ok P) /\ p2_width 3 /\ ~ In 13%Z (branch_bad_primes 3) /\ sbox_degree 5 /\ Z.gcd (Z.of_nat 5) (13 - 1) = 1%Z /\
  differ (l13 [7;8;9]%Z) (l13 [7;1;9]%Z) = 1 /\
  out13 (P <- ex_p2 ;; p2_full_round P 1 (l13 [7;8;9]%Z)) = Ok [6;7;9]%Z /\
  out13 (P <- ex_p2 ;; p2_full_round P 1 (l13 [7;1;9]%Z)) = Ok [12;6;2]%Z.
Proof.
  split; [exact (fp_is_prime_field P_goldilocks P_goldilocks_ok prime_goldilocks eq_refl)|].
  split; [unfold p2_width; cbn [In]; lia|]. split; [cbn [branch_bad_primes Nat.ltb Nat.leb In]; lia|].
  split; [reflexivity|]. split; [vm_compute; reflexivity|]. split; [vm_compute; reflexivity|].
  split; [eexists; reflexivity|]. split; [unfold p2_width; cbn [In]; lia|]. split; [cbn [branch_bad_primes Nat.ltb Nat.leb In]; lia|].
  split; [unfold sbox_degree; cbn [In]; lia|]. repeat (split; [vm_compute; reflexivity|]). vm_compute; reflexivity.
Qed.

(** ** C74: differences and affine approximations of the S-boxes *)
Theorem C74_poseidon2_sbox :
  forall F (Fo : FOps F) p, is_prime_field Fo p -> forall P : Poseidon2Params F,
  sbox_degree (p2_d P) -> (Z.of_nat (p2_d P) < p)%Z ->
  differential_bound (p2_sbox_p P) (p2_d P - 1) /\ affine_bound (p2_sbox_p P) (p2_d P) /\ ~ differential_bound (p2_sbox_p P) 1.
Proof. exact @ProofSbox.p2_box. Qed.
Print Assumptions C74_poseidon2_sbox.

Theorem C74_poseidon_sbox :
  forall F (Fo : FOps F) p, is_prime_field Fo p -> forall P : PoseidonParams F,
  sbox_degree (ps_d P) -> (Z.of_nat (ps_d P) < p)%Z ->
  differential_bound (ps_sbox_p P) (ps_d P - 1) /\ affine_bound (ps_sbox_p P) (ps_d P) /\ ~ differential_bound (ps_sbox_p P) 1.
Proof. exact @ProofSbox.ps_box. Qed.
Print Assumptions C74_poseidon_sbox.

Theorem C74_gmimc_sbox :
  forall F (Fo : FOps F) p, is_prime_field Fo p -> forall (P : GmimcParams F) r,
  sbox_degree (gm_d P) -> (Z.of_nat (gm_d P) < p)%Z -> r < length (gm_rc P) ->
  differential_bound (fun x => gm_sbox P x r) (gm_d P - 1) /\ affine_bound (fun x => gm_sbox P x r) (gm_d P) /\
  ~ differential_bound (fun x => gm_sbox P x r) 1.
Proof. exact @ProofSbox.gm_box. Qed.
Print Assumptions C74_gmimc_sbox.

Theorem C74_neptune_internal_sbox :
  forall F (Fo : FOps F) p, is_prime_field Fo p -> forall P : NeptuneParams F,
  sbox_degree (np_d P) -> (Z.of_nat (np_d P) < p)%Z ->
  differential_bound (np_sbox_d P) (np_d P - 1) /\ affine_bound (np_sbox_d P) (np_d P) /\ ~ differential_bound (np_sbox_d P) 1.
Proof. exact @ProofSbox.np_box. Qed.
Print Assumptions C74_neptune_internal_sbox.

(** Neptune's S-box on pairs: exactly p of the p^2 pairs in the worst case *)
Theorem C74_neptune_pair_sbox :
  forall F (Fo : FOps F) p, is_prime_field Fo p -> forall P : NeptuneParams F,
  p <> 2%Z -> pair_uniformity (np_external_sbox_prime P) p.
Proof. exact @ProofSbox.np_pair_box. Qed.
Print Assumptions C74_neptune_pair_sbox.

(** The bound on d is needed: in the field with d elements x^d = x. *)
Theorem C74_small_field_refuted :
  forall F (Fo : FOps F) p, is_prime_field Fo p -> forall P : Poseidon2Params F,
  sbox_degree (p2_d P) -> p = Z.of_nat (p2_d P) -> ~ differential_bound (p2_sbox_p P) (p2_d P - 1).
Proof. exact @ProofSbox.p2_box_frobenius. Qed.
Print Assumptions C74_small_field_refuted.

(** Modulo 13 with d = 5 both bounds are attained; the values were computed by an independent script. *)
Definition ex_box := P <- p2_new true 3 5 2 0 (l13 [1;1;2]%Z) [] (map l13 [[1;2;3];[4;0;8]]%Z) ;; Ok (fun x => p2_sbox_p P x).
Definition all13 : list F13 := l13 [0;1;2;3;4;5;6;7;8;9;10;11;12]%Z.
Definition count13 (f : F13 -> bool) : nat := length (filter f all13).
Definition ex_np : NeptuneParams F13 := {| np_t := 4; np_d := 5; np_rounds_f_beginning := 1; np_rounds_p := 0; np_rounds_f_end := 1;
  np_rounds := 2; np_rc := []; np_m_e := []; np_mu := []; np_abc := (e13 1, e13 1, e13 2); np_a_ := (e13 0, e13 0, e13 0) |}.
Example C74_ex :
  (exists P, p2_new true 3 5 2 0 (l13 [1;1;2]%Z) [] (map l13 [[1;2;3];[4;0;8]]%Z) = Ok P /\ sbox_degree (p2_d P) /\ (Z.of_nat (p2_d P) < 13)%Z) /\
  (** solutions of (x + 1)^5 - x^5 = b for b = 0, ..., 12 *)
  map (fun b => count13 (fun x => match f <- ex_box ;; u <- f (fadd x f1) ;; v <- f x ;; Ok (fsub u v) with Ok c => feqb c b | _ => false end)) all13
    = [0;4;0;2;0;2;0;0;2;1;2;0;0] /\
  (** solutions of x^5 = a x for a = 0, ..., 12 *)
  map (fun a => count13 (fun x => match f <- ex_box ;; f x with Ok c => feqb c (fmul a x) | _ => false end)) all13
    = [1;5;1;5;1;1;1;1;1;5;1;1;1] /\
  (** pairs with output difference (0, 1) for the input difference (1, 1), and (12, 10) for (1, 0) *)
  map (fun q => let '(a, b, c, d) := q in length (filter (fun x => let r := pair_difference (np_external_sbox_prime ex_np) (e13 a) (e13 b) (fst x) (snd x) in
      feqb (fst r) (e13 c) && feqb (snd r) (e13 d)) (list_prod all13 all13))) [(1, 1, 0, 1); (1, 0, 5, 5); (1, 0, 12, 10)]%Z = [13; 13; 1] /\
  (** the fields with 3, 5 and 7 elements exist *)
  (forall p (Hp : prime p), is_prime_field (ZField.zp_ops p Hp) p).
Proof.
  split; [eexists; split; [reflexivity|]; split; [unfold sbox_degree; cbn; lia|cbn; lia]|].
  split; [vm_compute; reflexivity|]. split; [vm_compute; reflexivity|]. split; [vm_compute; reflexivity|]. exact ZField.zp_field.
Qed.
