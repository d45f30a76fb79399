(** * Every round constant matters on every input: C83 *)
From Verif Require Import Base Field Spec ModelPoseidon2 ModelPoseidon ModelGmimc ModelNeptune ModelInstances SpecPoseidon2 SpecInstances SpecConst F13
  Props_Matrix Props_Poseidon Props_Poseidon2 Props_Neptune.
From Verif Require ProofConst ProofPoseidonFin.
Local Open Scope nat_scope.

(** Two tables that differ in one row, among the positions read, give different outputs on every input. *)
Theorem C83_poseidon2 :
  forall F (Fo : FOps F) p, is_prime_field Fo p ->
  forall dbg t d rf rp (diag : list F) mi mi' rc rc' P P' r,
    p2_new dbg t d rf rp diag mi rc = Ok P -> p2_new dbg t d rf rp diag mi' rc' = Ok P' ->
    (N.of_nat rf + N.of_nat rp < usize_mod)%N -> p2_width t -> sbox_degree d ->
    p2_data_ok t rf rp diag rc -> p2_data_ok t rf rp diag rc' ->
    bijective_on t (p2_permutation dbg P) -> only_row (p2_reads t rf rp) r rc rc' ->
    differ_everywhere t (p2_permutation dbg P) (p2_permutation dbg P').
Proof. exact @ProofConst.p2_constants. Qed.
Print Assumptions C83_poseidon2.

Theorem C83_poseidon :
  forall F (Fo : FOps F) p, is_prime_field Fo p ->
  forall dbg t d rf rp (mds rc rc' : list (list F)) P P' r,
    ps_new dbg t d rf rp mds rc = Ok P -> ps_new dbg t d rf rp mds rc' = Ok P' ->
    (N.of_nat rf + N.of_nat rp < usize_mod)%N -> dims t t mds ->
    ps_enough_constants t (rf + rp) rc -> ps_enough_constants t (rf + rp) rc' ->
    Z.gcd (Z.of_nat d) (p - 1) = 1%Z -> only_row (all_reads t rf rp) r rc rc' ->
    differ_everywhere t (ps_permutation dbg P) (ps_permutation dbg P') /\
    differ_everywhere t (ps_permutation_not_opt dbg P) (ps_permutation_not_opt dbg P').
Proof. exact @ProofConst.ps_constants. Qed.
Print Assumptions C83_poseidon.

Theorem C83_neptune :
  forall F (Fo : FOps F) p, is_prime_field Fo p ->
  forall dbg fuel fuel' rng rng' t d rf rp (P P' : NeptuneParams F) r,
    np_new dbg fuel rng t d rf rp = Ok P -> np_new dbg fuel' rng' t d rf rp = Ok P' ->
    (N.of_nat rf + N.of_nat rp < usize_mod)%N -> 2 <= t ->
    np_m_e P' = np_m_e P -> np_mu P' = np_mu P -> np_abc P' = np_abc P ->
    bijective_on t (np_permutation dbg P) -> only_row (all_reads t rf rp) r (np_rc P) (np_rc P') ->
    differ_everywhere t (np_permutation dbg P) (np_permutation dbg P').
Proof. exact @ProofConst.np_constants. Qed.
Print Assumptions C83_neptune.

(** GMiMC is always a bijection; there the exact condition is that x^d is one too.  With one word the constants have no effect. *)
Theorem C83_gmimc :
  forall F (Fo : FOps F) p, is_prime_field Fo p ->
  forall dbg rng rng' t d rounds (P P' : GmimcParams F) r,
    gm_new rng t d rounds = Ok P -> gm_new rng' t d rounds = Ok P' -> r < rounds -> rng r <> rng' r ->
    (forall s, s <> r -> s < rounds -> rng s = rng' s) ->
    (2 <= t -> (differ_everywhere t (gm_permutation dbg P) (gm_permutation dbg P') <-> Z.gcd (Z.of_nat d) (p - 1) = 1%Z) /\
       (differ_everywhere t (gm_permutation_not_opt dbg P) (gm_permutation_not_opt dbg P') <-> Z.gcd (Z.of_nat d) (p - 1) = 1%Z)) /\
    (t = 1 -> agree_everywhere t (gm_permutation dbg P) (gm_permutation dbg P') /\
       agree_everywhere t (gm_permutation_not_opt dbg P) (gm_permutation_not_opt dbg P')).
Proof. exact @ProofConst.gm_constants. Qed.
Print Assumptions C83_gmimc.

(** The shipped tables: whichever row is wrong, and however, every input shows it. *)
Theorem C83_poseidon2_shipped :
  forall I, In I p2_instances -> forall F (Fo : FOps F), is_prime_field Fo (qi_p I) -> forall dbg,
  exists Q, p2_instance_params dbg I = Ok Q /\
    forall (rc' : list (list F)) mi r, p2_data_ok (qi_t I) (qi_rf I) (qi_rp I) (map f_of_Z (qi_diag I)) rc' ->
      only_row (p2_reads (qi_t I) (qi_rf I) (qi_rp I)) r (map (map f_of_Z) (qi_rc I)) rc' ->
      exists Q', p2_new dbg (qi_t I) (qi_d I) (qi_rf I) (qi_rp I) (map f_of_Z (qi_diag I)) mi rc' = Ok Q' /\
        differ_everywhere (qi_t I) (p2_permutation dbg Q) (p2_permutation dbg Q').
Proof. exact ProofConst.p2_shipped_constants. Qed.
Print Assumptions C83_poseidon2_shipped.

Theorem C83_poseidon_shipped :
  forall I, In I ps_instances -> forall F (Fo : FOps F), is_prime_field Fo (si_p I) -> forall dbg,
  exists Q, ps_instance_params dbg I = Ok Q /\
    forall (rc' : list (list F)) r, ps_exact_constants (si_t I) (si_rf I + si_rp I) rc' ->
      only_row (all_reads (si_t I) (si_rf I) (si_rp I)) r (map (map f_of_Z) (si_rc I)) rc' ->
      exists Q', ps_new dbg (si_t I) (si_d I) (si_rf I) (si_rp I) (map (map f_of_Z) (si_mds I)) rc' = Ok Q' /\
        differ_everywhere (si_t I) (ps_permutation dbg Q) (ps_permutation dbg Q') /\
        differ_everywhere (si_t I) (ps_permutation_not_opt dbg Q) (ps_permutation_not_opt dbg Q').
Proof. exact ProofConst.ps_shipped_constants. Qed.
Print Assumptions C83_poseidon_shipped.

(** One row is the limit: in Poseidon a change of the words not seen by the S-box of a partial round
    is undone by a change of the next row, and then no input shows it. *)
Theorem C83_poseidon_two_rows :
  forall F (Fo : FOps F) p, is_prime_field Fo p ->
  forall dbg t d rf rp (mds rc rc' : list (list F)) P P' r (delta : nat -> F),
    ps_new dbg t d rf rp mds rc = Ok P -> ps_new dbg t d rf rp mds rc' = Ok P' ->
    (N.of_nat rf + N.of_nat rp < usize_mod)%N -> dims t t mds ->
    ps_enough_constants t (rf + rp) rc -> ps_enough_constants t (rf + rp) rc' ->
    rf / 2 <= r < rf / 2 + rp -> S r < rf + rp -> delta 0 = f0 ->
    (forall i, i < t -> nth i (nth r rc' []) f0 = fadd (nth i (nth r rc []) f0) (delta i)) ->
    (forall i, i < t -> nth i (nth (S r) rc' []) f0 = fsub (nth i (nth (S r) rc []) f0) (sumn t (fun j => fmul (entry mds i j) (delta j)))) ->
    (forall s i, s <> r -> s <> S r -> s < rf + rp -> i < t -> nth i (nth s rc []) f0 = nth i (nth s rc' []) f0) ->
    agree_everywhere t (ps_permutation dbg P) (ps_permutation dbg P') /\
    agree_everywhere t (ps_permutation_not_opt dbg P) (ps_permutation_not_opt dbg P').
Proof. exact @ProofConst.ps_two_rows. Qed.
Print Assumptions C83_poseidon_two_rows.

(** Examples over the field with 13 elements.  One word of one row changed: *)
Definition ex_rc1 : list (list F13) := m13 [[1;2;3];[4;5;6];[7;8;10];[10;11;12];[3;1;2]]%Z.
Ltac neq13 := let H := fresh in intros H; apply (f_equal (@f_to_Z _ F13_ops)) in H; vm_compute in H; discriminate.
Example C83_ex_poseidon : exists P P', ps_new true 3 5 2 3 ex_mds ex_rc = Ok P /\ ps_new true 3 5 2 3 ex_mds ex_rc1 = Ok P' /\
  ps_enough_constants 3 5 ex_rc1 /\ only_row (Fo := F13_ops) (all_reads 3 2 3) 2 ex_rc ex_rc1 /\
  out13 (ps_permutation (Fo := F13_ops) true P (l13 [1;2;3]%Z)) = Ok [7;2;5]%Z /\
  out13 (ps_permutation (Fo := F13_ops) true P' (l13 [1;2;3]%Z)) <> Ok [7;2;5]%Z.
Proof.
  do 2 eexists. split; [vm_compute; reflexivity|]. split; [vm_compute; reflexivity|]. split; [|split; [split|split]].
  - intros i Hi. do 5 (destruct i as [|i]; [cbn; lia|]). lia.
  - exists 2. split; [split; lia|]. neq13.
  - intros s i N [Hs Hi]. do 5 (destruct s as [|s]; [try lia; do 3 (destruct i as [|i]; [reflexivity|]); lia|]). lia.
  - vm_compute. reflexivity.
  - vm_compute. discriminate.
Qed.

(** rows 2 and 3 changed together, with delta = (0, 1, 5): the same permutation *)
Definition ex_delta (i : nat) : F13 := e13 (nth i [0; 1; 5] 0)%Z.
Definition ex_rc2 : list (list F13) := m13 [[1;2;3];[4;5;6];[7;9;14];[10 - 8;11 - 47;12 - 21];[3;1;2]]%Z.
Example C83_ex_two_rows : exists P P', ps_new true 3 5 2 3 ex_mds ex_rc = Ok P /\ ps_new true 3 5 2 3 ex_mds ex_rc2 = Ok P' /\
  (forall i, i < 3 -> nth i (nth 2 ex_rc2 []) (@f0 _ F13_ops) = @fadd _ F13_ops (nth i (nth 2 ex_rc []) (@f0 _ F13_ops)) (ex_delta i)) /\
  nth 1 (nth 2 ex_rc2 []) (@f0 _ F13_ops) <> nth 1 (nth 2 ex_rc []) (@f0 _ F13_ops) /\
  agree_everywhere 3 (ps_permutation (Fo := F13_ops) true P) (ps_permutation (Fo := F13_ops) true P').
Proof.
  destruct (ps_new true 3 5 2 3 ex_mds ex_rc) as [P| |] eqn:H; [|vm_compute in H; discriminate..].
  destruct (ps_new true 3 5 2 3 ex_mds ex_rc2) as [P'| |] eqn:H'; [|vm_compute in H'; discriminate..].
  assert (A : forall i, i < 3 -> nth i (nth 2 ex_rc2 []) (@f0 _ F13_ops) = @fadd _ F13_ops (nth i (nth 2 ex_rc []) (@f0 _ F13_ops)) (ex_delta i)).
  { intros i Hi. do 3 (destruct i as [|i]; [vm_compute; reflexivity|]). lia. }
  exists P, P'. split; [reflexivity|]. split; [reflexivity|]. split; [exact A|]. split; [neq13|].
  refine (proj1 (C83_poseidon_two_rows F13 F13_ops 13 F13_field true 3 5 2 3 ex_mds ex_rc ex_rc2 P P' 2 ex_delta H H' eq_refl ex_dims ex_rows' _ _ _ _ A _ _)).
  - intros i Hi. do 5 (destruct i as [|i]; [cbn; lia|]). lia.
  - cbn. lia.
  - lia.
  - vm_compute. reflexivity.
  - intros i Hi. do 3 (destruct i as [|i]; [apply (ff_eqb _ F13_is_field); vm_compute; reflexivity|]). lia.
  - intros s i N1 N2 Hs Hi. do 5 (destruct s as [|s]; [try lia; do 3 (destruct i as [|i]; [reflexivity|]); lia|]). lia.
Qed.

(** GMiMC with d = 5 sees a changed constant on every input (gcd(5, 12) = 1), with d = 3 not (gcd(3, 12) = 3) *)
Example C83_ex_gmimc :
  let rng (k : nat) := e13 (Z.of_nat k) in let rng' (k : nat) := e13 (if k =? 1 then 2 else Z.of_nat k) in
  rng 1 <> rng' 1 /\ (forall s, s <> 1 -> s < 3 -> rng s = rng' s) /\
  (exists P P', gm_new rng 3 5 3 = Ok P /\ gm_new rng' 3 5 3 = Ok P' /\ differ_everywhere 3 (gm_permutation (Fo := F13_ops) true P) (gm_permutation (Fo := F13_ops) true P')) /\
  (exists P P', gm_new rng 3 3 3 = Ok P /\ gm_new rng' 3 3 3 = Ok P' /\ ~ differ_everywhere 3 (gm_permutation (Fo := F13_ops) true P) (gm_permutation (Fo := F13_ops) true P')).
Proof.
  intros rng rng'. assert (N : rng 1 <> rng' 1) by neq13.
  assert (E : forall s, s <> 1 -> s < 3 -> rng s = rng' s) by (intros s H1 H2; unfold rng, rng'; destruct (Nat.eqb_spec s 1); [contradiction|reflexivity]).
  split; [exact N|]. split; [exact E|]. split; do 2 eexists; (split; [reflexivity|]); (split; [reflexivity|]).
  - apply (proj1 (proj1 (C83_gmimc F13 F13_ops 13 F13_field true rng rng' 3 5 3 _ _ 1 eq_refl eq_refl ltac:(lia) N E) ltac:(lia))). reflexivity.
  - intros H. apply (proj1 (proj1 (C83_gmimc F13 F13_ops 13 F13_field true rng rng' 3 3 3 _ _ 1 eq_refl eq_refl ltac:(lia) N E) ltac:(lia))) in H. discriminate.
Qed.

(** Poseidon2: the only word read in the second partial round changed; the other word of that row does not count *)
Definition ex4' := @p2_new F13 true 4 7 2 2 (l13 [1;2;3;6]%Z) [] (map l13 [[1;2;3;4];[4];[8;2];[5;6;7;8]]%Z).
Example C83_ex_poseidon2 : (exists P, ex4' = Ok P) /\
  only_row (Fo := F13_ops) (p2_reads 4 2 2) 2 (map l13 [[1;2;3;4];[4];[7;1];[5;6;7;8]]%Z) (map l13 [[1;2;3;4];[4];[8;2];[5;6;7;8]]%Z) /\
  run13 (ex4 true) [1;2;3;4]%Z = Ok [5;7;11;1]%Z /\ run13 ex4' [1;2;3;4]%Z <> Ok [5;7;11;1]%Z.
Proof.
  split; [eexists; vm_compute; reflexivity|]. split; [split|split].
  - exists 0. split; [unfold p2_reads; change (2 / 2) with 1; lia|]. neq13.
  - intros s i N H. unfold p2_reads in H. change (2 / 2) with 1 in H. do 4 (destruct s as [|s]; [try lia; do 4 (destruct i as [|i]; [try lia; reflexivity|]); lia|]). lia.
  - vm_compute. reflexivity.
  - vm_compute. discriminate.
Qed.

(** Neptune: the constants are the first draws *)
Definition ex_rng' (k : nat) : F13 := if k =? 6 then e13 0 else ex_rng k.
Example C83_ex_neptune : exists P P', ex_np 4 = Ok P /\ np_new true 3 ex_rng' 4 5 2 3 = Ok P' /\
  np_m_e P' = np_m_e P /\ np_mu P' = np_mu P /\ np_abc P' = np_abc P /\ only_row (Fo := F13_ops) (all_reads 4 2 3) 1 (np_rc P) (np_rc P').
Proof.
  unfold ex_np. do 2 eexists. split; [reflexivity|]. split; [reflexivity|]. split; [vm_compute; reflexivity|]. split; [vm_compute; reflexivity|].
  split; [vm_compute; reflexivity|]. split.
  - exists 2. split; [split; lia|]. neq13.
  - intros s i N [Hs Hi]. do 5 (destruct s as [|s]; [try lia; do 4 (destruct i as [|i]; [vm_compute; reflexivity|]); lia|]). lia.
Qed.
