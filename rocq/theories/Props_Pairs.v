(** * Active pairs of Neptune's external rounds: C76 *)
From Verif Require Import Base Field Spec SpecMDS SpecBranch SpecPairs SpecNeptune ModelRandom ModelNeptune ModelFields F13.
From Verif Require ProofPairs2.
Local Open Scope nat_scope.

(** the fixed blocks are MDS in all but finitely many characteristics *)
Theorem C76_fixed_blocks_mds :
  forall F (Fo : FOps F) p, is_prime_field Fo p ->
  forall dbg fuel rng t d rf rp (P : NeptuneParams F),
    np_new dbg fuel rng t d rf rp = Ok P -> (N.of_nat rf + N.of_nat rp < usize_mod)%N -> t = 4 \/ t = 8 ->
    (is_mds (t / 2) (even_part (entry (np_m_e P))) <-> ~ In p (np_mds_bad_primes t)) /\
    (is_mds (t / 2) (odd_part (entry (np_m_e P))) <-> ~ In p (np_mds_bad_primes t)).
Proof. exact @ProofPairs2.np_fixed_mds. Qed.
Print Assumptions C76_fixed_blocks_mds.

(** any width: the bound t/2 + 1 holds and is attained exactly when both blocks are MDS *)
Theorem C76_round_pairs :
  forall F (Fo : FOps F) p, is_prime_field Fo p ->
  forall dbg fuel rng t d rf rp (P : NeptuneParams F),
    np_new dbg fuel rng t d rf rp = Ok P -> (N.of_nat rf + N.of_nat rp < usize_mod)%N ->
  forall r, 2 <= t -> p <> 5%Z -> r < rf + rp ->
    (active_pairs t (np_external_round P r) (t / 2 + 1) <->
     is_mds (t / 2) (even_part (entry (np_m_e P))) /\ is_mds (t / 2) (odd_part (entry (np_m_e P)))).
Proof. exact @ProofPairs2.np_round_pairs. Qed.
Print Assumptions C76_round_pairs.

Theorem C76_round_diffusion :
  forall F (Fo : FOps F) p, is_prime_field Fo p ->
  forall dbg fuel rng t d rf rp (P : NeptuneParams F),
    np_new dbg fuel rng t d rf rp = Ok P -> (N.of_nat rf + N.of_nat rp < usize_mod)%N ->
  forall r, p <> 5%Z -> r < rf + rp ->
    is_mds (t / 2) (even_part (entry (np_m_e P))) -> is_mds (t / 2) (odd_part (entry (np_m_e P))) ->
    full_pair_diffusion t (np_external_round P r).
Proof. exact @ProofPairs2.np_round_spread. Qed.
Print Assumptions C76_round_diffusion.

Theorem C76_trail :
  forall F (Fo : FOps F) p, is_prime_field Fo p ->
  forall dbg fuel rng t d rf rp (P : NeptuneParams F),
    np_new dbg fuel rng t d rf rp = Ok P -> (N.of_nat rf + N.of_nat rp < usize_mod)%N ->
  forall lo m, 2 <= t -> p <> 5%Z -> lo + 2 * m <= rf + rp ->
    is_mds (t / 2) (even_part (entry (np_m_e P))) -> is_mds (t / 2) (odd_part (entry (np_m_e P))) ->
    trail_pairs t (t / 2 + 1) (np_external_round P) lo m.
Proof. exact @ProofPairs2.np_trail. Qed.
Print Assumptions C76_trail.

Theorem C76_shipped :
  forall I F (Fo : FOps F), In I np_instances -> ni_t I = 4 \/ ni_t I = 8 -> is_prime_field Fo (ni_p I) ->
  forall dbg fuel rng (P : NeptuneParams F), np_new dbg fuel rng (ni_t I) (ni_d I) (ni_rf I) (ni_rp I) = Ok P ->
  (forall r, r < ni_rf I + ni_rp I ->
     active_pairs (ni_t I) (np_external_round P r) (ni_t I / 2 + 1) /\ full_pair_diffusion (ni_t I) (np_external_round P r)) /\
  (forall lo m, lo + 2 * m <= ni_rf I + ni_rp I -> trail_pairs (ni_t I) (ni_t I / 2 + 1) (np_external_round P) lo m).
Proof. exact ProofPairs2.np_shipped_pairs. Qed.
Print Assumptions C76_shipped.

(** counted in words the linear layer reaches t/2 + 1 only, and it is MDS for no width *)
Theorem C76_word_branch :
  forall F (Fo : FOps F) p, is_prime_field Fo p ->
  forall dbg fuel rng t d rf rp (P : NeptuneParams F),
    np_new dbg fuel rng t d rf rp = Ok P -> (N.of_nat rf + N.of_nat rp < usize_mod)%N -> 2 <= t ->
    is_mds (t / 2) (even_part (entry (np_m_e P))) -> is_mds (t / 2) (odd_part (entry (np_m_e P))) ->
    branch_number t (entry (np_m_e P)) (t / 2 + 1).
Proof. exact @ProofPairs2.np_word_branch. Qed.
Print Assumptions C76_word_branch.

Theorem C76_external_mds_refuted :
  forall F (Fo : FOps F) p, is_prime_field Fo p ->
  forall dbg fuel rng t d rf rp (P : NeptuneParams F),
    np_new dbg fuel rng t d rf rp = Ok P -> (N.of_nat rf + N.of_nat rp < usize_mod)%N -> 2 <= t ->
    ~ is_mds t (entry (np_m_e P)).
Proof. exact @ProofPairs2.np_word_not_mds. Qed.
Print Assumptions C76_external_mds_refuted.

(** widths other than 4 and 8: the constructor accepts blocks that are not MDS *)
Theorem C76_random_blocks_refuted :
  forall F (Fo : FOps F) p, is_prime_field Fo p ->
  forall dbg fuel t d rf rp, p <> 5%Z -> In d [3; 5; 7] /\ rf mod 2 = 0 /\ t mod 2 = 0 -> 6 <= t -> t <> 8 ->
    (N.of_nat rf + N.of_nat rp < usize_mod)%N -> 1 <= fuel ->
    exists P : NeptuneParams F, np_new dbg fuel (fun _ => f1) t d rf rp = Ok P /\
      forall r, r < rf + rp -> ~ active_pairs t (np_external_round P r) (t / 2 + 1).
Proof. exact @ProofPairs2.np_random_blocks_fail. Qed.
Print Assumptions C76_random_blocks_refuted.

(** Over the field with 13 elements, draws k^2 + 1: width 4, one changed pair (the second word only) changes both pairs;
    width 8, two states that differ in two pairs and whose images differ in four.  In F13 both lists of exceptions are avoided. *)
Definition ex_np (t : nat) : res (NeptuneParams F13) := np_new true 3 (fun k => e13 (let z := Z.of_nat k in z * z + 1)%Z) t 5 2 2.
Example C76_ex :
  (exists P, ex_np 4 = Ok P) /\ (exists P, ex_np 8 = Ok P) /\ is_prime_field F13_ops 13 /\
  ~ In 13%Z (np_mds_bad_primes 4) /\ ~ In 13%Z (np_mds_bad_primes 8) /\ (N.of_nat 2 + N.of_nat 2 < usize_mod)%N /\
  differ_pairs (l13 [1;2;3;4]%Z) (l13 [1;5;3;4]%Z) = 1 /\
  (P <- ex_np 4 ;; u <- np_external_round P 0 (l13 [1;2;3;4]%Z) ;; v <- np_external_round P 0 (l13 [1;5;3;4]%Z) ;; Ok (differ_pairs u v)) = Ok 2 /\
  differ_pairs (l13 [1;2;3;4;5;6;7;8]%Z) (l13 [0;2;3;0;5;6;7;8]%Z) = 2 /\
  (P <- ex_np 8 ;; u <- np_external_round P 1 (l13 [1;2;3;4;5;6;7;8]%Z) ;; v <- np_external_round P 1 (l13 [0;2;3;0;5;6;7;8]%Z) ;;
   Ok (differ_pairs u v)) = Ok 4 /\
  In (np_inst p_bls12 8 5 6 74) np_instances.
Proof.
  split; [eexists; vm_compute; reflexivity|]. split; [eexists; vm_compute; reflexivity|]. split; [exact F13_field|].
  split; [cbn [np_mds_bad_primes In]; lia|]. split; [cbn [np_mds_bad_primes In]; lia|].
  repeat (split; [vm_compute; reflexivity|]). right. right. left. reflexivity.
Qed.
