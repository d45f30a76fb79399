(** * The benchmark programs: C68 *)
From Verif Require Import Base Field Spec Fp ModelFields ModelInstances ModelNeptune ModelBenches SpecBenches Primes.
From Verif Require ProofBenches ProofInstances.
Local Open Scope nat_scope.

(** ** C68: every benchmark runs without panic, for every stream of draws with a nonzero draw in reach, and computes the reference value *)
Theorem C68_benchmarks_run :
  forall f b, In f bench_files -> In b (snd f) ->
  forall F (Fo : FOps F), is_prime_field Fo (fst f) ->
  forall dbg fuel rng, 64 <= fuel -> (forall q, exists k, k < fuel /\ rng (q + k) <> (f0 : F)) ->
  exists out, run_bench dbg fuel rng b = Ok out /\ bench_result dbg fuel rng b out.
Proof. exact ProofBenches.all_benches. Qed.
Print Assumptions C68_benchmarks_run.

(** The instance of each benchmark belongs to the field declared in its file. *)
Theorem C68_moduli : Forall (fun f => Forall (fun b => bench_modulus b = fst f) (snd f)) bench_files.
Proof. exact ProofBenches.all_moduli. Qed.
Print Assumptions C68_moduli.

Example C68_ex :
  map (fun f => length (snd f)) bench_files = [4; 3; 10; 18; 4; 20; 14; 4; 4] /\
  (forall F (Fo : FOps F), is_field Fo -> forall q, exists k, k < 64 /\ (fun n => if Nat.even n then f0 else f1) (q + k) <> (f0 : F)) /\
  (exists F (Fo : FOps F), is_prime_field Fo p_bls12).
Proof.
  split; [reflexivity|]. split.
  - intros F Fo HF q. destruct (Nat.even q) eqn:E.
    + exists 1. split; [lia|]. rewrite Nat.even_add, E. cbn. exact (ff_one_neq_zero _ HF).
    + exists 0. split; [lia|]. rewrite Nat.add_0_r, E. exact (ff_one_neq_zero _ HF).
  - eexists. exists (fp_ops P_bls12 P_bls12_ok). exact (fp_is_prime_field P_bls12 P_bls12_ok prime_bls12 eq_refl).
Qed.
