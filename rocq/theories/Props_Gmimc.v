(** * Properties of GMiMC (gmimc.rs, gmimc_params.rs): C20 (profiles), C22-C25 *)
From Verif Require Import Base Field Spec ModelGmimc SpecGmimc F13.
From Verif Require ProofGmimc.

(** Example data over the field with 13 elements.  d = 3 divides 12, so x^3 is not a bijection here. *)
Definition ex_rng (i : nat) : F13 := e13 (let z := Z.of_nat i in z * z + 3 * z + 1)%Z.
Definition gm8 rounds : res (GmimcParams F13) := gm_new ex_rng 8 3 rounds.
Definition gm3 rounds : res (GmimcParams F13) := gm_new ex_rng 3 5 rounds.

(** ** C22 *)
Theorem C22_gmimc_optimised_equals_unoptimised :
  forall F (Fo : FOps F), is_field Fo ->
  forall dbg rng t d rounds (P : GmimcParams F) x,
    gm_new rng t d rounds = Ok P -> gm_permutation dbg P x = gm_permutation_not_opt dbg P x.
Proof. exact @ProofGmimc.gm_opt_eq. Qed.
Print Assumptions C22_gmimc_optimised_equals_unoptimised.

(** t = 8 takes the accumulator path; 5 rounds is fewer than t, 12 more *)
Example C22_ex_few : forall dbg, (P <- gm8 5 ;; out13 (gm_permutation dbg P (l13 [1;2;3;4;5;6;7;8]%Z))) = Ok [5;6;4;8;11;7;8;9]%Z.
Proof. intros [|]; vm_compute; reflexivity. Qed.
Example C22_ex_few' : forall dbg, (P <- gm8 5 ;; out13 (gm_permutation_not_opt dbg P (l13 [1;2;3;4;5;6;7;8]%Z))) = Ok [5;6;4;8;11;7;8;9]%Z.
Proof. intros [|]; vm_compute; reflexivity. Qed.
Example C22_ex_many : (P <- gm8 12 ;; out13 (gm_permutation true P (l13 [1;2;3;4;5;6;7;8]%Z))) = Ok [1;4;3;7;7;2;12;0]%Z.
Proof. vm_compute. reflexivity. Qed.

(** ** C23 *)
Theorem C23_gmimc_reference :
  forall F (Fo : FOps F), is_field Fo ->
  forall dbg rng t d rounds (P : GmimcParams F) x,
    gm_new rng t d rounds = Ok P -> length x = t -> 1 <= t -> 1 <= rounds ->
    gm_permutation dbg P x = Ok (gm_ref t d rounds (map rng (seq 0 rounds)) x) /\
    gm_permutation_not_opt dbg P x = Ok (gm_ref t d rounds (map rng (seq 0 rounds)) x).
Proof. exact @ProofGmimc.gm_reference. Qed.
Print Assumptions C23_gmimc_reference.

Example C23_ex : (P <- gm3 4 ;; out13 (gm_permutation true P (l13 [1;2;3]%Z))) = Ok [0;11;9]%Z /\
  map f_to_Z (gm_ref 3 5 4 (l13 [1;5;11;6]%Z) (l13 [1;2;3]%Z)) = [0;11;9]%Z.
Proof. split; vm_compute; reflexivity. Qed.

(** ** C24 *)
Theorem C24_gmimc_bijection :
  forall F (Fo : FOps F), is_field Fo ->
  forall dbg rng t d rounds (P : GmimcParams F),
    gm_new rng t d rounds = Ok P -> 1 <= t -> 1 <= rounds ->
    bijective_on t (gm_permutation dbg P).
Proof. exact @ProofGmimc.gm_bijective. Qed.
Print Assumptions C24_gmimc_bijection.

(** a bijection although x -> x^3 is not: two inputs with the same cube, distinct outputs *)
Example C24_ex : exists P, gm8 12 = Ok P /\ bijective_on 8 (gm_permutation true P) /\
  fpow (e13 1) 3 = fpow (e13 3) 3 /\ e13 1 <> e13 3.
Proof.
  eexists. split; [reflexivity|]. split; [apply (C24_gmimc_bijection _ _ F13_is_field true ex_rng 8 3 12); [reflexivity|lia|lia]|].
  split; [vm_compute; reflexivity|]. intros H. apply (f_equal (@f_to_Z _ F13_ops)) in H. vm_compute in H. discriminate.
Qed.

(** ** C25 *)
Theorem C25_gmimc_outcome :
  forall F (Fo : FOps F), is_field Fo ->
  forall dbg rng t d rounds (P : GmimcParams F) x,
    gm_new rng t d rounds = Ok P ->
    ((exists y, gm_permutation dbg P x = Ok y /\ length y = t) <-> (length x = t /\ 1 <= t /\ 1 <= rounds)) /\
    (~ (length x = t /\ 1 <= t /\ 1 <= rounds) -> gm_permutation dbg P x = Panic).
Proof. exact @ProofGmimc.gm_outcome. Qed.
Print Assumptions C25_gmimc_outcome.

Theorem C25_gmimc_new_outcome :
  forall F (rng : nat -> F) t d rounds,
    ((exists P, gm_new rng t d rounds = Ok P) <-> d = 3 \/ d = 5 \/ d = 7) /\
    (~ (d = 3 \/ d = 5 \/ d = 7) -> gm_new rng t d rounds = Panic).
Proof. exact @ProofGmimc.gm_new_outcome. Qed.
Print Assumptions C25_gmimc_new_outcome.

(** zero rounds: the subtraction panics in debug builds *)
Example C25_ex_zero_rounds : (P <- gm8 0 ;; gm_permutation true P (l13 [1;2;3;4;5;6;7;8]%Z)) = Panic.
Proof. vm_compute. reflexivity. Qed.
(** ... and wraps around in release builds, where the missing first round constant panics *)
Example C25_ex_zero_rounds_release : (P <- gm8 0 ;; gm_permutation false P (l13 [1;2;3;4;5;6;7;8]%Z)) = Panic.
Proof.
  apply (C25_gmimc_outcome _ _ F13_is_field false ex_rng 8 3 0 _ (l13 [1;2;3;4;5;6;7;8]%Z) eq_refl). lia.
Qed.
Example C25_ex_short : (P <- gm8 5 ;; gm_permutation true P (l13 [1;2;3]%Z)) = Panic.
Proof. vm_compute. reflexivity. Qed.
Example C25_ex_degree : gm_new ex_rng 8 11 5 = Panic.
Proof. reflexivity. Qed.

(** ** C20: build profile *)
Theorem C20_gmimc_profiles :
  forall F (Fo : FOps F), is_field Fo ->
  forall rng t d rounds (P : GmimcParams F) x,
    gm_new rng t d rounds = Ok P -> gm_permutation true P x = gm_permutation false P x.
Proof. exact @ProofGmimc.gm_profiles. Qed.
Print Assumptions C20_gmimc_profiles.
