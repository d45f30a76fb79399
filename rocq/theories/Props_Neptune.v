(** * Properties of Neptune (neptune.rs, neptune_params.rs) and of the sampling functions: C20 (profiles), C27-C30, C32, C45 *)
From Verif Require Import Base Field Spec ModelRandom ModelNeptune SpecNeptune F13.
From Verif Require ProofNeptuneParams ProofNeptune ProofNeptuneBij ProofNeptuneFin.

(** Example data: draws k^2 + 1 over the field with 13 elements (zero at k = 5 and 8 modulo 13) *)
Definition ex_rng (k : nat) : F13 := e13 (let z := Z.of_nat k in z * z + 1)%Z.
Definition ex_np (t : nat) : res (NeptuneParams F13) := np_new true 3 ex_rng t 5 2 3.

(** ** C27 *)
Theorem C27_neptune_sbox_formula :
  forall F (Fo : FOps F), is_field Fo ->
  forall dbg fuel rng t d rf rp (P : NeptuneParams F),
    np_new dbg fuel rng t d rf rp = Ok P -> (N.of_nat rf + N.of_nat rp < usize_mod)%N ->
    (forall x1 x2, np_external_sbox_prime P x1 x2 = let '(al, be, ga) := np_abc P in np_pair al be ga x1 x2) /\
    (forall x, length x = t -> np_external_sbox P x = Ok (np_ref_sbox t (np_abc P) x)).
Proof. exact @ProofNeptuneFin.np_sbox_formula. Qed.
Print Assumptions C27_neptune_sbox_formula.

(** injective exactly when 5 <> 0, and then also surjective *)
Theorem C27_neptune_sbox_bijective :
  forall F (Fo : FOps F), is_field Fo -> forall ga : F,
    (fnat 5 <> (f0 : F) <-> forall x1 x2 x1' x2' : F, np_pair f1 f1 ga x1 x2 = np_pair f1 f1 ga x1' x2' -> (x1, x2) = (x1', x2')) /\
    (fnat 5 <> (f0 : F) -> forall y1 y2 : F, exists x1 x2, np_pair f1 f1 ga x1 x2 = (y1, y2)).
Proof. exact @ProofNeptuneFin.np_sbox_bijective. Qed.
Print Assumptions C27_neptune_sbox_bijective.

Example C27_ex : (P <- ex_np 4 ;; out13 (np_external_sbox P (l13 [1;2;3;4]%Z))) = Ok [11;2;3;9]%Z /\ @fnat _ F13_ops 5 <> f0.
Proof. split; [vm_compute; reflexivity|]. intros H. apply (f_equal (@f_to_Z _ F13_ops)) in H. vm_compute in H. discriminate. Qed.

(** ** C28 *)
Theorem C28_neptune_external_layer :
  forall F (Fo : FOps F) p, is_prime_field Fo p ->
  forall dbg fuel rng t d rf rp (P : NeptuneParams F) x,
    np_new dbg fuel rng t d rf rp = Ok P -> (N.of_nat rf + N.of_nat rp < usize_mod)%N -> length x = t ->
    np_external_matmul P x = Ok (mat_apply t t (entry (np_m_e P)) x).
Proof. exact @ProofNeptuneBij.np_external_matmul_ok. Qed.
Print Assumptions C28_neptune_external_layer.

Theorem C28_neptune_internal_layer :
  forall F (Fo : FOps F) p, is_prime_field Fo p ->
  forall dbg fuel rng t d rf rp (P : NeptuneParams F) x,
    np_new dbg fuel rng t d rf rp = Ok P -> (N.of_nat rf + N.of_nat rp < usize_mod)%N -> length x = t -> 1 <= t ->
    exists mu, (forall i, i < t -> mu i <> f0 /\ (exists k, mu i = rng k) /\ nth i (np_mu P) f0 = fsub (mu i) f1) /\
      np_internal_matmul P x = Ok (mat_apply t t (np_int_matrix mu) x).
Proof. exact @ProofNeptuneBij.np_internal_matmul_ok. Qed.
Print Assumptions C28_neptune_internal_layer.

Example C28_ex_4 : (P <- ex_np 4 ;; out13 (np_external_matmul P (l13 [1;2;3;4]%Z))) = Ok [5;10;7;8]%Z /\
  (P <- ex_np 4 ;; out13 (np_internal_matmul P (l13 [1;2;3;4]%Z))) = Ok [7;3;11;0]%Z.
Proof. split; vm_compute; reflexivity. Qed.
Example C28_ex_6 : (P <- ex_np 6 ;; out13 (np_external_matmul P (l13 [1;2;3;4;5;6]%Z))) = Ok [7;1;5;10;9;1]%Z /\
  (P <- ex_np 6 ;; out13 (np_internal_matmul P (l13 [1;2;3;4;5;6]%Z))) = Ok [11;0;7;12;8;1]%Z.
Proof. split; vm_compute; reflexivity. Qed.
Example C28_ex_8 : (P <- ex_np 8 ;; out13 (np_external_matmul P (l13 [1;2;3;4;5;6;7;8]%Z))) = Ok [8;3;1;6;7;4;5;10]%Z /\
  (P <- ex_np 8 ;; out13 (np_internal_matmul P (l13 [1;2;3;4;5;6;7;8]%Z))) = Ok [11;5;11;9;8;5;5;4]%Z.
Proof. split; vm_compute; reflexivity. Qed.

(** ** C29 *)
Theorem C29_neptune_reference :
  forall F (Fo : FOps F) p, is_prime_field Fo p ->
  forall dbg fuel rng t d rf rp (P : NeptuneParams F) x,
    np_new dbg fuel rng t d rf rp = Ok P -> (N.of_nat rf + N.of_nat rp < usize_mod)%N ->
    (length x = t -> 1 <= t \/ rp = 0 ->
       np_permutation dbg P x = Ok (np_ref t d rf rp (np_abc P) (entry (np_m_e P))
         (np_int_matrix (fun i => fadd (nth i (np_mu P) f0) f1)) (np_rc P) x)) /\
    (length x <> t \/ (t = 0 /\ 1 <= rp) -> np_permutation dbg P x = Panic).
Proof. exact @ProofNeptuneBij.np_permutation_reference. Qed.
Print Assumptions C29_neptune_reference.

Example C29_ex_2 : (P <- ex_np 2 ;; out13 (np_permutation true P (l13 [1;2]%Z))) = Ok [7;7]%Z.
Proof. vm_compute. reflexivity. Qed.
Example C29_ex_4 : (P <- ex_np 4 ;; out13 (np_permutation true P (l13 [1;2;3;4]%Z))) = Ok [2;7;1;9]%Z.
Proof. vm_compute. reflexivity. Qed.
Example C29_ex_6 : (P <- ex_np 6 ;; out13 (np_permutation true P (l13 [1;2;3;4;5;6]%Z))) = Ok [12;4;7;8;9;5]%Z.
Proof. vm_compute. reflexivity. Qed.
Example C29_ex_8 : (P <- ex_np 8 ;; out13 (np_permutation true P (l13 [1;2;3;4;5;6;7;8]%Z))) = Ok [4;9;7;1;3;10;8;2]%Z.
Proof. vm_compute. reflexivity. Qed.
Example C29_ex_zero : (P <- ex_np 0 ;; np_permutation true P []) = Panic /\ (P <- ex_np 4 ;; np_permutation true P (l13 [1;2;3]%Z)) = Panic /\
  exists P, ex_np 0 = Ok P.
Proof. split; [vm_compute; reflexivity|]. split; [vm_compute; reflexivity|]. eexists. vm_compute. reflexivity. Qed.

Theorem C20_neptune_profiles :
  forall F (Fo : FOps F) p, is_prime_field Fo p ->
  forall fuel rng t d rf rp, (N.of_nat rf + N.of_nat rp < usize_mod)%N ->
    np_new true fuel rng t d rf rp = np_new false fuel rng t d rf rp /\
    forall (P : NeptuneParams F) x, np_new true fuel rng t d rf rp = Ok P -> np_permutation true P x = np_permutation false P x.
Proof. exact @ProofNeptuneBij.np_profiles. Qed.
Print Assumptions C20_neptune_profiles.

(** ** C30 *)
Theorem C30_neptune_bijective_iff :
  forall F (Fo : FOps F) p, is_prime_field Fo p ->
  forall dbg fuel rng t d rf rp (P : NeptuneParams F),
    np_new dbg fuel rng t d rf rp = Ok P -> (N.of_nat rf + N.of_nat rp < usize_mod)%N -> 2 <= t ->
    (bijective_on t (np_permutation dbg P) <->
     invertible t (entry (np_m_e P)) /\ (rf = 0 \/ p <> 5%Z) /\
     (rp = 0 \/ (invertible t (np_int_matrix (fun i => fadd (nth i (np_mu P) f0) f1)) /\ Z.gcd (Z.of_nat d) (p - 1) = 1%Z))).
Proof. exact @ProofNeptuneBij.np_bijective_iff. Qed.
Print Assumptions C30_neptune_bijective_iff.

Theorem C30_neptune_fixed_matrices :
  forall F (Fo : FOps F) p, is_prime_field Fo p ->
  forall dbg fuel rng t d rf rp (P : NeptuneParams F),
    np_new dbg fuel rng t d rf rp = Ok P -> (N.of_nat rf + N.of_nat rp < usize_mod)%N ->
    (t = 4 -> (invertible t (entry (np_m_e P)) <-> p <> 3%Z)) /\
    (t = 8 -> (invertible t (entry (np_m_e P)) <-> p <> 5%Z /\ p <> 7%Z)).
Proof. exact @ProofNeptuneBij.np_fixed_matrices. Qed.
Print Assumptions C30_neptune_fixed_matrices.

(** "every constructed instance is a bijection" is false: all draws equal to one, for every width and
    round number; no restriction on the field *)
Theorem C30_neptune_always_bijective_refuted :
  forall F (Fo : FOps F) p, is_prime_field Fo p ->
  forall dbg fuel t d rf rp, In d [3; 5; 7] /\ rf mod 2 = 0 /\ t mod 2 = 0 -> 2 <= t -> 1 <= rp ->
    (N.of_nat rf + N.of_nat rp < usize_mod)%N -> 1 <= fuel ->
    exists P : NeptuneParams F, np_new dbg fuel (fun _ => f1) t d rf rp = Ok P /\ ~ bijective_on t (np_permutation dbg P).
Proof. exact @ProofNeptuneBij.np_singular_mu. Qed.
Print Assumptions C30_neptune_always_bijective_refuted.

Example C30_ex_collision : exists P, np_new true 1 (fun _ => f1 : F13) 4 5 2 2 = Ok P /\ ~ bijective_on 4 (np_permutation true P).
Proof.
  apply (C30_neptune_always_bijective_refuted F13 F13_ops 13 F13_field); try lia.
  - repeat split. right. left. reflexivity.
  - vm_compute. reflexivity.
Qed.
Example C30_ex_bijective : exists P, ex_np 4 = Ok P /\ bijective_on 4 (np_permutation true P).
Proof.
  destruct (ex_np 4) as [P| |] eqn:E; [|vm_compute in E; discriminate|vm_compute in E; discriminate].
  exists P. split; [reflexivity|].
  apply (C30_neptune_bijective_iff F13 F13_ops 13 F13_field true 3 ex_rng 4 5 2 3 P E ltac:(vm_compute; reflexivity) ltac:(lia)).
  split; [|split; [right; discriminate|right; split; [|reflexivity]]].
  - destruct (C30_neptune_fixed_matrices F13 F13_ops 13 F13_field true 3 ex_rng 4 5 2 3 P E ltac:(vm_compute; reflexivity)) as [H4 _].
    apply (H4 eq_refl). discriminate.
  - vm_compute in E. injection E as <-.
    exists (entry (map l13 [[1;3;1;12]%Z; [3;6;12;1]%Z; [1;12;7;9]%Z; [12;1;9;1]%Z])).
    split; intros i j Hi Hj; repeat (destruct i as [|i]; [|try lia]); repeat (destruct j as [|j]; [|try lia]); vm_compute; reflexivity.
Qed.

(** ** C32 *)
Theorem C32_neptune_params_contents :
  forall F (Fo : FOps F), is_field Fo ->
  forall dbg fuel rng t d rf rp (P : NeptuneParams F),
    np_new dbg fuel rng t d rf rp = Ok P -> (N.of_nat rf + N.of_nat rp < usize_mod)%N ->
    (In d [3; 5; 7] /\ rf mod 2 = 0 /\ t mod 2 = 0) /\
    np_t P = t /\ np_d P = d /\ np_rounds_f_beginning P = rf / 2 /\ np_rounds_p P = rp /\ np_rounds_f_end P = rf / 2 /\ np_rounds P = rf + rp /\
    (dims (rf + rp) t (np_rc P) /\ forall i j, i < rf + rp -> j < t -> entry (np_rc P) i j = rng (i * t + j)) /\
    (dims t t (np_m_e P) /\ forall i j, i < t -> j < t -> entry (np_m_e P) i j = np_ext_entry t (rf + rp) rng i j) /\
    (length (np_mu P) = t /\ forall i, i < t -> fadd (nth i (np_mu P) f0) f1 <> f0) /\
    (exists ga, np_abc P = (f1, f1, ga)) /\
    np_a_ P = (f1, fadd (fadd f1 f1) f1, fadd (fadd f1 f1) (fadd f1 f1)).
Proof. exact @ProofNeptuneFin.np_new_contents. Qed.
Print Assumptions C32_neptune_params_contents.

(** mu consists of the non-zero draws following those of constants and matrices, in order and each used
    once; gamma is the draw after them *)
Theorem C32_neptune_params_draws :
  forall F (Fo : FOps F), is_field Fo ->
  forall dbg fuel rng t d rf rp (P : NeptuneParams F),
    np_new dbg fuel rng t d rf rp = Ok P -> (N.of_nat rf + N.of_nat rp < usize_mod)%N ->
    exists q, (rf + rp) * t + np_mat_draws t <= q /\ length (np_mu P) = t /\
      np_mu P = map (fun k => fsub (rng k) f1)
        (filter (fun k => negb (feqb (rng k) f0)) (seq ((rf + rp) * t + np_mat_draws t) (q - ((rf + rp) * t + np_mat_draws t)))) /\
      np_abc P = (f1, f1, rng q).
Proof. exact @ProofNeptuneParams.np_new_draws. Qed.
Print Assumptions C32_neptune_params_draws.

(** the other outcomes *)
Theorem C32_neptune_params_outcome :
  forall F (Fo : FOps F), is_field Fo ->
  forall dbg fuel rng t d rf rp, (N.of_nat rf + N.of_nat rp < usize_mod)%N ->
    (~ (In d [3; 5; 7] /\ rf mod 2 = 0 /\ t mod 2 = 0) <-> np_new dbg fuel rng t d rf rp = Panic) /\
    ((forall q, exists k, k < fuel /\ rng (q + k) <> (f0 : F)) -> In d [3; 5; 7] /\ rf mod 2 = 0 /\ t mod 2 = 0 -> exists P, np_new dbg fuel rng t d rf rp = Ok P).
Proof. exact @ProofNeptuneFin.np_new_outcome. Qed.
Print Assumptions C32_neptune_params_outcome.

Example C32_ex : (P <- ex_np 6 ;; Ok (map (map f_to_Z) (np_m_e P), map f_to_Z (map (fun m => fadd m f1) (np_mu P)), f_to_Z (snd (np_abc P)))) =
  Ok ([[4;0;0;0;11;0]%Z; [0;1;0;2;0;5]%Z; [11;0;0;0;4;0]%Z; [0;10;0;4;0;0]%Z; [10;0;5;0;2;0]%Z; [0;11;0;11;0;0]%Z], [4;10;5;2;1;2]%Z, 5%Z).
Proof. vm_compute. reflexivity. Qed.
Example C32_ex_bad : np_new true 3 ex_rng 4 11 2 3 = Panic /\ np_new true 3 ex_rng 5 5 2 3 = Panic /\ np_new true 3 ex_rng 4 5 3 3 = Panic.
Proof. repeat split; vm_compute; reflexivity. Qed.

(** ** C45 *)
Theorem C45_without_0_returns_first_nonzero :
  forall F (Fo : FOps F), is_field Fo ->
  forall fuel rng pos (a : F) pos',
    random_scalar_without_0 fuel rng pos = Ok (a, pos') <->
    exists k, k < fuel /\ (forall i, i < k -> rng (pos + i) = f0) /\ rng (pos + k) <> f0 /\ a = rng (pos + k) /\ pos' = pos + k + 1.
Proof. exact @ProofNeptuneParams.without_0_ok. Qed.
Print Assumptions C45_without_0_returns_first_nonzero.

(** not returned within [fuel] draws exactly when all of them are zero; never a panic *)
Theorem C45_without_0_diverges_iff :
  forall F (Fo : FOps F), is_field Fo ->
  forall fuel rng pos, random_scalar_without_0 fuel rng pos = Fuel <-> forall i, i < fuel -> rng (pos + i) = (f0 : F).
Proof. exact @ProofNeptuneParams.without_0_fuel. Qed.
Print Assumptions C45_without_0_diverges_iff.

Theorem C45_without_0_never_panics :
  forall F (Fo : FOps F) fuel (rng : nat -> F) pos, random_scalar_without_0 fuel rng pos <> Panic.
Proof. exact @ProofNeptuneParams.without_0_not_panic. Qed.
Print Assumptions C45_without_0_never_panics.

Example C45_ex : random_scalar_without_0 3 ex_rng 5 = Ok (e13 11, 7) /\ random_scalar_without_0 1 ex_rng 5 = Fuel.
Proof. split; vm_compute; reflexivity. Qed.
