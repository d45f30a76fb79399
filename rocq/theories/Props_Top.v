(** * The exact degrees of the outputs: C80 *)
From Verif Require Import Base Field Spec SpecPoly SpecTop SpecPoseidon2 SpecNeptune ModelPoseidon2 ModelPoseidon ModelRandom ModelGmimc ModelNeptune
  ModelFields ModelInstances F13 Fp Primes Props_Degree.
From Verif Require ProofTop2 ProofTop3 ProofTop4.
Local Open Scope nat_scope.

(** ** The coefficients of the highest power that C65 allows, on any line *)
Theorem C80_poseidon2_top :
  forall F (Fo : FOps F), is_field Fo ->
  forall dbg t d rf rp (diag : list F) (mi rc : list (list F)) P,
    p2_new dbg t d rf rp diag mi rc = Ok P -> (N.of_nat rf + N.of_nat rp < usize_mod)%N ->
    p2_width t -> sbox_degree d -> p2_data_ok t rf rp diag rc ->
    line_top t (d ^ (rf + rp)) (p2_permutation dbg P) (p2_top t d rf rp diag).
Proof. exact @ProofTop2.p2_line_top. Qed.
Print Assumptions C80_poseidon2_top.

Theorem C80_poseidon_top :
  forall F (Fo : FOps F), is_field Fo ->
  forall dbg t d rf rp (mds rc : list (list F)) P,
    ps_new dbg t d rf rp mds rc = Ok P -> (N.of_nat rf + N.of_nat rp < usize_mod)%N -> dims t t mds ->
    (forall r, r < rf + rp -> t <= length (nth r rc [])) ->
    line_top t (d ^ (rf + rp)) (ps_permutation dbg P) (ps_top t d rf rp (entry mds)) /\
    line_top t (d ^ (rf + rp)) (ps_permutation_not_opt dbg P) (ps_top t d rf rp (entry mds)).
Proof. exact @ProofTop2.ps_line_top. Qed.
Print Assumptions C80_poseidon_top.

(** In GMiMC the highest power is x^(d^rounds) in every word but the first, whatever the constants are. *)
Theorem C80_gmimc_top :
  forall F (Fo : FOps F), is_field Fo ->
  forall dbg rng t d rounds (P : GmimcParams F),
    gm_new rng t d rounds = Ok P -> 2 <= t -> 1 <= rounds ->
    line_top t (d ^ rounds) (gm_permutation dbg P) (gm_top t d rounds) /\ line_top t (d ^ rounds) (gm_permutation_not_opt dbg P) (gm_top t d rounds).
Proof. exact @ProofTop2.gm_line_top. Qed.
Print Assumptions C80_gmimc_top.

Theorem C80_neptune_top :
  forall F (Fo : FOps F) p, is_prime_field Fo p ->
  forall dbg fuel rng t d rf rp (P : NeptuneParams F),
    np_new dbg fuel rng t d rf rp = Ok P -> (N.of_nat rf + N.of_nat rp < usize_mod)%N -> 1 <= t ->
    line_top t (4 ^ rf * d ^ rp) (np_permutation dbg P)
      (np_top t d rf rp (entry (np_m_e P)) (np_int_matrix (fun i => fadd (nth i (np_mu P) f0) f1))).
Proof. exact @ProofTop2.np_line_top. Qed.
Print Assumptions C80_neptune_top.

(** If the number of points exceeds D, the coefficient decides whether the degree is D. *)
Theorem C80_exact :
  forall F (Fo : FOps F) p, is_prime_field Fo p ->
  forall t D perm top, line_top t D perm top -> 1 <= D -> (Z.of_nat D < p)%Z -> line_exact t D perm top.
Proof. exact @ProofTop2.top_line_exact. Qed.
Print Assumptions C80_exact.

(** ** The shipped instances over the fields of about 255 bits: every output word has the full degree in every input word *)
Theorem C80_poseidon2_words :
  forall I, In I p2_instances -> (2 ^ 200 < qi_p I)%Z ->
  forall F (Fo : FOps F), is_prime_field Fo (qi_p I) -> forall dbg,
  exists Q, p2_instance_params dbg I = Ok Q /\ word_degree (qi_t I) (qi_d I ^ (qi_rf I + qi_rp I)) (p2_permutation dbg Q).
Proof. exact @ProofTop3.p2_shipped_words. Qed.
Print Assumptions C80_poseidon2_words.

Theorem C80_poseidon_words :
  forall I, In I ps_instances -> (2 ^ 200 < si_p I)%Z ->
  forall F (Fo : FOps F), is_prime_field Fo (si_p I) -> forall dbg,
  exists Q, ps_instance_params dbg I = Ok Q /\ word_degree (si_t I) (si_d I ^ (si_rf I + si_rp I)) (ps_permutation dbg Q).
Proof. exact @ProofTop3.ps_shipped_words. Qed.
Print Assumptions C80_poseidon_words.

(** Neptune with eight words; the first diagonal entry is drawn at random. Four words: C81. *)
Theorem C80_neptune_words :
  forall I, In I np_instances -> (2 ^ 200 < ni_p I)%Z -> ni_t I = 8 ->
  forall F (Fo : FOps F), is_prime_field Fo (ni_p I) -> forall dbg fuel rng (Q : NeptuneParams F),
  np_new dbg fuel rng (ni_t I) (ni_d I) (ni_rf I) (ni_rp I) = Ok Q -> nth 0 (np_mu Q) f0 <> f0 ->
  word_degree (ni_t I) (4 ^ ni_rf I * ni_d I ^ ni_rp I) (np_permutation dbg Q).
Proof. exact @ProofTop4.np_shipped_words. Qed.
Print Assumptions C80_neptune_words.

(** Two rounds modulo 13, degree 9 below 13. The values of [p2_top] are the last coefficients of the polynomials in C65_ex.
    Two rounds are too few for every output word to have degree 9 in every input word. *)
Example C80_ex_poseidon2 :
  (Z.of_nat (3 ^ (2 + 0)) < 13)%Z /\
  map f_to_Z (p2_top 3 3 2 0 (l13 [1;1;2]%Z) (l13 [1;5;0]%Z)) = [10; 10; 11]%Z /\
  map (fun j => map f_to_Z (p2_top 3 3 2 0 (l13 [1;1;2]%Z) (unit_word 3 j))) [0;1;2] = [[0; 10; 10]; [10; 0; 10]; [10; 10; 0]]%Z /\
  map f_to_Z (p2_top 3 3 2 0 (l13 [1;1;2]%Z) (l13 [1;12;0]%Z)) = [1; 12; 0]%Z.
Proof. split; [reflexivity|]. split; [|split]; vm_compute; reflexivity. Qed.

(** GMiMC, three words and two rounds modulo 13, on the line x -> (1 + 2x, 5, 3x): degree 9 in words 1 and 2, degree 3 in word 0. *)
Definition ex_gm : res (GmimcParams F13) := gm_new (fun k => e13 (Z.of_nat k + 3)) 3 3 2.
Example C80_ex_gmimc :
  (exists P, ex_gm = Ok P) /\ map f_to_Z (gm_top 3 3 2 (l13 [2;0;3]%Z)) = [0; 5; 5]%Z /\
  forallb (fun x => match P <- ex_gm ;; gm_permutation true P (line (l13 [1;5;0]%Z) (l13 [2;0;3]%Z) x) with
    | Ok u => forallb (fun c => feqb (nth (fst c) u f0) (poly_at (l13 (snd c)) x)) [(0, [12;8;9;8]%Z); (1, [2;10;0;9;8;5;3;9;12;5]%Z); (2, [5;0;9;4;8;5;3;9;12;5]%Z)]
    | _ => false end) all13 = true.
Proof. split; [eexists; reflexivity|]. split; vm_compute; reflexivity. Qed.

(** the instances meant above, and a draw over BLS12-381 that meets the hypotheses of C80_neptune_words *)
Example C80_ex_shipped :
  map (fun I => (qi_t I, qi_d I, qi_rf I + qi_rp I)) (filter (fun I => 2 ^ 200 <? qi_p I)%Z p2_instances) =
    [(2,5,64);(3,5,64);(4,5,64);(8,5,65);(3,5,64);(3,5,64);(4,5,64);(8,5,65);(3,5,64)] /\
  length (filter (fun I => 2 ^ 200 <? si_p I)%Z ps_instances) = 9 /\
  length (filter (fun I => (2 ^ 200 <? ni_p I)%Z && (ni_t I =? 8)) np_instances) = 2 /\
  is_prime_field (fp_ops P_bls12 P_bls12_ok) p_bls12 /\
  match np_new (Fo := fp_ops P_bls12 P_bls12_ok) true 1 (fun k => @f_of_Z _ (fp_ops P_bls12 P_bls12_ok) (Z.of_nat k)) 8 5 6 74 with
  | Ok Q => map (@f_to_Z _ (fp_ops P_bls12 P_bls12_ok)) (np_mu Q) | _ => [] end = [639; 640; 641; 642; 643; 644; 645; 646]%Z.
Proof.
  split; [vm_compute; reflexivity|]. split; [vm_compute; reflexivity|]. split; [vm_compute; reflexivity|]. split; [|vm_compute; reflexivity].
  exact (fp_is_prime_field P_bls12 P_bls12_ok prime_bls12 ltac:(reflexivity)).
Qed.
