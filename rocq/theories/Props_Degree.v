(** * Degrees, zero sums and agreement on lines: C65, C66, C67 *)
From Verif Require Import Base Field Spec SpecPoly SpecPoseidon2 ModelPoseidon2 ModelPoseidon ModelRandom ModelGmimc ModelNeptune
  ModelFields ModelInstances F13 Props_Poseidon Props_Matrix Props_Gmimc.
From Verif Require PolyFun ProofZeroSum ProofZeroSumEx.
Local Open Scope nat_scope.

(** ** C65: along every line the outputs are polynomials of degree at most d^(number of rounds) *)
Theorem C65_poseidon2_degree :
  forall F (Fo : FOps F), is_field Fo ->
  forall dbg t d rf rp (diag : list F) (mi rc : list (list F)) P,
    p2_new dbg t d rf rp diag mi rc = Ok P -> (N.of_nat rf + N.of_nat rp < usize_mod)%N ->
    p2_width t -> sbox_degree d -> p2_data_ok t rf rp diag rc ->
    line_degree t (d ^ (rf + rp)) (p2_permutation dbg P).
Proof. exact @ProofZeroSum.p2_line_degree. Qed.
Print Assumptions C65_poseidon2_degree.

Theorem C65_poseidon_degree :
  forall F (Fo : FOps F), is_field Fo ->
  forall dbg t d rf rp (mds rc : list (list F)) P,
    ps_new dbg t d rf rp mds rc = Ok P -> (N.of_nat rf + N.of_nat rp < usize_mod)%N -> dims t t mds ->
    ps_enough_constants t (rf + rp) rc ->
    line_degree t (d ^ (rf + rp)) (ps_permutation dbg P) /\ line_degree t (d ^ (rf + rp)) (ps_permutation_not_opt dbg P).
Proof. exact @ProofZeroSum.ps_line_degree. Qed.
Print Assumptions C65_poseidon_degree.

Theorem C65_gmimc_degree :
  forall F (Fo : FOps F), is_field Fo ->
  forall dbg rng t d rounds (P : GmimcParams F),
    gm_new rng t d rounds = Ok P -> 1 <= t -> 1 <= rounds ->
    line_degree t (d ^ rounds) (gm_permutation dbg P) /\ line_degree t (d ^ rounds) (gm_permutation_not_opt dbg P).
Proof. exact @ProofZeroSum.gm_line_degree. Qed.
Print Assumptions C65_gmimc_degree.

(** Neptune's external S-box on pairs has degree 4. *)
Theorem C65_neptune_degree :
  forall F (Fo : FOps F) p, is_prime_field Fo p ->
  forall dbg fuel rng t d rf rp (P : NeptuneParams F),
    np_new dbg fuel rng t d rf rp = Ok P -> (N.of_nat rf + N.of_nat rp < usize_mod)%N -> 1 <= t ->
    line_degree t (4 ^ rf * d ^ rp) (np_permutation dbg P).
Proof. exact @ProofZeroSum.np_line_degree. Qed.
Print Assumptions C65_neptune_degree.

(** Two full rounds with x^3 modulo 13: the bound 3^2 = 9 holds and is attained. *)
Definition ex_low := ProofZeroSumEx.ex_low.
Definition ex_line (x : F13) : list F13 := line (l13 [1;2;3]%Z) (l13 [1;5;0]%Z) x.
Definition all13 : list F13 := l13 [0;1;2;3;4;5;6;7;8;9;10;11;12]%Z.

Theorem C65_bound_attained : forall P, ex_low 3 = Ok P -> ~ line_degree 3 8 (p2_permutation true P).
Proof. exact ProofZeroSumEx.bound_attained. Qed.
Print Assumptions C65_bound_attained.

(** the coefficients of the three output polynomials on one line, computed by an independent script *)
Example C65_ex :
  ex_low 3 = p2_new true 3 3 2 0 (l13 [1;1;2]%Z) [] (map l13 [[1;2;3];[4;0;8]]%Z) /\ (exists P, ex_low 3 = Ok P) /\
  p2_width 3 /\ sbox_degree 3 /\ p2_data_ok 3 2 0 (l13 [1;1;2]%Z) (map l13 [[1;2;3];[4;0;8]]%Z) /\
  forallb (fun x => match P <- ex_low 3 ;; p2_permutation true P (ex_line x) with
    | Ok u => forallb (fun c => feqb (nth (fst c) u f0) (poly_at (l13 (snd c)) x))
                [(0, [5;7;2;10;11;0;10;8;4;10]%Z); (1, [1;1;8;8;2;4;7;7;1;10]%Z); (2, [5;7;9;6;1;10;7;5;6;11]%Z)]
    | _ => false end) all13 = true.
Proof.
  split; [reflexivity|]. split; [eexists; reflexivity|]. split; [cbn [p2_width In]; unfold p2_width; cbn [In]; lia|].
  split; [unfold sbox_degree; cbn [In]; lia|]. split; [|vm_compute; reflexivity].
  split; [|split]; cbn; intros; repeat (destruct r as [|r]; cbn; try lia); lia.
Qed.

(** ** C66: if that degree is below p - 1, each output coordinate sums to zero over every line *)
Theorem C66_zero_sum :
  forall F (Fo : FOps F) p, is_prime_field Fo p ->
  forall t D perm, line_degree t D perm -> (Z.of_nat D < p - 1)%Z -> line_zero_sum t perm.
Proof. exact ProofZeroSum.zero_sum_perm. Qed.
Print Assumptions C66_zero_sum.

(** This covers all rounds of the shipped instances over the fields of about 255 bits. *)
Theorem C66_poseidon2_shipped :
  forall I, In I p2_instances -> (2 ^ 200 < qi_p I)%Z ->
  forall F (Fo : FOps F), is_prime_field Fo (qi_p I) -> forall dbg,
  exists Q, p2_instance_params dbg I = Ok Q /\ line_zero_sum (qi_t I) (p2_permutation dbg Q).
Proof. exact ProofZeroSum.p2_shipped_zero_sum. Qed.
Print Assumptions C66_poseidon2_shipped.

Theorem C66_poseidon_shipped :
  forall I, In I ps_instances -> (2 ^ 200 < si_p I)%Z ->
  forall F (Fo : FOps F), is_prime_field Fo (si_p I) -> forall dbg,
  exists Q, ps_instance_params dbg I = Ok Q /\ line_zero_sum (si_t I) (ps_permutation dbg Q).
Proof. exact ProofZeroSum.ps_shipped_zero_sum. Qed.
Print Assumptions C66_poseidon_shipped.

(** Neptune, for every seed of the round constants and matrices *)
Theorem C66_neptune_shipped :
  forall I, In I np_instances -> (2 ^ 200 < ni_p I)%Z ->
  forall F (Fo : FOps F), is_prime_field Fo (ni_p I) -> forall dbg fuel rng (P : NeptuneParams F),
  np_new dbg fuel rng (ni_t I) (ni_d I) (ni_rf I) (ni_rp I) = Ok P -> line_zero_sum (ni_t I) (np_permutation dbg P).
Proof. exact ProofZeroSum.np_shipped_zero_sum. Qed.
Print Assumptions C66_neptune_shipped.

(** Without the bound on the degree the sums need not vanish. *)
Theorem C66_unbounded_refuted : forall P, ex_low 5 = Ok P -> ~ line_zero_sum 3 (p2_permutation true P).
Proof. exact ProofZeroSumEx.zero_sum_fails. Qed.
Print Assumptions C66_unbounded_refuted.

Example C66_ex :
  (exists P, ex_low 5 = Ok P) /\ enumerates all13 /\
  (forall F (Fo : FOps F) p, is_prime_field Fo p -> exists L : list F, enumerates L /\ Z.of_nat (length L) = p) /\
  length (filter (fun I => 2 ^ 200 <? qi_p I)%Z p2_instances) = 9 /\
  length (filter (fun I => 2 ^ 200 <? si_p I)%Z ps_instances) = 9 /\
  length (filter (fun I => 2 ^ 200 <? ni_p I)%Z np_instances) = 6 /\
  (** the sums of the three coordinates for x^3 and for x^5 *)
  map (fun d => map (fun k => f_to_Z (sum_over all13 (fun x => match P <- ex_low d ;; p2_permutation true P (ex_line x) with Ok u => nth k u f0 | _ => f1 end))) [0;1;2]) [3;5]
    = [[0;0;0];[9;3;6]]%Z.
Proof.
  split; [eexists; reflexivity|]. split; [exact ProofZeroSumEx.all13_enumerates|]. split.
  - intros F Fo p HP. exists (@ProofZeroSum.all_elements F Fo p). split; [exact (ProofZeroSum.all_enumerate HP)|].
    exact (ProofZeroSum.enumerates_length HP _ (ProofZeroSum.all_enumerate HP)).
  - repeat split; vm_compute; reflexivity.
Qed.

(** ** C67: outputs on two lines that agree in more points than the degree bound agree everywhere *)
Theorem C67_agreement :
  forall F (Fo : FOps F), is_field Fo ->
  forall t D perm perm', line_degree t D perm -> line_degree t D perm' -> line_agreement t D perm perm'.
Proof. exact @ProofZeroSum.degree_agreement. Qed.
Print Assumptions C67_agreement.

(** two Poseidon2 permutations of the same shape, with any constants and diagonals *)
Theorem C67_poseidon2 :
  forall F (Fo : FOps F), is_field Fo ->
  forall dbg dbg' t d rf rp (diag diag' : list F) (mi rc mi' rc' : list (list F)) P P',
    p2_new dbg t d rf rp diag mi rc = Ok P -> p2_new dbg' t d rf rp diag' mi' rc' = Ok P' ->
    (N.of_nat rf + N.of_nat rp < usize_mod)%N -> p2_width t -> sbox_degree d ->
    p2_data_ok t rf rp diag rc -> p2_data_ok t rf rp diag' rc' ->
    line_agreement t (d ^ (rf + rp)) (p2_permutation dbg P) (p2_permutation dbg' P').
Proof. exact @ProofZeroSum.p2_agreement. Qed.
Print Assumptions C67_poseidon2.

(** a given output value is reached at no more points of a line than the degree bound, or at all of them *)
Theorem C67_solutions :
  forall F (Fo : FOps F), is_field Fo -> forall t D perm, line_degree t D perm -> line_solutions t D perm.
Proof. exact @ProofZeroSum.degree_solutions. Qed.
Print Assumptions C67_solutions.

(** on the line of C65_ex the value 2 of the third output is reached at five points; ten points would force all 13 *)
Example C67_ex :
  length (filter (fun x => match P <- ex_low 3 ;; p2_permutation true P (ex_line x) with Ok u => feqb (nth 2 u f0) (e13 2) | _ => false end) all13) = 5.
Proof. vm_compute. reflexivity. Qed.
