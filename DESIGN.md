# Formal model of txaty/poseidon2 in Rocq (Coq 8.16.1)

## 1. Method

* The Rust functions are transcribed into executable Gallina, one definition per Rust function, loops kept
  as loops (`for_range`, `for_list`), every slice index checked (`idx`, `upd` return `Panic` out of range),
  every `assert!`/`unwrap`/`panic!` an explicit `Panic`.  A diverging loop is `Fuel`.
* A boolean argument `dbg` selects the build profile where it matters: `debug_assert!`, `#[cfg(debug_assertions)]`
  code and overflow checks (`true`), or their absence with wrap-around mod 2^64 (`false`).
* Field arithmetic (`ark_ff`) is an operations record `FOps F`; theorems assume `is_prime_field p` (the ring
  operations of Z/p with p prime, exact inverse), and a computable instance `Zp p` is provided.  For the six shipped moduli
  primality is proved (Pocklington certificates).
* Specifications (`Spec*.v`) are written separately with sums over indices and explicit matrix entries, never
  with the model's loops.
* `Props_*.v` contain only the property theorems, closed by `exact`, with `Print Assumptions` below each.

## 2. Plan per property

| id | model | proof idea |
|----|-------|-----------|
| C01 | poseidon2.rs permutation, matmul_*, sbox_p, add_rc | refinement of each loop to index-wise sums; induction on rounds |
| C02 | same + constructor | case analysis; lengths invariant; truncation by `zip` always caught by the next linear layer |
| C03 | same | each layer has a two-sided inverse; x^d via Fermat and Bezout |
| C04 | generated constants | C03 + computed invertibility of the internal matrix + primality |
| C05 | matmul_external | ring identities; explicit inverse matrices |
| C06 | spec matrices | branch-number statement from nonzero minors, generic in p |
| C07 | matmul_internal | ring identities; refutation of "supplied diagonal is used" |
| C08 | constructor + sbox_p | refuted for d = 11, proved for 3,5,7 |
| C09 | constructor + permutation | corollaries of C02; the repo test scenario computed with the real constants |
| C10 | permutation | induction on rounds |
| C11 | equivalent_round_constants | induction on rounds; uses C18 |
| C12 | generated constants | finite computation over all entries |
| C13 | permutation_not_opt | as C01 |
| C14 | permutation, params | matrix factorisation M = C_r D_r, induction on rounds; constants moved as in C11 |
| C15 | both | each layer invertible, mat_inverse success gives invertibility of mds |
| C16 | PoseidonParams::new | uses C19; wrap-around branches explicit |
| C17 | generated constants | construction computed by vm_compute; then C14, C15 |
| C18, C19 | mat_inverse | loop invariant inv*A = m with triangular shapes; kernel characterisation of leading blocks |
| C20 | dbg argument | both values give the same result |
| C21 | helpers | loop refinement |
| C22 | gmimc.rs | invariant: true state = lazy state + pending queue sums |
| C23-C25 | gmimc.rs | loop refinement, explicit inverse round |
| C26, C31, C53 | round numbers | logarithm bounds turned into integer power inequalities, stated over R |
| C27-C30, C32 | neptune*.rs with the random source as an oracle stream | ring identities, explicit inverses, refutation witness |
| C33-C42 | four Merkle variants; digest as abstract state machine with contract | induction on depth |
| C43-C45 | fields/utils.rs | induction on strings / streams |
| C46, C47 | moduli | Pocklington criterion proved, certificates checked by vm_compute |
| C48, C49 | exponents | Fermat, Bezout, roots of unity |
| C50-C52 | sage Grain generator, create_mds_p | computation; Cauchy matrices are MDS by a general theorem |
| C54 | getters | by construction |
| C55 | constructor + permutation with wrap-around | case analysis on the release-build additions |
| C56 | known-answer tests | both models evaluated by vm_compute on every vector |
| C57 | sage check_minpoly_condition, matmul_internal | Rabin's irreducibility criterion, certificates computed in Fp, transferred to every field with p elements; refuted for t = 3 |
| C58 | sage generate_matrix_partial | draws by C50; each rejected draw refuted by a polynomial of degree < t annihilating a nonzero vector (certificates from tools/gen_reject.py); acceptance by C57, C60 |
| C59 | partial rounds | differences with inactive S-boxes evolve linearly; Krylov matrix of row 0 nonsingular (C57, or certificates) |
| C60 | sage algorithm_1..3, generate_matrix | the three checks follow from two Krylov conditions; certificates as in C59 |
| C61 | sage get_alpha, generate_matrix_full, matrix_partial_m_1, poseidon, poseidon2, to_hex | loops to the reference permutations of C01 and C13; digits by induction |
| C62 | sage calc_equivalent_matrices, calc_equivalent_constants | loops as relations; same recurrences as the constructor's loops (C14), uniqueness of inverses |
| C63 | sage generate_matrix_partial_small_entries, matmul_internal | eigenvector e_i - e_j; four values for at least five places |
| C64 | sage algorithm_1, algorithm_2, algorithm_3, check_minpoly_condition | a singular Krylov matrix gives an invariant subspace that one of the tests of algorithm_1 finds; dimension count by an underdetermined system |
| C65 | the four permutations, through their reference functions | polynomial functions are closed under the operations of a round; induction over the rounds |
| C66 | the same, shipped instances | power sums over a finite field vanish below exponent p - 1; the inequality d^(rf+rp) < p - 1 is computed per instance |
| C67 | the same | a polynomial with more roots than its degree vanishes |
| C68 | benches/*.rs | the model of the files is a list of benchmarks; correctness of the permutations and of the tree, per benchmark |
| C69 | the `#[cfg(test)]` modules | correctness and injectivity of the permutations; for Neptune, kernels of the drawn matrices |
| C70 | Neptune, Poseidon, Poseidon2 constructors and permutations | machine words as N modulo 2^64; the loops run over wrapped bounds |
| C71 | poseidon2_rust_params.sage:32-110 | invariant of the two nested loops (best pair so far); C53 for the shipped instances |
| C72 | the four accumulate functions | trees of equal depth: leftmost collision; of different depth: the row of the deeper tree at the depth of the other |
| C73 | p2_full_round, ps_full_round, p2_matmul_external, ps_matmul | weights of blocks of four words: case analysis on the sum of the blocks, MDS property of M4 (C06) and of the shipped matrices (C52) |
| C74 | sbox_p / sbox / sbox_d, external_sbox_prime | the difference is a polynomial of degree d - 1 that is not constant (Fermat); pairs: each difference fixes one coordinate |
| C75 | sat_computed, scaled, find_FD_round_numbers_fl | logarithms keep a checked distance from integers; the nearest binary64 number to n times the nearest binary64 number to 1.075 |
| C76 | np_external_round, np_external_sbox, np_external_matmul, np_new | the S-box is a bijection of pairs (C27), the matrix splits into two blocks; MDS by integer adjugates of all minors, exceptions by an integer vector |
| C77 | gm_round, rotate_right, gm_step, gm_permutation, gm_new | follow each word around: an inactive round changes no difference, an active one changes all but the first; general lemma on rotating words |
| C78 | p2_partial_round, ps_partial_round, np_internal_round | unseen differences evolve linearly; Vandermonde argument for all-ones plus diagonal; a sequence of outputs that starts with t zeros is zero; decidable kernels; blocks of t rounds |
| C79 | p2_permutation, ps_permutation, ps_permutation_not_opt, np_permutation | states of a run as a function of the round number; pairs of full rounds by C73/C76, partial rounds by C78; injectivity of the whole permutation keeps the states different |
| C80 | p2_permutation, ps_permutation, ps_permutation_not_opt, gm_permutation, gm_permutation_not_opt, np_permutation | highest coefficient along a line followed through every round; for shipped instances homogeneity reduces the tower of powers to small computations with the shipped matrices |
| C81 | np_permutation with t = 4 | leading coefficients of sums and differences of the four words over three rounds; after one round the two pair differences are opposite in the highest degree, so the second round loses degree |
| C82 | all permutations, compress, fp_accumulate | relational (parametricity) lemmas for the outcome monad, slices and loops, then one per model function; instances of the relation: equality, reduction of integers, denotation of expressions |
| C83 | all permutations | the round with the changed row differs on every state; rounds before are equal, rounds after are injective; GMiMC converse by scaling a collision of x^d to the distance of the two constants and pulling it back through the earlier (bijective) rounds |
| C84 | ModelOutput, SpecRust (reader of the printed Rust text) | the tokens of every printed part, the loop over enumerate as rows of t, then search and parsing on token lists; injective by reading back over the integers; shipped instances with C61 |
| C85 | SpecScale (scaling of states), references of C01, C11, C21 | each layer commutes with the factor; conversely one constant in the last round makes an output word a multiple of c^d |
| C86 | SpecCount (list of all vectors, counting), C03, C15, C24, C30, C41 | a map that keeps all counts is a bijection and conversely (lists without repetition); pigeonhole over the digests |
| C87 | SpecSingular (diagonals, formula), ModelNeptune | the matrix is singular when two diagonal entries are 1, or when none is and the sum of 1/(m_i - 1) is -1; counting the solutions of that equation by recursion on t; the fraction by induction on t |
| C88 | SpecSymmetry (rearrangements), matrices of C05, C07, C28 | a matrix commutes with a rearrangement exactly when its entries agree (unit vectors); for the external matrix a table of all residues modulo 4, entries compared modulo 13; shipped diagonals have distinct entries by computation |
| C89 | SpecInverse (inverse rounds, root exponent, closed inverse of the internal matrix) | layers with two-sided inverses compose over the rounds and the reversed rounds; root exponent by Fermat; internal matrix by Sherman-Morrison; references C01, C13, C23, C29 |
| C90 | SpecDraws (list of the invertible matrices, their number, the drawn blocks) | row by row: the next row avoids the p^k combinations of the first k, counted without repetition; even and odd positions of the kernel vectors separate; bounds by induction over the factors |
| C91 | ModelScriptDouble (sat_double: every operation of lines 84-106 in binary64), SpecDouble | absolute and relative error bounds per operation, added up along every line; half an ulp for values up to 2^k; ln(1+x) <= x for the distance of log2 p from integers; certificates of C75 for the result |
| C92 | ModelGrain (grain_step, grain_warm, grain_next, grain_bits, init_generator) | the register as a power of x modulo the feedback polynomial over GF(2); x has order 2^80 - 1, from the prime factors of 2^80 - 1; counting registers on the cycle. The bits returned are counted over one full cycle |
| C93 | ModelGrain (draw_below, generate_constants, generate_constants_poseidon, grain_list) | with n = g a, g a power of 2 and a odd, the first g bits of the values drawn cover a whole period of the output exactly once; a rejected value has more than g/2 ones there, so not all can be rejected, by the balance of C92 (g = 1 for odd n, 2 for BN256, 64 for Goldilocks). This bounds the fuel of the model: 2^79 is always enough |
| C94 | ModelRandom, ModelNeptune (np_instantiate_mu, np_new), ModelGmimc (gm_new), SpecUnbiased | counting sequences draw by draw: a zero is skipped, any other value must be the next entry; a result counts as reached when all continuations of the draws give it |
| C95 | ModelGrain (create_mds_p), ModelPoseidon (ps_new) | Cauchy minors; C16 for the constructor; the generator evaluated with 13 elements for the refutation |
| C96 | ModelUtils, ModelPoseidon, SpecRagged | the elimination on a matrix with surplus columns simulated by the one on its square part, step by step; the final debug check entry by entry; then C14 and C16 for the square part |
| C97 | ModelPoseidon, ModelUtils, SpecRagged, SpecAccept | C96 reduces to the square part; the loop over the constants returns exactly for rows of the stated lengths (ProofEquivRC) |
| C98 | all functions with a debug flag | "returns at least as often with the same value" is preserved by bind and by the loops; mat_inverse through C96 and C20, after showing that it panics on short rows |
| C99 | ModelPoseidon, SpecRagged | C96 reduces to the plain permutation of the square part; a returned loop ran each round, and the debug assertion in matmul then bounds the row lengths; the converse is C13 |
| C100 | ModelPoseidon | each round is shown to return t elements whatever the row length; a missing row stops the last full round, an empty one the plain partial round |
| C101 | ModelUtils, ModelPoseidon2, SpecRagged, SpecAccept | a returned inverse forces the shape (C96, C98); the square case is C19; the loop over the constants is the one of C97 |
| C102 | ModelPoseidon, SpecShort | a shortened state behaves in matmul like one padded with zeros; induction on rounds; the first round only sees the zipped words |

## 3. Trusted base

* The Coq 8.16.1 kernel, including its virtual machine (`vm_compute`, `vm_cast_no_check` followed by `Qed`) and
  its primitive 63-bit integers.  `coqchk` re-checks all modules without the virtual machine.
* The axioms listed in section 4, all from the standard library: primitive integers (`Int63`) for computations
  with the shipped constants, and the axioms of the real numbers for the round number formulas.  No axiom, no
  `Parameter`, no admitted proof is added by this development.
* `coqchk` lists some more axioms of libraries that are loaded but not used by the property theorems
  (`Coq.ssr.ssrunder`, further `Int63` and `Reals` axioms, `functional_extensionality_dep`, `sig_not_dec`, `classic`).
* The transcription of the source into `Model*.v`, checked by reading, by the known-answer tests (C56) and by the
  mutation runs in `seeded/LOG.jsonl`.
* The Python scripts in `tools/` that copy literals from /repo into `Data*.v`, `ModelInstances.v` and `ModelKats.v`.
  The other scripts only produce certificates (primes, Grain lengths, rejected draws, polynomials), which Coq checks.

### What is modelled

| source | model | remarks |
|---|---|---|
| src/poseidon2/poseidon2.rs, poseidon2_params.rs | ModelPoseidon2 | complete, including `equivalent_round_constants` |
| src/poseidon/poseidon.rs, poseidon_params.rs | ModelPoseidon | complete |
| src/gmimc/gmimc.rs, gmimc_params.rs | ModelGmimc | complete |
| src/neptune/neptune.rs, neptune_params.rs | ModelNeptune | complete; random draws are an arbitrary stream |
| src/merkle_tree/*.rs | ModelMerkle | four variants; `compress` or the digest is abstract |
| src/utils.rs | ModelUtils | matrix inverse, products, transpose |
| src/fields/utils.rs | ModelHex, ModelRandom | `from_hex`, `random_*` |
| src/fields/*.rs | ModelFields | moduli and generators |
| src/*/..._instance_*.rs | ModelInstances, Data*, ModelFields | all shipped parameter objects |
| tests in poseidon.rs, poseidon2.rs | ModelKats | known-answer vectors |
| `#[cfg(test)]` modules | ModelTests | the other tests; random draws are arbitrary streams |
| benches/*.rs | ModelBenches | all nine files |
| poseidon2_rust_params.sage | ModelScript, ModelScriptFloat, ModelScriptDouble, ModelGrain, ModelSubspace, ModelGenerate, ModelPrint, ModelOutput, ModelEquivalent | round numbers, generator, checks, matrices, reference permutations, number format, printed text, functions that are never called |

### What is not modelled, or is simplified

* `ark_ff` arithmetic: any type with operations that satisfy the laws of Z/p (`is_prime_field`).  The montgomery
  representation, `Display`, serialisation are not modelled.  `from_be_bytes_mod_order` is the value modulo p.
* The crates `hex`, `sha2` and the digests are modelled by their documented contract.
* Memory: allocation, capacity (`Vec::with_capacity`), stack depth, time.  A slice has at most 2^63 elements where it matters (Merkle trees).
* `lazy_static!` is its value; `Arc` and references are values; `clone` is the identity.
* Panic messages and unwinding; all panics are `Panic`.
* In debug builds, code under `#[cfg(debug_assertions)]` and overflow checks run; in release builds they do not.
  Other combinations of flags are not modelled.
* `f64` arithmetic of the round numbers is read over the real numbers in ModelScript (1.075 is 1075/1000).  ModelScriptFloat
  allows errors up to 1/1000 in front of every floor and ceil and has 1.075 as a binary64 number.  ModelScriptDouble has
  every operation of lines 84-106 as one that rounds to a nearest binary64 number.  Assumed are the accuracy of `math.log`
  (relative error at most 2^-40, including the conversion of p to a float) and of Sage's `binomial` on floats (relative
  error at most 2^-20, infinite only from 2^1023 on).
* In the Sage script, library functions (`minimal_polynomial`, `is_irreducible`, `eigenspaces_right`, `subspace`, kernels)
  are modelled by what they mean, the unbounded loops by fuel or by relations (C92, C93: enough
  fuel exists for the generator and the round constants of the shipped fields).  `bin(v)[2:].zfill(w)` is modelled for v < 2^w.
  Messages printed before line 642 and the fields of characteristic 2 (FIELD = 0) are not modelled.  SpecRust reads only
  the part of Rust that is printed; that rustc reads it the same way is assumed.
* In the benchmarks, criterion's timing loop and `black_box` are left out.

## 4. Print Assumptions

Written by `tools/assumptions.py` from the output of the build. All axioms are from the Coq standard library.

* **A**: closed under the global context
* **B**: `ClassicalDedekindReals.sig_forall_dec`, `FunctionalExtensionality.functional_extensionality_dep`
* **C**: `ClassicalDedekindReals.sig_forall_dec`, `ClassicalDedekindReals.sig_not_dec`, `Classical_Prop.classic`, `FunctionalExtensionality.functional_extensionality_dep`
* **D**: `PrimInt63.add`, `PrimInt63.eqb`, `PrimInt63.int`, `PrimInt63.land`, `PrimInt63.leb`, `PrimInt63.lor`, `PrimInt63.lsl`, `PrimInt63.lsr`, `PrimInt63.ltb`, `PrimInt63.mul`, `PrimInt63.sub`, `Uint63.add_spec`, `Uint63.eqb_correct`, `Uint63.eqb_refl`, `Uint63.land_spec`, `Uint63.leb_spec`, `Uint63.lor_spec`, `Uint63.lsl_spec`, `Uint63.lsr_spec`, `Uint63.ltb_spec`, `Uint63.mul_spec`, `Uint63.of_to_Z`, `Uint63.sub_spec`
* **E**: `PrimInt63.add`, `PrimInt63.eqb`, `PrimInt63.int`, `PrimInt63.land`, `PrimInt63.leb`, `PrimInt63.lor`, `PrimInt63.lsl`, `PrimInt63.lsr`, `PrimInt63.ltb`, `PrimInt63.mod`, `PrimInt63.mul`, `PrimInt63.sub`, `Uint63.add_spec`, `Uint63.eqb_correct`, `Uint63.eqb_refl`, `Uint63.leb_spec`, `Uint63.lor_spec`, `Uint63.lsl_spec`, `Uint63.lsr_spec`, `Uint63.ltb_spec`, `Uint63.mod_spec`, `Uint63.mul_spec`, `Uint63.of_to_Z`, `Uint63.sub_spec`
* **F**: `PrimInt63.add`, `PrimInt63.eqb`, `PrimInt63.int`, `PrimInt63.land`, `PrimInt63.leb`, `PrimInt63.lor`, `PrimInt63.lsl`, `PrimInt63.lsr`, `PrimInt63.ltb`, `PrimInt63.mod`, `PrimInt63.mul`, `PrimInt63.sub`, `Uint63.add_spec`, `Uint63.eqb_correct`, `Uint63.eqb_refl`, `Uint63.land_spec`, `Uint63.leb_spec`, `Uint63.lor_spec`, `Uint63.lsl_spec`, `Uint63.lsr_spec`, `Uint63.ltb_spec`, `Uint63.mod_spec`, `Uint63.mul_spec`, `Uint63.of_to_Z`, `Uint63.sub_spec`
* **G**: `PrimInt63.add`, `PrimInt63.eqb`, `PrimInt63.int`, `PrimInt63.land`, `PrimInt63.leb`, `PrimInt63.lor`, `PrimInt63.lsl`, `PrimInt63.lsr`, `PrimInt63.ltb`, `PrimInt63.lxor`, `PrimInt63.mod`, `PrimInt63.mul`, `PrimInt63.sub`, `Uint63.add_spec`, `Uint63.eqb_correct`, `Uint63.eqb_refl`, `Uint63.land_spec`, `Uint63.leb_spec`, `Uint63.lor_spec`, `Uint63.lsl_spec`, `Uint63.lsr_spec`, `Uint63.ltb_spec`, `Uint63.lxor_spec`, `Uint63.mod_spec`, `Uint63.mul_spec`, `Uint63.of_to_Z`, `Uint63.sub_spec`

| file | theorems (assumption set) |
|---|---|
| Props_Accept.v | C97_new_success_exactly (A), C97_otherwise_panics (A), C97_debug_sum (A), C98_constructors (A), C98_permutations (A), C98_compress (A), C98_merkle (A), C98_converse_refuted (D) |
| Props_Accept2.v | C101_inverse_success_exactly (A), C101_inverse_otherwise_panics (A), C101_constants_success_exactly (A), C101_constants_otherwise_panics (A) |
| Props_Benches.v | C68_benchmarks_run (F), C68_moduli (A) |
| Props_Binding.v | C72_binding (A), C72_binding_injective (A), C72_binding_untagged (A), C72_binding_untagged_injective (A), C72_binding_digest (A) |
| Props_Branch.v | C73_external_branch (A), C73_poseidon2_round (A), C73_poseidon_round (A), C73_poseidon2_trail (A), C73_poseidon_trail (A), C73_poseidon2_shipped (F), C73_poseidon_shipped (G), C73_bad_prime_refuted (D), C74_poseidon2_sbox (A), C74_poseidon_sbox (A), C74_gmimc_sbox (A), C74_neptune_internal_sbox (A), C74_neptune_pair_sbox (A), C74_small_field_refuted (A) |
| Props_Const.v | C83_poseidon2 (A), C83_poseidon (A), C83_neptune (A), C83_gmimc (A), C83_poseidon2_shipped (F), C83_poseidon_shipped (F), C83_poseidon_two_rows (A) |
| Props_Count.v | C86_vectors (A), C86_poseidon2 (A), C86_poseidon (A), C86_gmimc (A), C86_neptune (A), C86_poseidon2_shipped (F), C86_poseidon_shipped (F), C86_poseidon2_collisions (A), C86_poseidon_collisions (A), C86_gmimc_collisions (A), C86_neptune_collisions (A) |
| Props_Degree.v | C65_poseidon2_degree (A), C65_poseidon_degree (A), C65_gmimc_degree (A), C65_neptune_degree (A), C65_bound_attained (D), C66_zero_sum (A), C66_poseidon2_shipped (F), C66_poseidon_shipped (F), C66_neptune_shipped (A), C66_unbounded_refuted (D), C67_agreement (A), C67_poseidon2 (A), C67_solutions (A) |
| Props_Double.v | C91_one_operation (B), C91_inequalities (C), C91_poseidon2 (C), C91_poseidon (C), C91_field_bits (C), C91_pasta_bits_refuted (C) |
| Props_Draws.v | C90_matrix_count (A), C90_invertible_count (A), C90_external_draws (A), C90_bijective_draws (A), C90_every_draw (A), C90_fraction (A), C90_shipped_fraction (A) |
| Props_Equivalent.v | C62_equivalent_matrices (A), C62_equivalent_constants (A), C62_script_defined_iff (A), C62_shipped (F), C62_same_domain_refuted (D), C63_equal_diagonal_eigenvector (A), C63_equal_diagonal_rejected (A), C63_shipped_diagonals_distinct (A), C63_small_entries_none (A), C63_small_entries_distinct (A), C63_small_entries_width_2 (F) |
| Props_Fields.v | C46_moduli_prime (F), C47_generators_primitive (F), C48_shipped_exponents (A), C49_poseidon2_collides (A), C49_poseidon_collides (A), C49_poseidon2_accepted (A), C49_poseidon_accepted (A), C49_three_not_coprime (A) |
| Props_Four.v | C81_degree (A), C81_not_reached (A), C81_top (A), C81_words (A) |
| Props_Generate.v | C58_poseidon2_internal_matrix_generated (G), C61_matrix_full (A), C61_poseidon2_reference (F), C61_poseidon_reference (F), C61_poseidon2_diagonal (F), C61_get_alpha (A), C61_shipped_alpha (A), C61_to_hex_from_hex (A), C61_poseidon2_texts (F), C61_poseidon_texts (F) |
| Props_Getters.v | C54_poseidon2_get_t (A), C54_poseidon_get_t (A), C54_gmimc_getters (A), C54_neptune_get_t (A), C20_poseidon2_profiles (A) |
| Props_GmTrail.v | C77_any_sbox (A), C77_bijective_sbox (A), C77_shipped (A), C77_same_inputs (A), C77_quiet_rounds (A), C77_linear_relations (A), C77_width_one (A), C77_cube_refuted (D) |
| Props_Gmimc.v | C22_gmimc_optimised_equals_unoptimised (A), C23_gmimc_reference (A), C24_gmimc_bijection (A), C25_gmimc_outcome (A), C25_gmimc_new_outcome (A), C20_gmimc_profiles (A) |
| Props_Grain.v | C50_poseidon2_from_grain (G), C51_poseidon_from_grain (G), C52_poseidon_shipped_mds (G), C52_poseidon_shipped_branch_number (G) |
| Props_Hex.v | C43_from_hex_value (A), C43_from_hex_round_trip (A), C43_from_hex_collisions (A), C44_from_hex_panics_iff (A), C44_prefix_not_checked (A) |
| Props_Instances.v | C04_poseidon2_shipped (F), C12_poseidon2_data_consistent (F), C17_poseidon_shipped (F), C56_poseidon2_known_answers (F), C56_poseidon_known_answers (F) |
| Props_Inverse.v | C89_root_exponent (A), C89_sbox (A), C89_internal_matrix (A), C89_poseidon2 (A), C89_poseidon (A), C89_gmimc (A), C89_neptune (A), C89_preimages (A), C89_poseidon2_shipped (F), C89_poseidon_shipped (F) |
| Props_Matrix.v | C18_mat_inverse_sound (A), C19_mat_inverse_success_iff (A), C19_mat_inverse_empty (A), C19_mat_inverse_not_square_panics (A), C19_inverts_every_invertible_refuted (A), C20_mat_inverse_profiles (A), C20_mat_inverse_ragged_refuted (A), C21_transpose (A), C21_transpose_involutive (A), C21_mat_vec_mul (A), C21_mat_vec_mul_debug_length (A), C21_mat_mat_mul (A) |
| Props_Merkle.v | C33_merkle_fp_root (A), C34_digest_history_independent (A), C35_orchard_levels (A), C35_sapling_levels (A), C36_panics_iff_empty (A), C37_padding_collision (A), C37_padding_collision_any (A), C37_collision_free_refuted (A), C38_same_length_collision (A), C39_path_exists (A), C39_path_binding (A), C40_cross_level (A), C40_untagged_collision_refuted (A), C40_digest_collision_refuted (A), C40_tagged_levels_differ (A), C41_poseidon2_compress (A), C41_poseidon_compress (A), C41_gmimc_compress (A), C41_neptune_compress (A), C42_padded_size_least (A), C42_size_search (A), C42_doublings (A), C42_overflow (A), C42_digest_compressions (A), C42_compressions (A), C20_merkle_profiles (A), C20_merkle_digest_profiles (A) |
| Props_MinPoly.v | C57_internal_minimal_polynomials (F), C57_no_invariant_subspace (F), C57_width_3_refuted (F) |
| Props_Neptune.v | C27_neptune_sbox_formula (A), C27_neptune_sbox_bijective (A), C28_neptune_external_layer (A), C28_neptune_internal_layer (A), C29_neptune_reference (A), C20_neptune_profiles (A), C30_neptune_bijective_iff (A), C30_neptune_fixed_matrices (A), C30_neptune_always_bijective_refuted (A), C32_neptune_params_contents (A), C32_neptune_params_draws (A), C32_neptune_params_outcome (A), C45_without_0_returns_first_nonzero (A), C45_without_0_diverges_iff (A), C45_without_0_never_panics (A) |
| Props_Output.v | C84_tables (A), C84_test_vector (A), C84_injective (A), C84_shipped (F), C84_call (A), C84_call_refuted (A), C84_brackets_refuted (A), C84_balanced (A) |
| Props_Overflow.v | C70_neptune_debug (A), C70_neptune_release_accepts (A), C70_neptune_release (A), C70_poseidon (A), C70_poseidon2_release (A) |
| Props_Pairs.v | C76_fixed_blocks_mds (A), C76_round_pairs (A), C76_round_diffusion (A), C76_trail (A), C76_shipped (A), C76_word_branch (A), C76_external_mds_refuted (A), C76_random_blocks_refuted (A) |
| Props_Poseidon.v | C11_p2_equivalent_round_constants (A), C11_p2_equivalent_round_constants_returns (A), C13_poseidon_reference (A), C14_optimised_equals_unoptimised (A), C14_optimised_equals_unoptimised_debug (A), C14_every_accepted_release_refuted (D), C15_poseidon_bijection_iff (A), C16_poseidon_new_success_iff (A), C16_poseidon_new_degenerate_panics (A), C16_poseidon_new_wrong_size_panics (A), C20_poseidon_new_profiles (A), C20_poseidon_permutation_profiles (A) |
| Props_Poseidon2.v | C01_poseidon2_reference (A), C02_poseidon2_returns_iff (A), C03_poseidon2_bijective (A), C03_poseidon2_bijective_iff (A), C03_bad_primes_small (A), C03_internal_invertible_iff (A), C05_external_is_matrix (A), C05_external_invertible_iff (A), C06_external_mds_iff (A), C06_mds_iff_minors (A), C07_internal_is_matrix (A), C07_small_width_diagonal (A), C08_degrees_usable_refuted (A), C08_accepted_degrees (A), C09_new_accepts_any_lengths (A), C09_short_data_panics (A), C09_input_24_elements_panics (A), C09_surplus_ignored (A), C10_unused_constants (A), C10_mat_internal_unused (A), C55_overflow_debug (A), C55_overflow_release (A) |
| Props_Quiet.v | C78_poseidon2 (A), C78_poseidon (A), C78_neptune (A), C78_poseidon2_count (A), C78_poseidon_count (A), C78_neptune_count (A), C78_poseidon2_shipped (F), C78_poseidon_shipped (G), C78_poseidon2_accepted_refuted (A), C78_neptune_accepted_refuted (A) |
| Props_Ragged.v | C96_inverse_square_part (A), C96_inverse_debug_rejects (A), C96_short_row_panics (A), C96_accepted_iff (A), C96_permutations (A), C96_optimised_equals_unoptimised (A), C96_every_accepted_debug (A) |
| Props_Register.v | C92_separation (A), C92_step_bijective (A), C92_one_cycle (E), C92_no_stall (A), C92_balanced (E), C93_odd_bits (E), C93_shipped_fields (E), C93_constants (E), C93_constants_poseidon (E), C93_lists (A) |
| Props_Returns.v | C99_permutation_returns_exactly (A), C99_value_or_panic (A), C99_compress (A), C100_release_returns_exactly (A), C100_otherwise_panics (A) |
| Props_Rounding.v | C75_security_margin (B), C75_poseidon2_rounding (C), C75_poseidon_rounding (C) |
| Props_Rounds.v | C26_gmimc_round_numbers (C), C26_formula_unique (C), C31_neptune_round_numbers_refuted (C), C31_neptune_round_numbers (C), C31_formula_unique (C) |
| Props_Scale.v | C85_poseidon2 (A), C85_poseidon (A), C85_gmimc (A), C85_minus_one (A), C85_poseidon2_zero_constants (A), C85_poseidon_zero_constants (A), C85_neptune_refuted (D) |
| Props_Script.v | C53_poseidon2_round_numbers (C), C53_poseidon_round_numbers (C) |
| Props_Search.v | C71_search_optimal (B), C71_size_cost (B), C71_final_numbers (B), C71_poseidon2_optimal (C), C71_poseidon_optimal (C) |
| Props_Short.v | C102_release_value (A), C102_lost_words (A), C102_every_running_release_injective_refuted (D) |
| Props_Singular.v | C87_diagonal_count (A), C87_singular_count (A), C87_bijective_draws (A), C87_every_diagonal (A), C87_fraction (A), C87_shipped_fraction (A) |
| Props_Subspace.v | C64_algorithm_1 (A), C64_algorithm_2 (A), C64_algorithm_3 (A), C64_algorithm_3_implies_2 (A), C64_minpoly (A), C64_width_2 (A), C64_minpoly_algorithm_3_refuted (D), C64_other_implications_refuted (D) |
| Props_Symmetry.v | C88_external_layer (A), C88_internal_layer (A), C88_shipped_internal_layer (F), C88_permutation (A), C88_equal_words (A), C88_shipped_poseidon (F), C88_neptune_internal_layer (A) |
| Props_Tests.v | C69_tests_pass (F), C69_neptune_consistent_perm_iff (A), C69_neptune_consistent_perm_refuted (A), C69_matmul_equalities_outcome (A), C69_matmul_equalities_passes (A), C69_matmul_equalities_refuted (A), C69_input_24_elements_refuted (F) |
| Props_Top.v | C80_poseidon2_top (A), C80_poseidon_top (A), C80_gmimc_top (A), C80_neptune_top (A), C80_exact (A), C80_poseidon2_words (F), C80_poseidon_words (F), C80_neptune_words (F) |
| Props_Trail.v | C59_poseidon2_partial_rounds (F), C59_poseidon_partial_rounds (F), C60_poseidon2_algorithms (F), C60_poseidon_algorithms (F), C60_poseidon_generate_matrix (G), C60_poseidon2_layers (F), C60_poseidon_layers (F) |
| Props_Unbiased.v | C94_without_0 (A), C94_neptune_mu (A), C94_neptune_new (A), C94_positive (A), C94_gmimc_new (A), C95_create_mds (A), C95_one_round_accepted (A), C95_generated_accepted_refuted (D) |
| Props_Uniform.v | C82_poseidon2 (A), C82_poseidon (A), C82_gmimc (A), C82_neptune (A), C82_tree (A), C82_no_comparison (A), C82_constructor_compares (D), C82_delayed_reduction (A), C82_poseidon2_expressions (A), C82_poseidon_expressions (A), C82_gmimc_expressions (A), C82_neptune_expressions (A) |
| Props_Whole.v | C79_poseidon2 (A), C79_poseidon (A), C79_neptune (A), C79_poseidon2_shipped (F), C79_poseidon_shipped (G), C79_neptune_shipped (A) |
