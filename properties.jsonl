{"id": "C01", "title": "Poseidon2 permutation computes the reference function", "statement": "For every parameter set whose dimensions fit (supported width t, S-box degree 3, 5 or 7, enough round constants, a diagonal of length t) and every input of length t, Poseidon2::permutation returns exactly the vector of the reference definition: multiply by the external matrix, R_F/2 full rounds (add constants, x^d everywhere, external matrix), R_P partial rounds (add the first constant to and apply x^d to element 0 only, internal matrix), R_F/2 full rounds. The matrices are the published ones, given entry by entry, not the additions-only evaluation the code uses.", "quantifier": "all prime fields, all widths in {2,3,4,8,12,16,20,24}, all round numbers, all constants, all inputs", "why_tests_cant": "The known-answer tests fix one input for a handful of instances; the additions-only evaluation has per-width branches and index arithmetic that only an all-input argument covers.", "anchors": ["src/poseidon2/poseidon2.rs:Poseidon2::permutation", "src/poseidon2/poseidon2.rs:matmul_external", "src/poseidon2/poseidon2.rs:matmul_internal", "src/poseidon2/poseidon2.rs:sbox_p", "src/poseidon2/poseidon2.rs:add_rc", "poseidon2_rust_params.sage:poseidon2"]}
{"id": "C02", "title": "Poseidon2 permutation: exact panic condition", "statement": "For parameters returned by Poseidon2Params::new, permutation(input) returns (a vector of length t) if and only if input.len() = t, t is 2,3,4,8,12,16,20 or 24, d is 3,5 or 7 (unless there are no rounds at all), every full round has at least t constants, every partial round at least one, and, when t >= 4 and there is a partial round, the diagonal has at least t entries. In every other case it panics. It never returns a vector of another length.", "quantifier": "all constructor arguments and all input slices of any length", "why_tests_cant": "Panics depend on every combination of lengths; tests only exercise the well-formed shipped instances.", "anchors": ["src/poseidon2/poseidon2.rs:Poseidon2::permutation", "src/poseidon2/poseidon2_params.rs:Poseidon2Params::new"]}
{"id": "C03", "title": "Poseidon2 permutation is a bijection", "statement": "If t is a supported width, d in {3,5,7} is coprime to p-1, p > 7 and the internal matrix is invertible, then permutation is a bijection on vectors of length t: distinct inputs give distinct outputs and every vector is the output of some input.", "quantifier": "all prime fields with p > 7, all usable parameter sets, all pairs of inputs and all targets", "why_tests_cant": "The input space has p^t elements; consistent_perm compares 5 random pairs.", "anchors": ["src/poseidon2/poseidon2.rs:Poseidon2::permutation"]}
{"id": "C04", "title": "Every shipped Poseidon2 instance is a permutation of its state space", "statement": "For each of the 15 published POSEIDON2_* parameter objects, with the constants in the source, construction succeeds, permutation never panics on inputs of length t, and it is a bijection on F_p^t.", "quantifier": "all inputs of each of the 15 shipped instances", "why_tests_cant": "p^t inputs; tests only sample.", "anchors": ["src/poseidon2/poseidon2_instance_*.rs", "src/poseidon2/poseidon2.rs:Poseidon2::permutation"]}
{"id": "C05", "title": "External linear layer is the published invertible matrix", "statement": "The external layer is multiplication by circ(2,1) for t=2, circ(2,1,1) for t=3, M4=[[5,7,1,3],[4,6,1,1],[1,3,5,7],[1,1,4,6]] for t=4 and circ(2*M4,M4,...,M4) for t=8,...,24, and is invertible in every field with p > 7 (p>3 for t=2, p>2 for t=3).", "quantifier": "all field elements, all supported widths", "why_tests_cant": "The 8-addition evaluation and the column-sum trick must agree with the matrix on every vector; a t=4 bug of this kind existed (README).", "anchors": ["src/poseidon2/poseidon2.rs:matmul_external", "src/poseidon2/poseidon2.rs:matmul_m4", "poseidon2_rust_params.sage:generate_matrix_full"]}
{"id": "C06", "title": "The 4x4 block is MDS, and so are the width 2 and 3 external matrices", "statement": "For p in the shipped fields every square submatrix of the external matrix for t = 2, 3 and 4 is nonsingular; equivalently a non-zero input difference with k non-zero entries produces at least t+1-k non-zero output entries (branch number t+1).", "quantifier": "all non-zero differences in every shipped field", "why_tests_cant": "Quantifies over all differences; the comment 'cheap 4x4 MDS matrix' is never tested.", "anchors": ["src/poseidon2/poseidon2.rs:matmul_m4", "src/poseidon2/poseidon2.rs:matmul_external"]}
{"id": "C07", "title": "Internal linear layer: matrix actually applied", "statement": "For t >= 4 the internal layer is multiplication by the matrix with the supplied diagonal entries plus one on the diagonal and ones elsewhere. For t = 2 and t = 3 it is the fixed matrix [[2,1],[1,3]] or [[2,1,1],[1,2,1],[1,1,3]] whatever diagonal was supplied, so the supplied diagonal is ignored (it agrees with the supplied one only for diagonals (1,2) and (1,1,2)).", "quantifier": "all inputs, all supplied diagonals", "why_tests_cant": "Tests never vary the diagonal and only compare end results of shipped instances.", "anchors": ["src/poseidon2/poseidon2.rs:matmul_internal"]}
{"id": "C08", "title": "Accepted S-box degrees are usable", "statement": "Every degree accepted by Poseidon2Params::new can be evaluated. This is false: new accepts d = 11, and every permutation call on such an instance with at least one round panics; for 3, 5 and 7 it holds.", "quantifier": "all parameter sets with an accepted degree, all inputs", "why_tests_cant": "No test constructs d = 11; the claim ranges over all instances and inputs.", "anchors": ["src/poseidon2/poseidon2_params.rs:Poseidon2Params::new", "src/poseidon2/poseidon2.rs:sbox_p"]}
{"id": "C09", "title": "Constructor does not validate dimensions; mismatch is caught only by a panic at use", "statement": "Poseidon2Params::new succeeds for any vectors of any lengths. Round-constant rows that are too short never yield a silently truncated result: every later permutation call panics. In particular the repository's own test scenario (t = 24 with the width-3 BN256 constants) panics on every 24-element input. Surplus rows, surplus entries in a row and surplus diagonal entries never change the result.", "quantifier": "all argument lengths, all inputs", "why_tests_cant": "Ranges over all malformed inputs; add_rc silently truncates via zip, so only a global argument shows no truncated output escapes.", "anchors": ["src/poseidon2/poseidon2_params.rs:Poseidon2Params::new", "src/poseidon2/poseidon2.rs:add_rc", "src/poseidon2/poseidon2.rs:input_24_elements"]}
{"id": "C10", "title": "Poseidon2 results do not depend on unused parameters", "statement": "permutation is unchanged when the mat_internal argument is replaced by anything, and when entries other than the first of the partial-round constants are changed.", "quantifier": "all parameter pairs that agree on the used entries, all inputs", "why_tests_cant": "Non-interference over all parameter values.", "anchors": ["src/poseidon2/poseidon2.rs:Poseidon2::permutation", "src/poseidon2/poseidon2_params.rs:Poseidon2Params::new"]}
{"id": "C11", "title": "Poseidon2 equivalent round constants preserve the partial rounds", "statement": "Whenever Poseidon2Params::equivalent_round_constants returns, running the partial rounds with the returned constants (all of entry 0 before the first S-box, then only one constant per round, added to element 0 after the S-box) gives the same state as running them with the original full-width constants and the given internal matrix, for every state.", "quantifier": "all matrices the routine accepts, all constants, all numbers of partial rounds >= 1, all states", "why_tests_cant": "The function is marked unused and has no test.", "anchors": ["src/poseidon2/poseidon2_params.rs:Poseidon2Params::equivalent_round_constants"]}
{"id": "C12", "title": "Shipped Poseidon2 data is internally consistent", "statement": "In each shipped Poseidon2 instance: the number and width of round constants match R_F+R_P and t; every constant is a canonical representative (< p); MAT_INTERNAL equals ones plus diag(MAT_DIAG_M_1); for t=2,3 the diagonal equals the hard-coded one; partial-round constants are zero beyond element 0.", "quantifier": "all entries of all 15 shipped instances", "why_tests_cant": "Nothing in the test suite compares the redundant copies; an inconsistent one would silently be ignored (C07, C10).", "anchors": ["src/poseidon2/poseidon2_instance_*.rs"]}
{"id": "C13", "title": "Poseidon (unoptimised) computes the reference function", "statement": "For every mds matrix, constants and input of the right sizes, Poseidon::permutation_not_opt returns the reference Poseidon: R_F/2 full rounds, R_P partial rounds, R_F/2 full rounds, each adding t constants, raising all (or the first) element to the power d, then multiplying by the MDS matrix.", "quantifier": "all fields, widths, round numbers, constants and inputs", "why_tests_cant": "Known-answer tests fix one input per instance.", "anchors": ["src/poseidon/poseidon.rs:Poseidon::permutation_not_opt", "poseidon2_rust_params.sage:poseidon"]}
{"id": "C14", "title": "Optimised Poseidon equals unoptimised Poseidon", "statement": "For every parameter object that PoseidonParams::new can return and every input slice, permutation and permutation_not_opt have the same outcome (same vector, or both panic).", "quantifier": "all fields, all accepted mds/constant inputs, all widths and round numbers, all input slices", "why_tests_cant": "opt_equals_not_opt samples 5 random inputs on shipped instances; the equivalence rests on matrix factorisations that must hold for every accepted matrix.", "anchors": ["src/poseidon/poseidon.rs:Poseidon::permutation", "src/poseidon/poseidon.rs:cheap_matmul", "src/poseidon/poseidon_params.rs:equivalent_matrices", "src/poseidon/poseidon_params.rs:equivalent_round_constants"]}
{"id": "C15", "title": "Poseidon permutation is a bijection", "statement": "For every parameter object PoseidonParams::new can return from well-dimensioned data with d coprime to p-1, permutation (and permutation_not_opt) is a bijection on vectors of length t.", "quantifier": "all prime fields, accepted parameter sets, inputs", "why_tests_cant": "p^t inputs.", "anchors": ["src/poseidon/poseidon.rs:Poseidon::permutation", "src/poseidon/poseidon.rs:permutation_not_opt"]}
{"id": "C16", "title": "PoseidonParams::new: when construction succeeds", "statement": "For well-dimensioned input (t x t mds, one row of t constants per round), construction succeeds iff d is 3, 5 or 7, R_F is even, t >= 2, R_P >= 1 and Gaussian elimination without pivoting succeeds on mds and on every matrix of the factorisation; in particular R_P = 0 and t = 1 always panic. A matrix without exactly t rows, or whose first row has not length t, always panics.", "quantifier": "all constructor arguments", "why_tests_cant": "Boundary cases (R_P = 0, t = 1) are not tested and depend on index arithmetic on empty ranges, with wrap-around in release builds.", "anchors": ["src/poseidon/poseidon_params.rs:PoseidonParams::new", "src/poseidon/poseidon_params.rs:equivalent_matrices", "src/poseidon/poseidon_params.rs:equivalent_round_constants"]}
{"id": "C17", "title": "Every shipped Poseidon instance is constructible, optimisable and a permutation", "statement": "For each of the 15 shipped POSEIDON_* objects, new does not panic, the optimised permutation equals the reference on every input and is a bijection on F_p^t.", "quantifier": "all inputs of all 15 shipped instances", "why_tests_cant": "p^t inputs.", "anchors": ["src/poseidon/poseidon_instance_*.rs", "src/poseidon/poseidon_params.rs:PoseidonParams::new"]}
{"id": "C18", "title": "mat_inverse returns the two-sided inverse", "statement": "Whenever mat_inverse returns on a square matrix A, the result B is n x n and satisfies A*B = B*A = I.", "quantifier": "all fields, all sizes, all square matrices on which it returns", "why_tests_cant": "No unit test; the routine skips columns it assumes to be zero.", "anchors": ["src/utils.rs:mat_inverse"]}
{"id": "C19", "title": "mat_inverse: exact success condition", "statement": "On a square n x n matrix with n >= 1, mat_inverse returns iff every leading principal submatrix is nonsingular; otherwise it panics. The empty matrix and any matrix whose first row is not as long as the matrix panic. Hence 'it inverts every invertible matrix' is false (for example [[0,1],[1,0]] panics).", "quantifier": "all fields, all sizes, all square matrices", "why_tests_cant": "Missing pivoting only shows on matrices the tests never use.", "anchors": ["src/utils.rs:mat_inverse"]}
{"id": "C20", "title": "Debug and release builds agree", "statement": "mat_inverse, Poseidon parameter generation, the permutations and the Merkle accumulators have the same outcome with debug assertions and overflow checks on (debug) and off (release) on well-dimensioned inputs: the extra debug-only code never changes the result and no debug assertion can fail.", "quantifier": "all well-dimensioned inputs of the modelled functions", "why_tests_cant": "Tests run in one profile; agreement ranges over all inputs.", "anchors": ["src/utils.rs:mat_inverse", "src/poseidon/poseidon.rs:matmul", "src/poseidon/poseidon_params.rs:mat_vec_mul", "src/merkle_tree/merkle_tree_fp.rs:accumulate"]}
{"id": "C21", "title": "Matrix helpers compute the mathematical operations", "statement": "mat_transpose swaps indices on every non-empty rectangular matrix and is an involution (when it has at least one column); mat_vec_mul and mat_mat_mul compute matrix-vector and square matrix-matrix products. Debug builds of mat_vec_mul reject a vector whose length is not the number of rows.", "quantifier": "all fields, all dimensions, all entries", "why_tests_cant": "No unit tests exist for these helpers.", "anchors": ["src/utils.rs:mat_transpose", "src/poseidon/poseidon_params.rs:mat_vec_mul", "src/poseidon/poseidon_params.rs:mat_mat_mul", "src/poseidon2/poseidon2_params.rs:mat_vec_mul"]}
{"id": "C22", "title": "Optimised GMiMC equals unoptimised GMiMC", "statement": "For every parameter object and every input, Gmimc::permutation and permutation_not_opt have the same outcome, for every width (the lazily accumulated variant is used from t = 8 on), every number of rounds including fewer rounds than the width, and every degree.", "quantifier": "all fields, widths, round numbers, constants, inputs", "why_tests_cant": "Tests sample 5 inputs; shipped instances never have fewer rounds than t.", "anchors": ["src/gmimc/gmimc.rs:Gmimc::permutation", "src/gmimc/gmimc.rs:permutation_not_opt"]}
{"id": "C23", "title": "GMiMC computes the reference expanding Feistel network", "statement": "Gmimc::permutation equals the reference: in each round the d-th power of (element 0 plus the round constant) is added to all other elements and the state is rotated right by one, with no rotation after the last round.", "quantifier": "all fields, widths, round numbers, constants, inputs", "why_tests_cant": "No known-answer test exists for GMiMC.", "anchors": ["src/gmimc/gmimc.rs:Gmimc::permutation", "src/gmimc/gmimc.rs:round", "src/gmimc/gmimc.rs:sbox"]}
{"id": "C24", "title": "GMiMC is a bijection for every parameter set", "statement": "For every t, every accepted degree (even one not coprime to p-1) and every constants with at least one round, permutation is a bijection on vectors of length t.", "quantifier": "all fields, parameter sets and inputs", "why_tests_cant": "p^t inputs.", "anchors": ["src/gmimc/gmimc.rs:Gmimc::permutation"]}
{"id": "C25", "title": "GMiMC panics exactly on wrong length or zero rounds", "statement": "For every GmimcParams::new(t,d,rounds) that returns, permutation(input) returns a vector of length t iff input.len() = t, t >= 1 and rounds >= 1; otherwise it panics (zero rounds panics in debug and release builds).", "quantifier": "all constructor arguments, all random constants, all inputs", "why_tests_cant": "Zero rounds relies on an underflow; never tested.", "anchors": ["src/gmimc/gmimc.rs:Gmimc::permutation", "src/gmimc/gmimc_params.rs:GmimcParams::new"]}
{"id": "C26", "title": "GMiMC shipped round numbers meet the documented bound", "statement": "Every one of the 43 shipped GMiMC instances uses at least max(2+2(t+t^2), ceil(2 log_d p)+2t) rounds, the bound documented next to the instances: exactly one more than that number for the 15 instances over BN256, Pallas and Vesta with t <= 9, exactly that number for the 28 others.", "quantifier": "all 43 shipped GMiMC instances, exact real logarithms", "why_tests_cant": "A statement about real logarithms of 255-bit numbers, not about program output.", "anchors": ["src/gmimc/gmimc_instance_*.rs"]}
{"id": "C27", "title": "Neptune external S-box: formula and bijectivity", "statement": "The external S-box on a pair equals the published Lai-Massey formula with the parameters alpha, beta, gamma of the parameter object, and is a bijection on pairs in every field of characteristic other than 5.", "quantifier": "all fields, all gamma, all pairs", "why_tests_cant": "p^2 inputs per gamma; the code replaces alpha, beta by 1 and multiplications by additions.", "anchors": ["src/neptune/neptune.rs:external_sbox_prime", "src/neptune/neptune_params.rs:instantiate_abc"]}
{"id": "C28", "title": "Neptune fast linear layers equal their matrices", "statement": "For every parameter object and every input, the external layer (special-cased for t=4 and t=8) is multiplication by the stored external matrix, and the internal layer is multiplication by the matrix with mu on the diagonal and ones elsewhere, where mu is the sampled non-zero value before the stored 'minus one'.", "quantifier": "all fields, all even widths, all sampled parameters, all inputs", "why_tests_cant": "matmul_equalities samples 5 inputs for 5 widths.", "anchors": ["src/neptune/neptune.rs:external_matmul", "src/neptune/neptune.rs:external_matmul_4", "src/neptune/neptune.rs:external_matmul_8", "src/neptune/neptune.rs:internal_matmul", "src/neptune/neptune_params.rs:instantiate_mu"]}
{"id": "C29", "title": "Neptune permutation computes the reference function and never panics on well-formed input", "statement": "For every parameter object NeptuneParams::new can return with t >= 2 (or without partial rounds) and every input of length t, permutation returns the reference: external matrix, then R_F/2 external, R_P internal, R_F/2 external rounds, each S-box, then matrix, then constants. It panics on every input of another length.", "quantifier": "all even widths, all sampled parameters, round numbers, inputs", "why_tests_cant": "No known-answer test exists for Neptune.", "anchors": ["src/neptune/neptune.rs:Neptune::permutation", "src/neptune/neptune_params.rs:NeptuneParams::new"]}
{"id": "C30", "title": "Neptune is a bijection when its matrices are invertible, but construction does not ensure that", "statement": "With d coprime to p-1, p != 5 and invertible external and internal matrices, permutation is a bijection; for t = 4 and 8 the external matrix is invertible in every shipped field. The unconditional claim is false: there are random draws for which NeptuneParams::new returns an instance mapping two different inputs to the same output.", "quantifier": "all random draws, all inputs", "why_tests_cant": "Depends on randomness drawn at construction: no test run can exhibit or exclude the bad draws.", "anchors": ["src/neptune/neptune_params.rs:NeptuneParams::new", "src/neptune/neptune_params.rs:instantiate_mu", "src/neptune/neptune_params.rs:instantiate_external_matrix", "src/neptune/neptune.rs:permutation"]}
{"id": "C31", "title": "Neptune shipped round numbers against the documented formula", "statement": "The number of partial rounds of every shipped Neptune instance is at least ceil(1.125*ceil(log_d(2)*(min(128,log2 p)-6)+3+t+log_d t)), the documented formula with kappa = 128. This is false for NEPTUNE_BN_PARAMS and NEPTUNE_VESTA_PARAMS (68 instead of 69) and true with equality for the ten others.", "quantifier": "all 12 shipped Neptune instances, exact real logarithms", "why_tests_cant": "A statement about real logarithms, not about program output.", "anchors": ["src/neptune/neptune_instances.rs"]}
{"id": "C32", "title": "NeptuneParams::new produces well-formed parameters", "statement": "Whatever the random source returns, new(t,d,rf,rp) with even t, even rf and d in {3,5,7} returns parameters with rf+rp rows of t constants, an external matrix that is zero exactly off the even/odd checkerboard apart from sampled zeros (and fixed circulant blocks for t=4, t=8), t diagonal entries none of which is minus one, alpha = beta = 1 and (alpha^2, 3 alpha, 4 alpha) = (1,3,4); for other arguments it panics.", "quantifier": "all random sources and arguments", "why_tests_cant": "Random construction: tests see one draw.", "anchors": ["src/neptune/neptune_params.rs:NeptuneParams::new", "src/neptune/neptune_params.rs:instantiate_external_matrix", "src/neptune/neptune_params.rs:circ_mat"]}
{"id": "C33", "title": "Merkle accumulate is the root of the padded perfect binary tree", "statement": "For every compression function and every non-empty set, MerkleTree::accumulate (field version) returns the root of the perfect binary tree whose leaves are the set followed by copies of its last element up to the next power of two (at least two leaves).", "quantifier": "all compression functions, all non-empty slices of any length", "why_tests_cant": "Set size and contents unbounded; there are no Merkle unit tests at all.", "anchors": ["src/merkle_tree/merkle_tree_fp.rs:MerkleTree::accumulate", "src/merkle_tree/merkle_tree_fp.rs:round_up_pow_n"]}
{"id": "C34", "title": "Digest-based Merkle tree: stateful hasher, history independence", "statement": "For any digest with the usual update/finalize_reset contract, every accumulate call on one MerkleTree object, after any sequence of earlier calls (including panicking ones), returns the same root as on a fresh object, namely the padded perfect tree with node hash H(left||right).", "quantifier": "all digests, all call histories, all non-empty sets", "why_tests_cant": "Hidden hasher state is carried between calls; a history is unbounded.", "anchors": ["src/merkle_tree/merkle_tree_f2.rs:MerkleTree::compress", "src/merkle_tree/merkle_tree_f2.rs:MerkleTree::accumulate", "src/merkle_tree/merkle_tree_f2.rs:MerkleTree::new", "src/merkle_tree/merkle_tree_f2.rs:MerkleTree::default"]}
{"id": "C35", "title": "Orchard and Sapling Merkle trees tag each level", "statement": "In the Orchard and Sapling variants the node at height h above the leaves is computed by compress with level exactly h-1, leaves' parents having level 0, and the result is the corresponding root of the padded perfect tree.", "quantifier": "all compression functions, all non-empty slices", "why_tests_cant": "Unbounded depth; no tests.", "anchors": ["src/merkle_tree/merkle_tree_orchard.rs:MerkleTree::accumulate", "src/merkle_tree/merkle_tree_sapling.rs:MerkleTree::accumulate"]}
{"id": "C36", "title": "Accumulate panics exactly on the empty set", "statement": "With a total compression function, accumulate returns for every non-empty set and panics on the empty one, in debug and release builds, in all four Merkle variants.", "quantifier": "all set sizes, both build profiles", "why_tests_cant": "The empty case relies on usize underflow (debug) or wrap-around followed by an out-of-bounds index (release).", "anchors": ["src/merkle_tree/merkle_tree_fp.rs:accumulate", "src/merkle_tree/merkle_tree_f2.rs:accumulate", "src/merkle_tree/merkle_tree_orchard.rs:accumulate", "src/merkle_tree/merkle_tree_sapling.rs:accumulate"]}
{"id": "C37", "title": "Different-length sets can collide by padding", "statement": "'accumulate is collision-free up to compression collisions' is false across lengths: for every compression function, a set whose size is not a power of two (or is 1) and the same set with its last element repeated have the same root.", "quantifier": "all compression functions and all sets whose size is one or not a power of two", "why_tests_cant": "Universal over compression functions, so independent of any hash's strength.", "anchors": ["src/merkle_tree/merkle_tree_fp.rs:accumulate", "src/merkle_tree/merkle_tree_f2.rs:accumulate"]}
{"id": "C38", "title": "Same-length collisions give compression collisions", "statement": "If two different sets of equal length have the same root, then two different pairs of inputs with the same compression output (at the same level, in the level-tagged variants) occur among the compressions performed for the two roots.", "quantifier": "all compression functions, all pairs of equal-length sets", "why_tests_cant": "This is a reduction over all inputs.", "anchors": ["src/merkle_tree/merkle_tree_fp.rs:accumulate", "src/merkle_tree/merkle_tree_f2.rs:accumulate", "src/merkle_tree/merkle_tree_orchard.rs:accumulate", "src/merkle_tree/merkle_tree_sapling.rs:accumulate"]}
{"id": "C39", "title": "Every leaf has an authentication path, and paths bind", "statement": "For each leaf index of a non-empty set there is a path of sibling hashes, one per level (ceil(log2 n), at least one), that recomputes the root from that leaf; and a path accepting a different value at that index of the same length yields a compression collision.", "quantifier": "all compression functions, all sets, all indices, all claimed paths", "why_tests_cant": "Unbounded.", "anchors": ["src/merkle_tree/merkle_tree_fp.rs:accumulate"]}
{"id": "C40", "title": "Cross-level collisions in the untagged trees", "statement": "In the field and digest trees, for every set of at least three elements, accumulating the list of first-level node values gives the same root as the set itself; no leaf/node separation exists. The level-tagged variants compute those roots with different level tags.", "quantifier": "all compression functions, all sets", "why_tests_cant": "Universal over compression functions.", "anchors": ["src/merkle_tree/merkle_tree_fp.rs:accumulate", "src/merkle_tree/merkle_tree_f2.rs:accumulate", "src/merkle_tree/merkle_tree_orchard.rs:accumulate"]}
{"id": "C41", "title": "Merkle hashing with the shipped permutations: required width", "statement": "compress on Poseidon, Poseidon2 and GMiMC returns the first element of the permutation of (l, r, 0) and panics whenever the width is not 3; on Neptune it uses (l, r, 0, 0) and needs width 4; inputs beyond the second are ignored and fewer than two inputs panic. Hence accumulate with a well-formed width-3 (Neptune: width-4) instance never panics on a non-empty set and with any other width always panics.", "quantifier": "all parameter sets, all input slices, all sets", "why_tests_cant": "Ranges over all widths and sets.", "anchors": ["src/poseidon2/poseidon2.rs:compress", "src/poseidon/poseidon.rs:compress", "src/gmimc/gmimc.rs:compress", "src/neptune/neptune.rs:compress", "src/merkle_tree/merkle_tree_fp.rs:accumulate"]}
{"id": "C42", "title": "Leaf padding size is the least power of two and cannot overflow", "statement": "The number of leaves after padding is max(2, least power of two >= n); for every n up to 2^63 the search loop terminates without overflow after that many doublings, so no slice that fits in memory can make it wrap or loop forever. Accumulate performs exactly (padded size - 1) compressions.", "quantifier": "all set sizes up to 2^63", "why_tests_cant": "Sizes far beyond any test.", "anchors": ["src/merkle_tree/merkle_tree_fp.rs:round_up_pow_n", "src/merkle_tree/merkle_tree_f2.rs:round_up_pow_n"]}
{"id": "C43", "title": "from_hex value", "statement": "from_hex(s) drops the first two bytes of s, whatever they are, reads the rest as big-endian hexadecimal (either case) and returns it modulo p. Formatting any value with 0x and an even number of digits (any number of leading zeros) and reading it back gives the value mod p; values differing by a multiple of p collide.", "quantifier": "all strings, all values", "why_tests_cant": "All strings of all lengths.", "anchors": ["src/fields/utils.rs:from_hex"]}
{"id": "C44", "title": "from_hex panics", "statement": "from_hex panics exactly when the string has fewer than two bytes, an odd number of characters after the first two, or a non-hexadecimal character there (or splits a multi-byte character); it never validates the '0x' prefix.", "quantifier": "all strings", "why_tests_cant": "All strings of all lengths.", "anchors": ["src/fields/utils.rs:from_hex"]}
{"id": "C45", "title": "random_scalar_without_0 returns the first non-zero draw", "statement": "For every random source, if the source ever yields a non-zero element the function returns the first one, never zero, consuming exactly the draws up to it; if the source yields only zeros it never returns.", "quantifier": "all random sources", "why_tests_cant": "Quantifies over infinite streams.", "anchors": ["src/fields/utils.rs:random_scalar_without_0"]}
{"id": "C46", "title": "The six moduli are prime", "statement": "Each modulus declared for FpBabyBear, FpGoldiLocks, FpBN256, FpBLS12, FpPallas, FpVesta is prime, so that the types are fields as all algorithms assume.", "quantifier": "all potential divisors of six integers up to 255 bits", "why_tests_cant": "Primality of 255-bit numbers is a statement about all divisors.", "anchors": ["src/fields/*.rs:modulus"]}
{"id": "C47", "title": "Declared generators are primitive roots", "statement": "In each declared field the element given as generator has multiplicative order exactly p-1.", "quantifier": "all exponents", "why_tests_cant": "Order p-1 quantifies over all exponents up to 2^255.", "anchors": ["src/fields/*.rs:generator"]}
{"id": "C48", "title": "Shipped S-box exponents are permutations and minimal", "statement": "In each shipped instance of Poseidon, Poseidon2, GMiMC and Neptune d is coprime to p-1, so x -> x^d is a bijection of the field, and d is the least exponent >= 3 with this property, as the generation script selects.", "quantifier": "all field elements", "why_tests_cant": "p elements.", "anchors": ["poseidon2_rust_params.sage:get_alpha", "src/*/\u2026_instance*.rs"]}
{"id": "C49", "title": "Constructors do not check that the S-box is a permutation", "statement": "For d not coprime to p-1 the S-box is not injective: whenever gcd(d,p-1) > 1 some accepted instance maps two inputs to the same output (for example d = 3 over every shipped field), although new accepts it.", "quantifier": "all prime fields and degrees", "why_tests_cant": "Existence over huge fields; requires roots of unity, not sampling.", "anchors": ["src/poseidon2/poseidon2_params.rs:new", "src/poseidon/poseidon_params.rs:new", "src/poseidon2/poseidon2.rs:sbox_p", "src/poseidon/poseidon.rs:sbox_p"]}
{"id": "C50", "title": "Poseidon2 round constants and diagonals come from the Grain generator", "statement": "Each shipped Poseidon2 round-constant table equals the output of the generation script's Grain LFSR seeded with (field=1, sbox=0, n, t, R_F, R_P) and rejection sampling, and for t >= 4 the diagonal is a later draw of the same stream.", "quantifier": "all constants of all 15 instances", "why_tests_cant": "No test regenerates constants.", "anchors": ["poseidon2_rust_params.sage:grain_sr_generator", "poseidon2_rust_params.sage:generate_constants", "src/poseidon2/poseidon2_instance_*.rs"]}
{"id": "C51", "title": "Poseidon constants come from the Grain generator (with sbox bit 1) and the MDS matrices are Cauchy", "statement": "Each shipped Poseidon round-constant table equals the Grain output seeded with sbox=1 (not 0), and each MDS matrix is the Cauchy matrix 1/(x_i+y_j) of the next 2t draws.", "quantifier": "all constants of all 15 instances", "why_tests_cant": "No test regenerates constants.", "anchors": ["poseidon2_rust_params.sage:create_mds_p", "src/poseidon/poseidon_instance_*.rs"]}
{"id": "C52", "title": "Shipped Poseidon matrices are MDS", "statement": "Every square submatrix of every shipped Poseidon MDS matrix (up to 24 x 24) is nonsingular; equivalently the branch number is t+1.", "quantifier": "all submatrices / all non-zero differences", "why_tests_cant": "About 2^48 submatrices for t = 24.", "anchors": ["src/poseidon/poseidon_instance_*.rs", "src/poseidon/poseidon.rs:matmul"]}
{"id": "C53", "title": "Shipped round numbers satisfy the script's security inequalities", "statement": "For each shipped Poseidon and Poseidon2 instance the round numbers are the security-margin enlargement (R_F+2, ceil(1.075 R_P)) of a pair satisfying the inequalities of the generation script for 128-bit security.", "quantifier": "all shipped instances, exact real logarithms and binomials", "why_tests_cant": "Real-number inequalities.", "anchors": ["poseidon2_rust_params.sage:sat_inequiv_alpha"]}
{"id": "C54", "title": "Getters and construction preserve what was passed", "statement": "For each permutation object, get_t returns the width passed to the parameter constructor, GMiMC get_rounds the number of rounds passed, and objects built from the same parameters behave identically.", "quantifier": "all constructor arguments", "why_tests_cant": "All arguments.", "anchors": ["src/poseidon2/poseidon2.rs:get_t", "src/poseidon/poseidon.rs:get_t", "src/gmimc/gmimc.rs:get_t", "src/gmimc/gmimc_params.rs:get_rounds", "src/neptune/neptune.rs:get_t"]}
{"id": "C55", "title": "Overflow of the Poseidon2 round count", "statement": "When rounds_f + rounds_p does not fit in usize, Poseidon2Params::new panics in debug builds. In release builds it is accepted; if moreover rounds_f/2 + rounds_p overflows, permutation silently performs no partial round at all: it returns the result of the initial external layer, rounds 0..rf/2 as full rounds, and then rf/2 full rounds starting again at index rf/2+rp-2^64 < rf/2. So a larger number of requested partial rounds yields a much weaker permutation instead of an error.", "quantifier": "all argument values with overflowing sum, all inputs", "why_tests_cant": "The failing argument values are near 2^64 and only reachable in release builds; tests run in debug with small round numbers.", "anchors": ["src/poseidon2/poseidon2_params.rs:24-49", "src/poseidon2/poseidon2.rs:25-53"]}
{"id": "C56", "title": "The model reproduces the repository's known-answer tests", "statement": "For each known-answer test of Poseidon2 and Poseidon, building the shipped parameter object and applying permutation to 0,1,...,t-1 gives exactly the listed output, in every implementation of the prime field and in both build profiles; for Poseidon the unoptimised permutation gives the same.", "quantifier": "all 14 vectors, all field implementations, both profiles", "why_tests_cant": "The tests check one field implementation; here they validate the model and its constants end to end.", "anchors": ["src/poseidon2/poseidon2.rs:kats", "src/poseidon/poseidon.rs:kats"]}
{"id": "C57", "title": "The shipped internal matrices have no invariant subspaces", "statement": "For every shipped Poseidon2 instance with t <> 3 the internal matrix M passes the generation script's check_minpoly_condition: the minimal polynomials of M, M^2, ..., M^(4t) have degree t and are irreducible. Consequently no proper nonzero subspace is mapped into itself by 1..4t applications of matmul_internal. For t = 3 this fails: matmul_internal fixes every vector (a, -a, 0) and check_minpoly_condition is false.", "quantifier": "all shipped instances, all subspaces, all powers up to 4t, every field with p elements", "why_tests_cant": "Quantifies over all subspaces of F_p^t; irreducibility needs x^(p^t) modulo a degree 24 polynomial.", "anchors": ["poseidon2_rust_params.sage:check_minpoly_condition", "src/poseidon2/poseidon2.rs:matmul_internal", "src/poseidon2/poseidon2_instance_*.rs"]}
{"id": "C58", "title": "The script generates exactly the shipped internal matrices", "statement": "Run with a shipped Poseidon2 instance's p, t, R_F and R_P, the generation script draws the shipped round constants, and generate_matrix_partial, continuing from the generator's register after those draws, then returns exactly the shipped MAT_INTERNAL and no other matrix: for t = 2, 3 it is the fixed matrix; for t >= 4 every diagonal drawn before the shipped one fails check_minpoly_condition, the shipped one passes it, and the three final algorithms accept it.", "quantifier": "all 15 shipped Poseidon2 instances, every field with p elements, every sufficient bound on the loops", "why_tests_cant": "Needs the negative fact that every earlier draw is rejected and the positive fact about 2t minimal polynomials over a 255-bit field; the script is not run by any test.", "anchors": ["poseidon2_rust_params.sage:433-456", "poseidon2_rust_params.sage:generate_constants", "src/poseidon2/poseidon2_instance_*.rs"]}
{"id": "C59", "title": "Differences in the partial rounds", "statement": "For every shipped instance of Poseidon2 and Poseidon: two different states entering t consecutive partial rounds (of the rp partial rounds that permutation performs) have different inputs to at least one of the t S-boxes. Hence a pair of different states that passes all rp partial rounds with equal S-box inputs exists if and only if rp < t; this is the case exactly for the BabyBear instances (t=16, rp=13 and t=24, rp=21).", "quantifier": "all 30 shipped instances, all pairs of states, all starting rounds, every field with p elements, both profiles", "why_tests_cant": "Quantifies over all pairs of states; it depends on the linear layers' Krylov spaces over a large prime field.", "anchors": ["src/poseidon2/poseidon2.rs:25-53", "src/poseidon/poseidon.rs:permutation_not_opt", "src/poseidon2/poseidon2_instance_*.rs", "src/poseidon/poseidon_instance_*.rs"]}
{"id": "C60", "title": "The script's linear layer checks accept the shipped matrices", "statement": "algorithm_1, algorithm_2 and algorithm_3 of poseidon2_rust_params.sage return True for every shipped internal matrix of Poseidon2 and every shipped MDS matrix of Poseidon. So the script's generate_matrix, started after the round constants were drawn, returns exactly the shipped MDS matrix. In terms of the Rust code: element 0 of the states obtained by 0..t-1 applications of the linear layer determines the state, and for every r <= 4t the iterates of (1,0,...,0) under r applications of the layer span all states.", "quantifier": "all 30 shipped instances, all states, all r <= 4t, every field with p elements", "why_tests_cant": "Statements about all subspaces and about all results of a randomised search.", "anchors": ["poseidon2_rust_params.sage:228-380", "poseidon2_rust_params.sage:393-407", "src/poseidon2/poseidon2.rs:matmul_internal", "src/poseidon/poseidon.rs:matmul"]}
{"id": "C61", "title": "The script's reference permutations and printed output agree with the Rust code", "statement": "generate_matrix_full(t) is the external matrix of the Rust code for t = 2, 3 and every multiple of 4, and stops for every other t. The script's functions poseidon2 and poseidon, given the shipped matrices and constants, return on every input what Poseidon2::permutation and Poseidon::permutation return. MATRIX_PARTIAL_DIAGONAL_M_1 is the shipped MAT_DIAG_M_1. get_alpha(p) is the least exponent >= 3 coprime to p-1 for every p >= 5 and equals the shipped d. to_hex prints text that from_hex reads back to the same residue for every value below p, and for the shipped values prints exactly the source literals.", "quantifier": "all widths, all p >= 5, all values < p, all inputs, all 30 shipped instances, every field with p elements, both profiles", "why_tests_cant": "The repository compares the script and the Rust code on one input per instance only; these are statements about all inputs and all printed values.", "anchors": ["poseidon2_rust_params.sage:24-28", "poseidon2_rust_params.sage:409-431", "poseidon2_rust_params.sage:473-475", "poseidon2_rust_params.sage:540-619", "poseidon2_rust_params.sage:634-640", "src/poseidon2/poseidon2.rs:permutation", "src/poseidon/poseidon.rs:permutation", "src/fields/utils.rs:from_hex"]}
{"id": "C62", "title": "The script's factorisation functions compute the tables stored by PoseidonParams::new", "statement": "Whenever PoseidonParams::new accepts its arguments, calc_equivalent_matrices of the generation script has exactly one result: M_i is the transpose of the stored m_i, the collections of v and w_hat are the stored ones, and the last component is mds[0][0]; calc_equivalent_constants has exactly one result, which is the round constants with the rows of the partial rounds replaced by opt_round_constants (row 0 in full, every later row one constant followed by zeros). The script's factorisation exists iff the matrix without its first row and column is invertible; the constructor demands more, and panics for some matrices that the script factorises.", "quantifier": "all fields, widths, round numbers, matrices and constants accepted by the constructor; all 15 shipped Poseidon instances; both profiles", "why_tests_cant": "No test runs the script's functions or compares the stored tables with anything; the comparison is needed for every accepted matrix.", "anchors": ["poseidon2_rust_params.sage:494-520", "poseidon2_rust_params.sage:522-538", "src/poseidon/poseidon_params.rs:58-100", "src/poseidon/poseidon_params.rs:102-124"]}
{"id": "C63", "title": "Internal matrices need pairwise distinct diagonal entries", "statement": "If two entries of mat_internal_diag_m_1 are equal (t >= 4), Poseidon2::matmul_internal multiplies every vector a(e_i - e_j) by that entry, so that the internal layer has an invariant line. check_minpoly_condition rejects every matrix of the internal shape with two equal diagonal entries. No shipped diagonal has two equal entries, except for t = 3. generate_matrix_partial_small_entries, which tries the diagonals over {2,3,4,5}, finds nothing for t >= 5 in any prime field, only finds diagonals with distinct entries, and for t = 2 finds the shipped matrix.", "quantifier": "all fields, widths, diagonals, positions i <> j and scalars a; all prime fields and t for the script", "why_tests_cant": "Tests evaluate single states with the shipped diagonals; the statement covers all diagonals, states and fields.", "anchors": ["src/poseidon2/poseidon2.rs:matmul_internal", "poseidon2_rust_params.sage:458-471", "poseidon2_rust_params.sage:382-391", "src/poseidon2/poseidon2_instance_*.rs"]}
{"id": "C64", "title": "Exact meaning of the script's subspace checks algorithm_1, algorithm_2 and algorithm_3", "statement": "For t >= 2, algorithm_1 accepts a matrix iff no nonzero state keeps element 0 at zero through t applications of the matrix; algorithm_2 accepts iff the first t iterates of (1, 0, ..., 0) span all states; algorithm_3 accepts iff the same holds for the r-fold matrix, r = 2..4t. Hence algorithm_3 implies algorithm_2, and check_minpoly_condition implies algorithm_1, algorithm_2 and the part r <= 2t of algorithm_3. It does not imply all of algorithm_3, and no other implication among the three holds (matrices modulo 13).", "quantifier": "all fields, widths t >= 2 and t x t matrices", "why_tests_cant": "The checks are run by nobody in the crate; their meaning is a statement about every matrix over every field.", "anchors": ["poseidon2_rust_params.sage:228-259", "poseidon2_rust_params.sage:262-300", "poseidon2_rust_params.sage:303-338", "poseidon2_rust_params.sage:341-380", "poseidon2_rust_params.sage:382-391", "poseidon2_rust_params.sage:449-455"]}
{"id": "C65", "title": "Degree of the permutations along lines", "statement": "For every accepted parameter set and every line a + x b of states, the four permutations succeed and each output coordinate is a polynomial in x of degree at most d^(rf+rp) (Poseidon2, Poseidon in both forms), d^rounds (GMiMC in both forms), 4^rf d^rp (Neptune). The bound is attained by a Poseidon2 instance modulo 13.", "quantifier": "all fields (prime fields for Neptune), parameters accepted by the constructors, lines", "why_tests_cant": "The degree of a map on a field with 2^64 or more elements cannot be observed from samples.", "anchors": ["src/poseidon2/poseidon2.rs:25-75", "src/poseidon/poseidon.rs:22-98", "src/gmimc/gmimc.rs:25-113", "src/neptune/neptune.rs:18-253"]}
{"id": "C66", "title": "Zero sums over lines", "statement": "If the degree along lines is below p - 1, each output coordinate summed over all points of a line is zero. This applies to the full-round shipped Poseidon2 and Poseidon instances with p > 2^200, and to the shipped Neptune round numbers over such fields for every seed. Without the bound on the degree it fails (Poseidon2 instance modulo 13).", "quantifier": "all prime fields, lines, functions of bounded degree; all shipped instances with p > 2^200", "why_tests_cant": "The sum has p terms.", "anchors": ["src/poseidon2/poseidon2.rs:25-75", "src/poseidon/poseidon.rs:22-98", "src/neptune/neptune.rs:18-253", "src/poseidon2/poseidon2_instance_bn256.rs:1", "src/poseidon/poseidon_instance_bls12.rs:1"]}
{"id": "C67", "title": "Outputs on lines are determined by few points", "statement": "If output coordinates of two permutations whose degree along lines is at most D agree at more than D points of two lines, they agree at all points; in particular for two Poseidon2 permutations of the same shape with any constants. A given output value is reached at no more than D points of a line or at all of them.", "quantifier": "all fields, lines, lists of distinct points, parameters accepted by p2_new", "why_tests_cant": "The number of points needed exceeds any test run.", "anchors": ["src/poseidon2/poseidon2.rs:25-75"]}
{"id": "C68", "title": "The benchmark programs run and compute the reference values", "statement": "Every benchmark of the nine files in benches/ runs without panic, in debug and release mode, over its declared field, and the measured closure returns the reference permutation of (0, 1, ..., t-1), or the reference Merkle root over 2^k counting leaves. The instance of each benchmark has the modulus of the field declared in its file.", "quantifier": "all 81 benchmarks, all prime fields of the declared modulus, all streams of random draws that reach a nonzero value within the fuel", "why_tests_cant": "cargo bench reports times and never looks at values; the random instances differ in every run.", "anchors": ["benches/mt_bls12.rs", "benches/mt_bn256.rs", "benches/plain_babybear.rs", "benches/plain_bls12.rs", "benches/plain_bn256.rs", "benches/plain_goldilocks.rs", "benches/plain_pallas.rs", "benches/plain_vesta.rs", "benches/poseidon2_different_input_size.rs"]}
{"id": "C69", "title": "Outcome of the unit tests", "statement": "The unit tests of GMiMC, Poseidon and Poseidon2, the fixed-matrix Neptune tests and the known-answer tests pass for every stream of random draws. consistent_perm of Neptune never fails iff the matrices drawn for its instances are invertible. matmul_equalities passes iff no entry drawn for the external matrix is zero. So these two can fail. input_24_elements always panics.", "quantifier": "all #[test] functions with permutations, all prime fields of the declared modulus, all streams of draws, debug and release mode", "why_tests_cant": "A test run shows one stream of draws.", "anchors": ["src/gmimc/gmimc.rs:122-338", "src/poseidon/poseidon.rs:166-667", "src/poseidon2/poseidon2.rs:233-625", "src/neptune/neptune.rs:266-742"]}
{"id": "C70", "title": "Round numbers whose sum overflows usize: Neptune, Poseidon and Poseidon2", "statement": "If rounds_f + rounds_p does not fit in usize, the Neptune constructor panics in debug builds. In release builds it accepts every such pair; the permutation then either skips all internal rounds and uses some constants twice, or panics. The Poseidon constructor panics in both builds. A Poseidon2 instance accepted in a release build whose rounds_f/2 + rounds_p still fits permutes no input.", "quantifier": "all prime fields, all round numbers, all streams of draws and all parameters of realistic length", "why_tests_cant": "No test uses round numbers near 2^64, and cargo test runs with overflow checks.", "anchors": ["src/neptune/neptune_params.rs:25-60", "src/neptune/neptune.rs:233-252", "src/poseidon/poseidon_params.rs:24-124", "src/poseidon2/poseidon2_params.rs:24-49", "src/poseidon2/poseidon2.rs:25-53"]}
{"id": "C71", "title": "The search for round numbers is optimal", "statement": "find_FD_round_numbers returns (0, 0) iff no pair in its ranges is accepted; otherwise it returns the round numbers (with or without the security margin) of an accepted pair with the least number of S-boxes t R_F + R_P, and among those the fewest full rounds. Overwriting the loop variable R_P_t in the loop has no effect on this. The size cost is n times the number of S-boxes. For every shipped Poseidon2 and Poseidon instance no round numbers that satisfy the inequalities, even outside the ranges of the search, give a cheaper instance.", "quantifier": "all acceptance tests, widths and both values of security_margin; all shipped instances and all even R_F >= 4, R_P >= 1", "why_tests_cant": "The script is only run for single parameters and no test compares its result with other round numbers.", "anchors": ["poseidon2_rust_params.sage:32-110", "src/poseidon2/poseidon2_instance_goldilocks.rs", "src/poseidon/poseidon_instance_goldilocks.rs"]}
{"id": "C72", "title": "Exactly which sets share a Merkle root", "statement": "Two non-empty sets, of any sizes, have the same root iff they agree up to padding (one is the other followed by copies of its last element that fit into the tree), or two different nodes (level and inputs) occurring in the two trees collide. Without level tags (field and digest trees) there is one further case: the padded leaves of one set are a row above the leaves of the other. For digests with fixed output length, a collision of nodes is a collision of two different hashed messages.", "quantifier": "all four tree variants, all compression functions that do not panic, all sets of at most 2^63 elements, debug and release mode", "why_tests_cant": "The tests of the trees compare no roots; a collision statement quantifies over all pairs of sets.", "anchors": ["src/merkle_tree/merkle_tree_fp.rs:1-65", "src/merkle_tree/merkle_tree_f2.rs:22-71", "src/merkle_tree/merkle_tree_orchard.rs", "src/merkle_tree/merkle_tree_sapling.rs"]}
{"id": "C73", "title": "Active words of the full rounds", "statement": "For two different states, the number of words in which they differ before a full round plus the number in which they differ after it is at least t + 1 for Poseidon with an MDS matrix and for Poseidon2 with t <= 4, and at least t/4 + 4 for Poseidon2 with t >= 8; some pair attains this. Along 2m consecutive full rounds at least m times as many words differ in total. A change of one word changes every word of the next state. All of this holds for the shipped instances.", "quantifier": "all prime fields outside an explicit list of small characteristics, all supported widths, all round constants, all pairs of states; all 30 shipped Poseidon and Poseidon2 instances", "why_tests_cant": "The statement is about all pairs of states; the tests compare single outputs and check the matrices on random vectors only.", "anchors": ["src/poseidon2/poseidon2.rs:25-57", "src/poseidon2/poseidon2.rs:88-163", "src/poseidon/poseidon.rs:25-75"]}
{"id": "C74", "title": "Differences and affine approximations of the S-boxes", "statement": "For a non-zero a, x^d as computed by the code takes each difference f(x + a) - f(x) at most d - 1 times, and agrees with any affine map at no more than d points, if d < p; some difference is taken twice. Neptune's S-box on pairs takes each output difference for at most p of the p^2 pairs, and this bound is attained.", "quantifier": "all prime fields with more than d elements (characteristic other than 2 for the pairs), all accepted d, all differences, all affine maps, all parameters", "why_tests_cant": "The tests evaluate the S-boxes only inside permutations at a few points.", "anchors": ["src/poseidon2/poseidon2.rs:59-86", "src/poseidon/poseidon.rs:82-109", "src/gmimc/gmimc.rs:25-54", "src/neptune/neptune.rs:47-117"]}
{"id": "C75", "title": "Rounding errors do not change the round numbers", "statement": "If every value that the script passes to floor or ceil is off by at most 1/1000, and the security margin multiplies binary64 numbers with rounding to nearest, the search still returns the stored R_F and R_P. The product with 1.075 has the ceiling of the exact product, also where the exact product is an integer.", "quantifier": "all 30 shipped Poseidon and Poseidon2 instances, all error terms up to 1/1000 (independently for each value), all nearest roundings, all numbers of partial rounds below 2^20", "why_tests_cant": "The script is not run by any test; a run shows the result for one rounding only.", "anchors": ["poseidon2_rust_params.sage:58-82", "poseidon2_rust_params.sage:84-106"]}
{"id": "C76", "title": "Active pairs in Neptune's external rounds", "statement": "If two states of width t differ, the pairs (words 2i and 2i+1) in which they differ before and after one external round number at least t/2 + 1 together, and this is attained, exactly when the even and the odd block of the external matrix are MDS. Then one changed pair changes all pairs, and 2m consecutive external rounds have at least m(t/2 + 1) active pairs. The fixed blocks of width 4 are MDS in all characteristics except 2 and 3, those of width 8 in all except 2, 3, 5, 7, 11 and 17, so the bounds hold for the shipped instances of these widths. Counted in words the matrix has branch number t/2 + 1 and is never MDS; for other widths the constructor accepts blocks that are not MDS.", "quantifier": "all prime fields (characteristic not 5 for the rounds), all generators and accepted parameters, all pairs of states, all rounds, all numbers of consecutive rounds", "why_tests_cant": "The unit tests only compare a few random states; a bound over all pairs of states and all fields cannot be sampled.", "anchors": ["src/neptune/neptune.rs:23-27", "src/neptune/neptune.rs:119-217", "src/neptune/neptune_params.rs:98-153"]}
{"id": "C77", "title": "Active S-boxes of GMiMC", "statement": "Two different states have an active S-box (their first words differ) in any t consecutive rounds of GMiMC, and t - 1 rounds are not enough for any parameters. If the power map is a bijection, t + m(t+1) consecutive rounds have at least 2m + 1 active S-boxes; this holds for all shipped instances, and fails for d = 3 over 13 elements. The accumulator path feeds its S-boxes the same words. Over n rounds the differences of words that have not come first are carried unchanged from input to output. With one word the permutation is the identity.", "quantifier": "all fields (prime fields for the second bound), all generators, widths, degrees and round numbers accepted by the constructor, all pairs of states, all starting rounds, all m", "why_tests_cant": "The unit tests only check a few random states for equality; a bound over all pairs of states, fields and constants cannot be sampled.", "anchors": ["src/gmimc/gmimc.rs:25-113", "src/gmimc/gmimc_params.rs:16-28"]}
{"id": "C78", "title": "Differences that the S-boxes of the partial rounds do not see, for arbitrary parameters", "statement": "n consecutive partial rounds of Poseidon2 give every pair of different states different S-box inputs somewhere exactly when n >= t and the diagonal entries after the first are pairwise different (no condition for t = 2, 3); otherwise some pair has equal S-box inputs in all n rounds. The same holds for the internal rounds of Neptune with the drawn diagonal, and for Poseidon with the condition that the matrix passes algorithm_1 of the generation script. If moreover the power map is a bijection and the matrix invertible, at least floor(n / t) of n partial rounds are active; this holds for all shipped instances. The constructors accept parameters with pairs that are never seen: a repeated diagonal entry in Poseidon2, a constant generator in Neptune.", "quantifier": "all fields (prime fields for the counts), all parameters accepted by the constructors with rows long enough, all pairs of states, all starting rounds, all n", "why_tests_cant": "The tests evaluate fixed instances; whether some pair of states avoids all S-boxes is a statement about all pairs and all diagonals.", "anchors": ["src/poseidon2/poseidon2.rs:40-45", "src/poseidon2/poseidon2.rs:168-211", "src/poseidon/poseidon.rs:63-68", "src/neptune/neptune.rs:29-33", "src/neptune/neptune.rs:131-135", "src/neptune/neptune.rs:219-231", "poseidon2_rust_params.sage:262-300"]}
{"id": "C79", "title": "Number of S-boxes with different inputs over a whole permutation", "statement": "For any two different inputs the runs of permutation() give different inputs to at least 2 (floor(h/2) b + h mod 2) + floor(rp/t) S-boxes in all, where h = rf/2 and b is the bound for two consecutive full rounds: t+1 for Poseidon2 with t = 2, 3, 4 and t/4 + 4 for larger t, t + 1 for Poseidon with an MDS matrix (both permutation and permutation_not_opt), t/2 + 1 (S-boxes on pairs) for Neptune. For the shipped instances this is e.g. 34 for width 3 over BN254, 32 for Poseidon2 and 68 for Poseidon over BabyBear with t = 16.", "quantifier": "all prime fields outside a finite list, all accepted parameters with bijective layers and a diagonal (or matrix) that hides nothing from the S-boxes, all pairs of inputs; all shipped Poseidon2 and Poseidon instances; shipped Neptune instances of width 4 and 8 for every draw with an invertible matrix and different diagonal entries", "why_tests_cant": "A statement about all pairs of inputs; tests compare outputs of single inputs and never count active S-boxes.", "anchors": ["src/poseidon2/poseidon2.rs:24-57", "src/poseidon/poseidon.rs:22-76", "src/neptune/neptune.rs:22-40"]}
{"id": "C80", "title": "Exact algebraic degree of the permutations", "statement": "On every line x -> a + x b the outputs of permutation() are polynomials in x whose coefficient at the highest power allowed by C65 (d^(rf+rp) for Poseidon2 and Poseidon, d^rounds for GMiMC, 4^rf d^rp for Neptune) is given by an explicit formula in the direction b alone: matrices and powers applied in turn, without round constants and without the offset a. When this power is below p the output word has that degree exactly if the coefficient is not zero. For all shipped Poseidon2 and Poseidon instances over 255-bit fields every output word has degree exactly d^(rf+rp) in every single input word, for all values of the other words; the same with 4^rf d^rp for Neptune with t = 8 unless the first diagonal entry drawn is zero. In GMiMC the first output word never reaches the bound and all others do unless the first word is constant on the line.", "quantifier": "all fields (prime fields for Neptune and for exactness), all accepted parameters, all lines; all shipped 255-bit Poseidon2 and Poseidon instances and all draws for Neptune t = 8", "why_tests_cant": "The degree of a polynomial of degree 5^64 in one word cannot be seen from any set of evaluations a test can run.", "anchors": ["src/poseidon2/poseidon2.rs:25-75", "src/poseidon/poseidon.rs:22-98", "src/gmimc/gmimc.rs:25-113", "src/neptune/neptune.rs:18-253"]}
{"id": "C81", "title": "Degree deficit of Neptune with four words", "statement": "With t = 4 three external rounds of Neptune multiply the algebraic degree along a line by 56 only, not by 4^3 = 64: the words have degree at most f(rf/2)^2 d^rp with f(h) = 56^(h div 3) 4^(h mod 3), so from six external rounds on no output word on any line has the degree 4^rf d^rp. With six external rounds, as in all shipped instances, the coefficient at x^(56*56*d^rp) is the explicit form built from 3 (12 (m^4 - n^4)^3 (m^2 + n^2))^4 with m, n the differences of the two pairs; for the shipped instances BN254, BLS12-381, Pallas and Vesta every output word has degree exactly 56*56*d^rp in every input word unless the first diagonal entry drawn is zero.", "quantifier": "all prime fields, all accepted parameters with t = 4, all draws, all lines", "why_tests_cant": "A cancellation of leading coefficients over three rounds is invisible in any set of sample outputs over a 64-bit or larger field.", "anchors": ["src/neptune/neptune.rs:18-253", "src/neptune/neptune_params.rs:98-170"]}
{"id": "C82", "title": "Field elements are used only through +, - and *", "statement": "The permutations of Poseidon2, Poseidon (both variants), GMiMC (both variants) and Neptune, their compress functions and the Merkle tree use field elements only through addition, subtraction and multiplication: runs over any two structures with related parameters and inputs end in the same way (same panics) with related results, for every relation respecting 0, 1, +, -, *. Hence comparison, inversion and conversion of field elements cannot influence a permutation; for given sizes the outputs are one fixed list of expressions in the input words and constants, without a branch on a value; and computing over the integers and reducing modulo p once at the end gives the same result. The constructor of Poseidon is different: it does compare elements.", "quantifier": "all structures with the operations (not only fields), all relations respecting them, all parameters and inputs of any length, both build modes", "why_tests_cant": "That a computation never branches on secret values is a statement about all values; a test sees one path at a time, and a shortcut for a rare value (such as zero) gives the same outputs.", "anchors": ["src/poseidon2/poseidon2.rs:25-231", "src/poseidon/poseidon.rs:22-165", "src/gmimc/gmimc.rs:25-121", "src/neptune/neptune.rs:23-260", "src/merkle_tree/merkle_tree_fp.rs:22-64"]}
{"id": "C83", "title": "Every round constant matters on every input", "statement": "If two tables of round constants differ in one row, among the positions the code reads, then the two permutations give different outputs on every input, provided the permutation is a bijection: for Poseidon2 (all words of full rounds, word 0 of partial rounds), Poseidon (every word, both variants), Neptune (every word). For GMiMC with at least two words this holds exactly when x^d is a bijection, otherwise some input hides the change; with one word no constant ever matters. For every shipped instance, a wrong row in the table of constants is therefore visible on every input, so that any single known-answer test catches it. One row is the limit: in Poseidon a change of the words outside the S-box of a partial round can be undone in the next row, and then no input shows it.", "quantifier": "all prime fields, all parameters and tables accepted by the constructors, all rows, all inputs of the right length, both build modes; all shipped instances", "why_tests_cant": "A known-answer test checks one table against one value; that every other table with one wrong row would fail the same test, whatever the input, quantifies over all tables and inputs.", "anchors": ["src/poseidon2/poseidon2.rs:25-53", "src/poseidon/poseidon.rs:22-76", "src/gmimc/gmimc.rs:25-113", "src/neptune/neptune.rs:23-45", "src/neptune/neptune.rs:233-253", "src/poseidon2/poseidon2_params.rs:24-50", "src/poseidon/poseidon_params.rs:24-56"]}
{"id": "C84", "title": "The parameters printed by the script can be read back as Rust", "statement": "The text that poseidon2_rust_params.sage prints (lines 642-713), read by a small Rust reader (tokens, static ref declarations, nested vec! of from_hex literals), gives back exactly the diagonal, the internal matrix, the round constants in rows of t, and the two vectors of the test; two runs print the same text only if they have the same parameters, tables and vectors. For every shipped Poseidon2 instance the text printed from its tables yields the shipped parameters, and the printed vectors are 0..t-1 and the output of the Rust permutation. Refuted: that the text can be pasted as it is. The printed constructor call has six arguments (mat_internal is missing) where Poseidon2Params::new has seven, and the text closes two square brackets that it never opens.", "quantifier": "all primes, widths t >= 1, exponents, round numbers, tables with entries below p and rows of t constants, all test vectors; all shipped Poseidon2 instances", "why_tests_cant": "The script is not run by the tests, and grouping, padding and separators have to be right for every width, every number of constants and every value.", "anchors": ["poseidon2_rust_params.sage:634-713", "src/poseidon2/poseidon2_params.rs:24-32", "src/fields/utils.rs:9-12"]}
{"id": "C85", "title": "How the permutations behave under scaling", "statement": "Multiplying the input and every round constant by a field element a multiplies the output by a exactly when a^d = a, for Poseidon2, Poseidon (both variants) and GMiMC (both variants). Minus one qualifies for every accepted d; for d = 3 only 0, 1 and -1 do. With all round constants zero the permutations commute with every such factor, so P(-x) = -P(x) and the zero state is fixed. Refuted for Neptune, even for a = -1.", "quantifier": "all fields, widths, exponents, round numbers, matrices, constants, factors and states", "why_tests_cant": "The known-answer tests fix the constants and the inputs; a symmetry is a statement about all inputs, and the converse needs a table of constants for each parameter set.", "anchors": ["src/poseidon2/poseidon2.rs:25-53", "src/poseidon/poseidon.rs:22-76", "src/gmimc/gmimc.rs:25-113", "src/neptune/neptune.rs:76-117"]}
{"id": "C86", "title": "Uniform outputs and unavoidable collisions", "statement": "A uniformly distributed state is mapped to a uniformly distributed state (for every set Q of states, as many inputs are mapped into Q as Q has members) exactly when the conditions of C03, C15 and C30 hold, and always for GMiMC; for the shipped Poseidon and Poseidon2 instances each value of each output word has exactly p^(t-1) preimages. The compress functions of all four hashes have collisions: some digest has at least p preimages among the pairs, and some Merkle root belongs to at least p^(n-1) sets of n elements.", "quantifier": "all prime fields, parameters, sets of states, values and words; all set sizes from 1 to 2^63; all shipped Poseidon and Poseidon2 instances", "why_tests_cant": "The statement counts preimages over the whole state space, which has up to 2^(254*24) elements.", "anchors": ["src/poseidon2/poseidon2.rs:25-53", "src/poseidon2/poseidon2.rs:226-230", "src/poseidon/poseidon.rs:22-76", "src/poseidon/poseidon.rs:160-164", "src/gmimc/gmimc.rs:61-120", "src/neptune/neptune.rs:233-264", "src/merkle_tree/merkle_tree_fp.rs:35-64"]}
{"id": "C87", "title": "How many draws give a singular Neptune internal matrix", "statement": "Neptune's constructor draws the diagonal of the internal matrix without checking that the matrix is invertible. Of the (p-1)^t diagonals without zeros, exactly (p((p-1)^t - (p-2)^t - t(p-2)^(t-1) + t) + (p-2)^t - 2^t)/p give a singular matrix; each of them can be drawn; with partial rounds the permutation is a bijection only if the drawn diagonal is not one of them. When p >= t^2 + 2, as for all shipped instances, the fraction is between 1/(2p) and 2/p.", "quantifier": "all prime fields with p > t, all even t, all generators of random elements; all shipped Neptune instances for the fraction", "why_tests_cant": "For the shipped fields a singular draw has a probability of at most 2^-30, so no test run meets one; the statement counts over all draws.", "anchors": ["src/neptune/neptune_params.rs:87-96", "src/neptune/neptune_params.rs:22-46", "src/fields/utils.rs:19-26", "src/neptune/neptune.rs:233-264", "src/neptune/neptune_instances.rs:13-29"]}
{"id": "C88", "title": "Symmetries of the linear layers", "statement": "Exactly which rearrangements of the words commute with the linear layers. Poseidon2's external layer: for t = 2, 3 all of them; for t >= 4 exactly those that move whole blocks of four words, with or without exchanging the halves of every block. Its internal layer: exactly those that keep the diagonal. The shipped diagonals leave none (for t = 3 only the exchange of the first two words), and the shipped Poseidon matrices leave none. Parameters whose constants have a symmetry of both layers (of the external layer only, without partial rounds) give a permutation with the same symmetry, which maps states with equal blocks to states with equal blocks.", "quantifier": "all prime fields with p > 11 (external layer; any prime for the rest), all widths, all rearrangements, all states; all shipped Poseidon and Poseidon2 instances", "why_tests_cant": "There are t! rearrangements (24! for the widest instance) and p^t states.", "anchors": ["src/poseidon2/poseidon2.rs:88-224", "src/poseidon/poseidon.rs:133-147", "src/neptune/neptune.rs:219-231", "src/poseidon2/poseidon2.rs:25-53"]}
{"id": "C89", "title": "The permutations run backwards", "statement": "Explicit inverses of the four permutations. With the exponent e = (k(p-1)+1)/d and the inverse matrices, running the rounds in the opposite order (inverse matrix, e-th power, subtract the constants) computes the unique input of Poseidon, optimised or not, and of Poseidon2 for every output. GMiMC needs no inverse exponent: the round value is subtracted and the rotation undone. Neptune's pair S-box has the stated closed inverse with 1/5. For t >= 4 the inverse of Poseidon2's internal matrix has a closed form in its diagonal. The preimages of a digest h under compress are exactly the inverse images of the states that start with h, whose last words are zero. All shipped instances have such an inverse with the computed exponent.", "quantifier": "all prime fields, all accepted parameters with an exponent and matrices that can be inverted, all states; all shipped instances", "why_tests_cant": "p^t states, all parameter sets; the inverse exists only on paper, the crate has no code to round-trip with.", "anchors": ["src/poseidon2/poseidon2.rs:25-53", "src/poseidon/poseidon.rs:22-158", "src/gmimc/gmimc.rs:25-114", "src/neptune/neptune.rs:23-253"]}
{"id": "C90", "title": "How many draws give an invertible Neptune external matrix", "statement": "For every width but 4 and 8 NeptuneParams::new draws the two t/2 x t/2 blocks of the external matrix without checking them. The external matrix is invertible exactly when both blocks are, of the p^(n*n) blocks exactly (p^n-1)(p^n-p)...(p^n-p^(n-1)) are, so the fraction of singular blocks is at least 1/p and less than 1/(p-1) for every size. Every pair of blocks can be drawn with every diagonal. With C87 this says for which draws the constructed permutation is a bijection, in terms of the draws alone.", "quantifier": "all prime fields, all accepted parameters and widths other than 4 and 8, all generators; all shipped instances with drawn matrices", "why_tests_cant": "A singular block appears about once in p attempts, 2^-31 for BabyBear; the exact count needs all p^(n*n) matrices.", "anchors": ["src/neptune/neptune_params.rs:25-60", "src/neptune/neptune_params.rs:98-155"]}
{"id": "C91", "title": "The parameter script finds the round numbers also with 53 bit arithmetic", "statement": "Evaluated operation by operation in binary64 arithmetic, every + - * and / rounded to nearest, with a math.log that is accurate to 2^-40 and a binomial that is accurate to 2^-20 and may overflow to infinity from 2^1023 on, the inequalities of sat_inequiv_alpha always have an answer and every answer is within the tolerance of C75. So the brute force search gives exactly the R_F and R_P of every shipped Poseidon and Poseidon2 instance. ceil(log(p, 2)) in lines 41 and 59 is the number of bits for BabyBear, Goldilocks, BLS12 and BN256; for Pallas and Vesta the claim is false: the correctly rounded logarithm is 254 although the primes have 255 bits (only a discarded cost depends on it).", "quantifier": "all ties and all library errors within the bounds, all p < 2^256, widths and exponents up to about 1000, all round numbers in the search range; all shipped instances", "why_tests_cant": "A run sees one library and one rounding of the logarithms; the theorem holds for all rounding errors of all evaluated operations, and the off-by-one for the Pasta primes has no visible effect in a run.", "anchors": ["poseidon2_rust_params.sage:39-47", "poseidon2_rust_params.sage:58-106", "poseidon2_rust_params.sage:108-109"]}
{"id": "C92", "title": "The shift register of the constant generator has one cycle of full length and separates the parameters", "statement": "Different parameter tuples (field, sbox, n, t, R_F, R_P) that fit into their bit fields start the generator from different registers after the 160 warm-up steps, and none of them is zero. Every step of the register can be undone. All non-zero registers lie on a single cycle of exactly 2^80 - 1 steps. The inner 'while new_bit == 0' loop ends after at most 79 repetitions from every non-zero register, and 79 is needed for some. The sequence of returned bits repeats after 2^79 bits and has exactly 2^78 ones and 2^78 zeros in this period.", "quantifier": "all registers of 80 bits, all parameter tuples that fit into the 50 bits of the start value, all numbers of bits", "why_tests_cant": "There are 2^80 registers and the cycle has 2^80 - 1 steps; no run can go around it or try all parameter tuples.", "anchors": ["poseidon2_rust_params.sage:130-151", "poseidon2_rust_params.sage:159-171"]}
{"id": "C93", "title": "The rejection sampling of the round constants always ends", "statement": "For every modulus p with an odd number n of bits, and for all six shipped moduli, drawing n bit values until one is below p ends from every non-zero register. So generate_constants (Poseidon2) and its Poseidon version return (R_F + R_P) t field elements for each shipped field, every width and all round numbers that fit into the start value. Lists of n bit values, as used for the matrices, end for every n.", "quantifier": "all non-zero registers, all odd bit lengths and all moduli of this length, all six shipped moduli, all widths and round numbers that fit", "why_tests_cant": "Whether a rejection loop ends for every start value is a statement about 2^80 registers; a test sees only the few parameter sets it runs.", "anchors": ["poseidon2_rust_params.sage:154-158", "poseidon2_rust_params.sage:173-192"]}
{"id": "C94", "title": "Randomly drawn parameters are unbiased", "statement": "For every number k of draws, each non-zero field element is returned by random_scalar_without_0 for the same number, (p^k - 1)/(p - 1), of the p^k sequences of draws. Each diagonal without zeros is drawn by instantiate_mu for the same number of sequences, and each parameter set that NeptuneParams::new can return at all (round constants, external matrix, diagonal and gamma together) is returned for the same number of sequences of k draws; the number is given exactly and is positive as soon as k is large enough. The same for GmimcParams::new.", "quantifier": "all prime fields, all widths, degrees and round numbers, all numbers k of draws, all results; debug and release builds", "why_tests_cant": "A statistical test of a random generator cannot show that the rejection of zeros and the order of the draws introduce no bias; the theorem counts all p^k sequences.", "anchors": ["src/fields/utils.rs:14-26", "src/neptune/neptune_params.rs:25-60", "src/neptune/neptune_params.rs:71-153", "src/gmimc/gmimc_params.rs:16-43"]}
{"id": "C95", "title": "Every matrix from create_mds_p is MDS, but PoseidonParams::new may reject it", "statement": "Whenever create_mds_p of the parameter script returns, from any register and for any field, width and bit length, the result is a t x t Cauchy matrix 1/(x_i + y_j) with 2t different elements, all its square submatrices are nonsingular, and it has branch number t + 1. PoseidonParams::new accepts every MDS matrix if there is one partial round. The claim that it accepts every matrix the script produces is false: for 13 elements, t = 3, R_F = 2, R_P = 2 the constants and the matrix from the script are rejected, because elimination without pivoting meets a zero in the second power of the submatrix.", "quantifier": "all fields, registers, widths, bit lengths; one witness for the refutation", "why_tests_cant": "The shipped instances are 15 matrices; the theorem is about all matrices the generator can produce, and the rejected one needs a search over fields and parameters.", "anchors": ["poseidon2_rust_params.sage:204-226", "src/poseidon/poseidon_params.rs:24-100"]}
{"id": "C96", "title": "Poseidon parameters with rows of different lengths", "statement": "PoseidonParams::new rejects every matrix with a row shorter than the first. A matrix with longer rows is accepted exactly if its square part is accepted and, in debug builds, all surplus entries are zero; the permutations are then those of the square part. mat_inverse ignores surplus entries in release builds and panics on non-zero ones in debug builds. Hence the two permutations agree for every accepted parameter set, without a condition on the shape of the matrix; in debug builds without any condition at all.", "quantifier": "all fields, widths, degrees, round numbers, matrices of any shape, constants of any shape (release: with rows for the partial rounds that are long enough), inputs; debug and release builds", "why_tests_cant": "The tests use the shipped square matrices only; which shapes the nested vectors may have is never exercised.", "anchors": ["src/poseidon/poseidon_params.rs:24-124", "src/utils.rs:10-105", "src/poseidon/poseidon.rs:22-76", "src/poseidon/poseidon.rs:133-145"]}
{"id": "C97", "title": "PoseidonParams::new: exact success condition for arguments of any shape", "statement": "For round numbers whose sum fits in usize, PoseidonParams::new returns exactly if d is 3, 5 or 7, R_F is even, t >= 2, R_P >= 1, the matrix has t rows, the first of length t and no shorter one (with zero surplus entries in debug builds), the leading blocks of its square part and of the powers of its submatrix are invertible, and the constants of the partial rounds have the right lengths: the first row at least t, the middle rows exactly t, the last row exactly t in debug and at most t in release builds; rows of full rounds are not looked at, and a single partial round may have any row. Otherwise it panics.", "quantifier": "all fields, widths, degrees, round numbers, matrices and constants of any shape; debug and release builds", "why_tests_cant": "The tests pass well-formed arguments; the exact boundary is about all ill-formed ones, and differs between the two builds.", "anchors": ["src/poseidon/poseidon_params.rs:24-153", "src/utils.rs:10-105"]}
{"id": "C98", "title": "What a debug build returns, a release build returns too", "statement": "If mat_inverse, a constructor, a permutation, compress or a Merkle accumulate returns a value in a debug build, the release build returns the same value, for arguments of any shape and any parameters. The converse is false: release builds accept Poseidon constants that debug builds reject.", "quantifier": "all fields, parameters, matrices, inputs and sets without conditions; one witness for the refutation of the converse", "why_tests_cant": "Tests run in one profile; this is about all arguments in both, also those that are badly shaped.", "anchors": ["src/utils.rs:10-92", "src/poseidon/poseidon_params.rs:24-138", "src/poseidon/poseidon.rs:22-164", "src/poseidon2/poseidon2_params.rs:24-89", "src/poseidon2/poseidon2.rs:25-53", "src/gmimc/gmimc.rs:61-120", "src/neptune/neptune.rs:233-264", "src/merkle_tree/merkle_tree_fp.rs:22-64", "src/merkle_tree/merkle_tree_f2.rs:22-70"]}
{"id": "C99", "title": "Poseidon in debug builds: exactly when permutation and compress return", "statement": "For every parameter set that PoseidonParams::new accepts in a debug build, permutation and permutation_not_opt return exactly if the input has t elements and each of the R_F + R_P rounds has a row of at least t constants; the value is then the reference permutation of the square part of the matrix. Otherwise both panic. compress returns exactly if in addition t = 3 and at least two elements are given; further elements are ignored.", "quantifier": "all fields, accepted parameters of any shape, and inputs of any length; debug builds", "why_tests_cant": "The constructor accepts full-round constants of any shape, so that a parameter set can be accepted and never run; tests only use well-formed instances.", "anchors": ["src/poseidon/poseidon.rs:22-164", "src/poseidon/poseidon_params.rs:24-75"]}
{"id": "C100", "title": "Poseidon in release builds: exactly when the permutations return", "statement": "For every parameter set that PoseidonParams::new accepts in a release build, with R_F + R_P in the range of usize, permutation returns exactly if the input has t elements and, unless R_F = 0, there are at least R_F + R_P rows of constants, of any lengths. permutation_not_opt needs in addition that no row of a partial round is empty. Otherwise they panic; there is no third outcome.", "quantifier": "all fields, accepted parameters of any shape, and inputs of any length; release builds", "why_tests_cant": "Short rows of constants are silently zipped in release builds and make debug builds panic; no test has such rows, and none compares the builds.", "anchors": ["src/poseidon/poseidon.rs:22-158", "src/poseidon/poseidon_params.rs:24-75"]}
{"id": "C101", "title": "mat_inverse and the Poseidon2 equivalent round constants: exact success condition for arguments of any shape", "statement": "mat_inverse returns exactly if the matrix has a row, its first row is as long as there are rows, no row is shorter, the leading blocks of its square part are invertible and, in debug builds, all surplus entries are zero. Poseidon2Params::equivalent_round_constants returns, for at least two rows and round numbers in the range of usize, exactly if in addition R_P >= 1 and the constants of the partial rounds have the lengths stated in C97. Otherwise both panic.", "quantifier": "all fields, matrices, constants and round numbers, of any shape; debug and release builds", "why_tests_cant": "The tests invert square matrices and pass well-formed constants; the boundary concerns all other arguments and differs between the builds.", "anchors": ["src/utils.rs:10-92", "src/poseidon2/poseidon2_params.rs:52-89"]}
{"id": "C102", "title": "Release builds of Poseidon replace words without a round constant by zero", "statement": "Whenever permutation_not_opt returns in a release build (C100), its value is the reference permutation with one change: in every round the words for which the row of constants has no entry are set to zero. So two inputs that agree on the words with a constant in the first full round give the same result of both permutations, and the claim that every accepted and running parameter set gives an injective function is false.", "quantifier": "all fields, accepted parameters of any shape and inputs; one witness for the refutation", "why_tests_cant": "add_rc zips silently; tests use complete rows, and the debug profile in which tests run panics instead (C99).", "anchors": ["src/poseidon/poseidon.rs:53-76", "src/poseidon/poseidon.rs:133-158", "src/poseidon/poseidon_params.rs:24-55"]}
