{"id": "C01", "title": "Optimized hashing equals unoptimized hashing for every shipped rate", "statement": "For each of the seven shipped parameter sets RATE_1_PARAMS..RATE_7_PARAMS and every array of input words, Instance::n_to_1_fixed_hash and Instance::unoptimized_n_to_1_fixed_hash return the same field element and leave the same output_words().", "quantifier": "all seven parameter sets, all input arrays in Fq^t (about 2^(253 t) of them), all prior states of the instance", "why_tests_cant": "the input space has 2^506 to 2^2024 points; the repository's proptest samples a few hundred inputs for rate 4 only", "anchors": ["poseidon377/src/hash.rs: hash_1..hash_7", "poseidon-permutation/src/permutation.rs: Instance::n_to_1_fixed_hash, unoptimized_n_to_1_fixed_hash, permute, unoptimized_permute", "poseidon377/src/params/rate_*.rs"]}
{"id": "C02", "title": "hash_n computes the textbook Poseidon permutation", "statement": "For n = 1..7, every domain separator and every n-tuple of values, hash_n returns word 1 of the textbook Poseidon permutation (4 full rounds, 31 partial rounds, 4 full rounds; each round adds the round constants, applies x^17 to all words or to word 0 only, and multiplies by the t x t matrix with entries 1/(i+t+j)) applied to the state [domain_separator, values...].", "quantifier": "all n in 1..7, all domain separators, all value tuples", "why_tests_cant": "test vectors cover one input per rate (none for rate 7); agreement with the definition must hold on the whole input space", "anchors": ["poseidon377/src/hash.rs: hash_1..hash_7", "poseidon-permutation/src/permutation.rs: Instance::permute", "poseidon377/src/lib.rs: RATE_n_PARAMS"]}
{"id": "C03", "title": "The permutation underlying each hash is a bijection", "statement": "For every shipped parameter set, the map from input words to output_words() after hashing is a bijection of Fq^t: two different inputs never leave the same output words and every output is reached.", "quantifier": "all pairs of inputs in Fq^t for t = 2..8", "why_tests_cant": "injectivity is a statement about all pairs of inputs", "anchors": ["poseidon-permutation/src/permutation.rs: Instance::n_to_1_fixed_hash, output_words", "poseidon377/src/params/rate_*.rs"]}
{"id": "C04", "title": "The S-box x^17 is a bijection of Fq", "statement": "The modulus of Fq is prime, 17 is coprime to q-1, and raising to the power 17 is a bijection of Fq.", "quantifier": "all field elements", "why_tests_cant": "about 2^253 elements; depends on primality of the modulus", "anchors": ["poseidon377/src/params/rate_*.rs: alpha", "poseidon-permutation/src/permutation.rs: full_sub_words, partial_sub_words"]}
{"id": "C05", "title": "Hash results do not depend on instance history", "statement": "For every sequence of hash calls (optimized or not) made on one Instance, the result and output_words() of the last call are those of a fresh Instance given only the last input. Before the first call output_words() is the zero state.", "quantifier": "all finite sequences of operations on an Instance, all inputs, all parameter sets", "why_tests_cant": "ranges over unbounded histories", "anchors": ["poseidon-permutation/src/permutation.rs: Instance::new, n_to_1_fixed_hash, unoptimized_n_to_1_fixed_hash, output_words"]}
{"id": "C06", "title": "Hashing with shipped parameters never panics", "statement": "For every shipped parameter set and every input, both hash entry points return normally (no index out of bounds, no subtraction underflow, no division by zero).", "quantifier": "all inputs in Fq^t, t = 2..8", "why_tests_cant": "absence of panics must hold on all inputs", "anchors": ["poseidon377/src/hash.rs", "poseidon-permutation/src/permutation.rs"]}
{"id": "C07", "title": "The returned hash is word 1 of output_words()", "statement": "Whenever n_to_1_fixed_hash (or the unoptimized variant) returns normally, its result is output_words()[1] observed right after the call; for a one-word state both panic.", "quantifier": "all parameter sets, all inputs, all prior states", "why_tests_cant": "all parameters and inputs", "anchors": ["poseidon-permutation/src/permutation.rs: n_to_1_fixed_hash, output_words"]}
{"id": "C08", "title": "General optimization theorem", "statement": "For every state width t >= 1, every even number of full rounds, every number r_P >= 1 of partial rounds, every S-box (positive exponent or inverse): if the optimized matrices and constants satisfy the sparse factorization equations with respect to the MDS matrix and round constants, then the optimized and unoptimized permutations have the same outcome (the same output words, or both panic) on every input.", "quantifier": "all widths, round numbers, exponents, matrices, constants and inputs", "why_tests_cant": "unbounded parameter and input space", "anchors": ["poseidon-permutation/src/permutation.rs: permute, unoptimized_permute, sparse_mat_mul, mix_layer_mi", "poseidon-parameters/src/arc_matrix.rs: OptimizedArcMatrix", "poseidon-parameters/src/mds_matrix.rs: OptimizedMdsMatrices"]}
{"id": "C09", "title": "R1CS gadget is sound", "statement": "For n = 1..7: in any assignment satisfying the constraints generated by r1cs::hash_n, the value of the returned variable equals the native hash_n of the values of the input variables.", "quantifier": "all assignments (including adversarial witnesses), all mixtures of constant and allocated inputs with at least one allocated, any pre-existing constraints", "why_tests_cant": "a malicious prover can choose any witness; tests only try honest ones", "anchors": ["poseidon377/src/r1cs.rs: hash_1..hash_7", "poseidon-permutation/src/r1cs.rs: InstanceVar::n_to_1_fixed_hash, permute"]}
{"id": "C10", "title": "R1CS gadget is complete", "statement": "For n = 1..7 and every assignment of the input variables satisfying the earlier constraints, the witness values computed by the gadget extend it to an assignment satisfying all generated constraints; the gadget returns Ok and never panics.", "quantifier": "all input values, both synthesis modes, all mixtures of constant and allocated inputs with at least one allocated (see C47)", "why_tests_cant": "all inputs", "anchors": ["poseidon377/src/r1cs.rs", "poseidon-permutation/src/r1cs.rs"]}
{"id": "C11", "title": "R1CS witness is unique", "statement": "Given values for the input variables, there is exactly one assignment of the auxiliary variables allocated by r1cs::hash_n that satisfies its constraints (no witness malleability).", "quantifier": "all pairs of satisfying assignments", "why_tests_cant": "quantifies over all satisfying assignments", "anchors": ["poseidon377/src/r1cs.rs", "poseidon-permutation/src/r1cs.rs"]}
{"id": "C12", "title": "Circuit shape does not depend on values", "statement": "The number of constraints and variables added by r1cs::hash_n, and the constraints themselves, do not depend on the assigned values; with all inputs allocated exactly 5*(8(n+1)+31) constraints are added, and with a constant domain separator exactly 5*(8(n+1)+30).", "quantifier": "all input values and both synthesis modes", "why_tests_cant": "proving keys are fixed once; the shape must be the same for every witness", "anchors": ["poseidon377/src/r1cs.rs", "poseidon-permutation/src/r1cs.rs", "poseidon-tests/tests/poseidon377_r1cs.rs"]}
{"id": "C13", "title": "R1CS gadget rejects the inverse S-box", "statement": "For any parameter set with Alpha::Inverse and at least one round, InstanceVar::n_to_1_fixed_hash panics instead of producing an unconstrained circuit.", "quantifier": "all parameter sets with inverse alpha, all inputs", "why_tests_cant": "all parameters", "anchors": ["poseidon-permutation/src/r1cs.rs: full_sub_words, partial_sub_words"]}
{"id": "C14", "title": "Shipped mixing matrices are MDS", "statement": "For each shipped parameter set every square submatrix of the MDS matrix is invertible.", "quantifier": "all row and column selections of every size", "why_tests_cant": "the tests check one determinant of one matrix", "anchors": ["poseidon377/src/params/rate_*.rs: mds", "poseidon-paramgen/src/mds.rs: fixed_cauchy_matrix"]}
{"id": "C15", "title": "Shipped derived matrices are correct", "statement": "In each shipped parameter set M_inverse and M_hat_inverse are two-sided inverses of the MDS matrix and of its lower right block, M_hat, v, w, M_00 are the blocks of the MDS matrix, M' and M'' multiply to the MDS matrix and M'' has (t-1)^2-(t-1) zeros and t-1 ones.", "quantifier": "all seven parameter sets", "why_tests_cant": "no test in the workspace looks at these fields", "anchors": ["poseidon377/src/params/rate_*.rs: optimized_mds", "poseidon-parameters/src/mds_matrix.rs: OptimizedMdsMatrices"]}
{"id": "C16", "title": "Shipped constants are canonical", "statement": "Every field element constant in the shipped parameter sets is given by Montgomery limbs below 2^64 whose integer is below the modulus, so equality of limbs is equality of elements; array lengths match the declared shapes.", "quantifier": "all constants of all parameter sets", "why_tests_cant": "no test inspects representation", "anchors": ["poseidon377/src/params/rate_*.rs"]}
{"id": "C17", "title": "Odd numbers of full rounds are rounded down", "statement": "For every parameter set with an odd number of full rounds r_F, the permutation performs only r_F - 1 full rounds; the last row of round constants is never used by the unoptimized permutation.", "quantifier": "all parameter sets with odd r_F, all inputs", "why_tests_cant": "all parameters and inputs", "anchors": ["poseidon-permutation/src/permutation.rs: permute, unoptimized_permute"]}
{"id": "C18", "title": "Zero partial rounds panic in the optimized permutation", "statement": "With r_P = 0 the optimized hash panics (usize underflow) while the unoptimized hash may return normally.", "quantifier": "all parameter sets with r_P = 0", "why_tests_cant": "all parameters", "anchors": ["poseidon-permutation/src/permutation.rs: permute"]}
{"id": "C19", "title": "Matrix construction succeeds exactly on matching shapes", "statement": "Matrix::new / new_from_known / SquareMatrix::new return a matrix holding exactly the given elements in row-major order when the element count equals rows*cols and the slice length, and panic otherwise.", "quantifier": "all shapes and slices", "why_tests_cant": "all shapes", "anchors": ["poseidon-parameters/src/matrix.rs: Matrix::new, new_from_known", "poseidon-parameters/src/mds_matrix.rs: MdsMatrix::new"]}
{"id": "C20", "title": "get_element / set_element behave as a 2D array", "statement": "On in-range indices reading after writing returns the written value at that position and leaves every other position unchanged; indices past the end panic; a column index past n_cols is not rejected but aliases the next row.", "quantifier": "all shapes, indices, values", "why_tests_cant": "all shapes and indices", "anchors": ["poseidon-parameters/src/matrix.rs: get_element, set_element"]}
{"id": "C21", "title": "Transpose swaps indices and is an involution", "statement": "For every well-formed matrix, transpose never panics, (A^T)[i][j] = A[j][i], and transposing twice gives the original.", "quantifier": "all shapes and contents", "why_tests_cant": "all shapes", "anchors": ["poseidon-parameters/src/matrix.rs: transpose", "poseidon-parameters/src/arc_matrix.rs: transpose", "poseidon-parameters/src/mds_matrix.rs: transpose"]}
{"id": "C22", "title": "Matrix multiplication is correct and checks conformability", "statement": "mat_mul / square_mat_mul return the mathematical product for conformable well-formed matrices with a matching result size, and panic when inner dimensions differ (non-empty operands) or the result size is wrong.", "quantifier": "all shapes and contents", "why_tests_cant": "all shapes", "anchors": ["poseidon-parameters/src/matrix.rs: mat_mul, square_mat_mul", "poseidon-parameters/src/matrix_ops.rs: dot_product"]}
{"id": "C23", "title": "Hadamard and scalar products are element-wise", "statement": "hadamard_product always returns Ok with element-wise products; multiplying by a scalar multiplies each element.", "quantifier": "all shapes and contents", "why_tests_cant": "all shapes", "anchors": ["poseidon-parameters/src/matrix.rs: hadamard_product, Mul<Fq>"]}
{"id": "C24", "title": "Identity matrix is neutral", "statement": "SquareMatrix::identity() is the identity: multiplying by it on either side changes nothing.", "quantifier": "all sizes and matrices", "why_tests_cant": "all sizes", "anchors": ["poseidon-parameters/src/matrix.rs: identity, square_mat_mul"]}
{"id": "C25", "title": "determinant() is the determinant", "statement": "For square matrices of size 1..8 determinant() is the Leibniz determinant (hence multiplicative, and zero exactly for singular matrices); sizes 0 and above 8 panic.", "quantifier": "all matrices of sizes 1..8 over the field", "why_tests_cant": "infinitely many matrices; tests only check singular examples", "anchors": ["poseidon-parameters/src/matrix.rs: determinant"]}
{"id": "C26", "title": "inverse() returns the inverse exactly when it exists", "statement": "For sizes 2..8 inverse() returns Ok(B) with A*B = B*A = I when det A != 0 and Err(NoMatrixInverse) when det A = 0; for size 1 it returns the reciprocal of a nonzero element; its debug assertion never fires. For the 1x1 zero matrix it panics instead of returning Err.", "quantifier": "all matrices of sizes 1..8", "why_tests_cant": "all matrices", "anchors": ["poseidon-parameters/src/matrix.rs: inverse"]}
{"id": "C27", "title": "minors() and cofactors() are the minors and signs", "statement": "For sizes 2..8 minors()[i][j] is the determinant of the matrix without row i and column j, cofactors()[i][j] is (-1)^(i+j); Laplace expansion holds.", "quantifier": "all matrices of sizes 1..8", "why_tests_cant": "all matrices", "anchors": ["poseidon-parameters/src/matrix.rs: minors, cofactors, minor_matrix"]}
{"id": "C28", "title": "row_vector panics on every matrix with more than one row", "statement": "row_vector(i) returns the row only when the matrix has exactly one row; for every matrix with at least two rows and at least one column, every call panics (the declared element count of the result is that of the whole matrix).", "quantifier": "all shapes, all row indices", "why_tests_cant": "no test calls it; the claim covers all shapes", "anchors": ["poseidon-parameters/src/matrix.rs: row_vector"]}
{"id": "C29", "title": "dot_product checks lengths", "statement": "dot_product returns the sum of products for equal length slices and panics exactly when lengths differ.", "quantifier": "all pairs of slices", "why_tests_cant": "all slices", "anchors": ["poseidon-parameters/src/matrix_ops.rs: dot_product"]}
{"id": "C30", "title": "MdsMatrix accessors return the blocks of the matrix", "statement": "For t >= 2, v() is the first row without its first entry, w() the first column without its first entry, hat() the matrix without first row and column; inverse() panics exactly when the matrix is singular (t = 1..8).", "quantifier": "all sizes and contents", "why_tests_cant": "all matrices", "anchors": ["poseidon-parameters/src/mds_matrix.rs: v, w, hat, inverse"]}
{"id": "C31", "title": "Alpha byte encoding", "statement": "Alpha::to_bytes_le is little-endian and injective on exponents, but Alpha::Exponent(u32::MAX) and Alpha::Inverse have the same encoding.", "quantifier": "all u32 exponents", "why_tests_cant": "2^32 squared pairs", "anchors": ["poseidon-parameters/src/alpha.rs: to_bytes_le"]}
{"id": "C32", "title": "Exponent selection yields a valid S-box", "statement": "For every prime p > 128, alpha generation returns the first odd exponent in the addition-chain table coprime to p-1 (hence x^alpha is a bijection of F_p), returns Inverse only if none is coprime and inverses are allowed, and panics exactly when none is coprime and inverses are not allowed.", "quantifier": "all primes", "why_tests_cant": "all fields", "anchors": ["poseidon-paramgen/src/alpha.rs: generate, alpha_coprime_to_p_minus_one"]}
{"id": "C33", "title": "Generated Cauchy matrix is MDS", "statement": "For every field with a prime p of at least 128 bits and every width 1..8 the generated matrix has entries 1/(i+t+j); other widths and smaller fields panic. For every t with 3t <= p no division by zero occurs while the entries are computed, and every square submatrix of the matrix is invertible.", "quantifier": "all widths and primes", "why_tests_cant": "all t and p", "anchors": ["poseidon-paramgen/src/mds.rs: v1_generate, fixed_cauchy_matrix"]}
{"id": "C34", "title": "Generated optimized matrices satisfy the factorization", "statement": "For every width 2..8, generating the optimized matrices succeeds exactly when the matrix and its lower right block are invertible and M'' has no 0 or 1 in its first row and column; the result then holds the inverses and blocks it claims to hold, M' M'' = M, and the vectors satisfy the sparse factorization equations. The equivalent-matrices step alone panics exactly when the lower right block is singular.", "quantifier": "all matrices over all fields, all numbers of partial rounds >= 1", "why_tests_cant": "all matrices", "anchors": ["poseidon-paramgen/src/mds.rs: calc_equivalent_matrices, generate_optimized, prime, doubleprime"]}
{"id": "C35", "title": "Generated optimized round constants are equivalent", "statement": "For every even r_F and r_P >= 1, the optimized round constants (computed exactly when the matrix is invertible) satisfy the equations that make the optimized permutation equal to the original one; for odd r_F they do not (concrete counterexample). With row_vector of the present matrix library the computation panics.", "quantifier": "all constants, all matrices, all round numbers", "why_tests_cant": "all parameters", "anchors": ["poseidon-paramgen/src/round_constants.rs: generate_optimized"]}
{"id": "C36", "title": "Generated parameter sets hash consistently", "statement": "Every parameter set produced by the Poseidon1 generator (width 2..8, even r_F) gives equal optimized and unoptimized hashes on every input, and a bijective permutation.", "quantifier": "all generator inputs for which generation succeeds, all hash inputs", "why_tests_cant": "all parameters and inputs", "anchors": ["poseidon-paramgen/src/v1.rs: generate", "poseidon-permutation/src/permutation.rs"]}
{"id": "C37", "title": "Shipped parameters are reproducible", "statement": "Each shipped parameter set is exactly the output of the Poseidon1 generator for M = 128, t = rate+1, p = q: MDS matrix, Merlin-transcript round constants, optimized matrices and optimized constants.", "quantifier": "all seven parameter sets, all 5824 constants", "why_tests_cant": "the generator crate is excluded from the workspace, so no test compares them", "anchors": ["poseidon-paramgen/src/v1.rs: generate", "poseidon377/src/params/rate_*.rs"]}
{"id": "C38", "title": "Round-constant transcript binds its inputs", "statement": "Two generator calls with different (t, M, p, alpha) or with round numbers below 256 that differ feed different messages to the transcript; round numbers equal modulo 256 are indistinguishable (encoded in one byte).", "quantifier": "all pairs of generator inputs", "why_tests_cant": "all pairs", "anchors": ["poseidon-paramgen/src/transcript.rs: domain_sep"]}
{"id": "C39", "title": "Number of generated round constants; v2 is a prefix of v1", "statement": "v1 generation yields (r_F+r_P)*t constants and v2 yields r_F*t+r_P; for equal inputs the v2 constants are a prefix of the v1 constants, because both use the same transcript; every constant is reduced modulo p.", "quantifier": "all inputs and all transcripts", "why_tests_cant": "all inputs", "anchors": ["poseidon-paramgen/src/round_constants.rs: v1_generate, v2_generate", "poseidon-paramgen/src/transcript.rs"]}
{"id": "C40", "title": "Round-number search returns the cheapest secure choice", "statement": "When the search returns round numbers, they are some secure candidate (1 <= r_P < 400, 4 <= r_F < 100) plus the margin, no other candidate is cheaper, ties go to fewer full rounds; it panics exactly when no candidate is secure (or M > 256 for v1, or the inverse S-box for v2). When the additional Poseidon2 test accepts the Poseidon1 choice both searches agree.", "quantifier": "all security levels, widths, exponents and moduli", "why_tests_cant": "the search space per input has 38304 candidates and inputs are unbounded", "anchors": ["poseidon-paramgen/src/rounds.rs: v1_generate, v2_generate, RoundNumbersBuilder"]}
{"id": "C41", "title": "Security margin", "statement": "The margin adds exactly 2 full rounds and brings partial rounds to ceil(1.075 r_P) for every candidate, as computed in 64-bit floating point.", "quantifier": "all candidates 1..399", "why_tests_cant": "floating-point rounding must be right for all candidates", "anchors": ["poseidon-paramgen/src/rounds.rs: apply_security_margin"]}
{"id": "C42", "title": "Shipped round numbers are what the generator selects", "statement": "For M = 128, alpha = 17, the modulus of Fq and t = 2..8 the search returns r_F = 8, r_P = 31, for every floating-point logarithm within a small error.", "quantifier": "t = 2..8, all admissible logarithm implementations", "why_tests_cant": "libm results are platform dependent", "anchors": ["poseidon-paramgen/src/rounds.rs: v1_generate", "poseidon377/src/params/rate_*.rs: rounds"]}
{"id": "C43", "title": "Search selects 8 or 12 full rounds for widths up to 128", "statement": "For widths 2..128, exponent S-boxes and security levels at most 256 the search succeeds and selects 8 or 12 full rounds, an even number (so no full round is dropped by the permutation), whatever the modulus. For width 420 it selects 23 full rounds, for width 500 it panics.", "quantifier": "all M <= 256, all moduli, all exponents >= 3, t in 2..128, all accurate logarithm implementations", "why_tests_cant": "all inputs", "anchors": ["poseidon-paramgen/src/rounds.rs: v1_generate", "poseidon-permutation/src/permutation.rs: permute"]}
{"id": "C44", "title": "log2 of the modulus", "statement": "log2 terminates, never panics, is within 2^-34 of its value in exact arithmetic, which never exceeds the true binary logarithm, has the right integer part, and is off by less than log2(5/4); the error can be as large as 0.32, and with a correctly rounded library log2 the integer part can be one too large (2^50 - 1).", "quantifier": "all big integers 1 <= x < 2^1024, all accurate logarithm implementations", "why_tests_cant": "all moduli", "anchors": ["poseidon-paramgen/src/utils.rs: log2"]}
{"id": "C45", "title": "Poseidon2 matrices", "statement": "The internal matrices for t = 2, 3 are invertible; generation for t >= 4 panics (so v2::generate panics for all t >= 4 although an external matrix exists); the external matrix for t = 4k has 2*M4 on diagonal blocks and M4 elsewhere and is invertible whenever k+1 and det M4 are nonzero in the field.", "quantifier": "all t", "why_tests_cant": "all widths", "anchors": ["poseidon-paramgen/src/v2.rs: generate", "poseidon-paramgen/src/v2/internal.rs: generate", "poseidon-paramgen/src/v2/external.rs: generate"]}
{"id": "C46", "title": "Generated source code round-trips", "statement": "The decimal rendering of a nonempty slice of field elements in generated code parses back to the same elements in the same order; for an empty slice the emitted text is the malformed \"vec]\".", "quantifier": "all slices of field elements", "why_tests_cant": "all slices", "anchors": ["poseidon-paramgen/src/poseidon_build.rs: serialize_slice_f, serialize_slice_of_vecs_f"]}
{"id": "C47", "title": "R1CS gadget on constants only", "statement": "If every input word of InstanceVar::n_to_1_fixed_hash is a constant and there is at least one round, the gadget panics in its first mix layer (the external Sum of no variable panics), instead of returning a wrong or unconstrained result.", "quantifier": "all parameter sets, all constant inputs, all constraint systems", "why_tests_cant": "all inputs; the tests only use allocated preimages", "anchors": ["poseidon-permutation/src/r1cs.rs: mix_layer_mds"]}
{"id": "C48", "title": "Round-constant sampling bias", "statement": "Each round constant is a challenge of (bits(p)+135)/8 bytes reduced modulo p; this is at least 128 bits more than the modulus, and for every residue the number of byte strings mapping to it is N/p rounded down or up with N/p >= 2^128, so each residue is hit with probability 1/p up to a relative error of 2^-128.", "quantifier": "all prime fields, all residues", "why_tests_cant": "A counting statement over 2^384 byte strings; a test sees a few samples.", "anchors": ["poseidon-paramgen/src/transcript.rs:37-42"]}
{"id": "C49", "title": "Parameter generation never panics on supported inputs", "statement": "Once an exponent and round numbers (r_P >= 1) are found, Poseidon1 parameter generation succeeds for every width 2..8 and every prime of at least 128 bits (all assertions on the number of zeros and ones of M'' hold); it panics for every other width and every smaller prime.", "quantifier": "all primes, widths, exponents, round numbers, transcripts", "why_tests_cant": "all primes", "anchors": ["poseidon-paramgen/src/v1.rs: generate", "poseidon-paramgen/src/mds.rs: generate_optimized"]}
{"id": "C50", "title": "Closed form of the round-number search", "statement": "For exponent S-boxes and M <= 256 the search equals a closed formula: with s the statistical bound and n one more than the larger of the two algebraic bounds, it selects max(s, n-399) full and max(1, n-full) partial rounds, plus the margin, and panics if n > 498.", "quantifier": "all inputs with t >= 2, all logarithm implementations", "why_tests_cant": "all inputs; the search visits 38304 candidates", "anchors": ["poseidon-paramgen/src/rounds.rs: v1_generate, is_secure_v1"]}
{"id": "C51", "title": "Tables 7, 8 and 9 of the Poseidon paper", "statement": "For every row and prime of appendix_g.rs the search returns the round numbers of the paper's tables, for x^3 and x^5 with both searches, for the inverse S-box with the Poseidon1 search.", "quantifier": "30 rows, all accurate logarithm implementations", "why_tests_cant": "tests run with one mathematical library; the theorem covers every library of relative error 2^-40", "anchors": ["poseidon-paramgen/src/appendix_g.rs", "poseidon-paramgen/src/rounds.rs: v1_generate, v2_generate"]}
{"id": "C52", "title": "The Poseidon1 generator as a whole", "statement": "For every prime p >= 2^127, widths 2..8 and M <= 256, if an exponent exists the generator with its own round-number search returns parameters, with 8 or 12 full rounds; for every returned set with an exponent the optimized permutation is the textbook permutation with the Cauchy matrix and the transcript's constants, the optimized and unoptimized hashes agree, and the permutation is a bijection.", "quantifier": "all primes, widths, levels, transcripts and accurate logarithm implementations, all states", "why_tests_cant": "all fields and all states", "anchors": ["poseidon-paramgen/src/v1.rs: generate", "poseidon-paramgen/src/rounds.rs: v1_generate", "poseidon-permutation/src/permutation.rs: permute"]}
{"id": "C53", "title": "The inverse S-box", "statement": "With the inverse S-box the permutations return the textbook permutation with x -> 1/x when no S-box along the computation receives zero, and panic otherwise; the optimized and the plain permutation agree on generated parameter sets.", "quantifier": "all well-formed parameter sets with alpha = -1, all fields, all states", "why_tests_cant": "no shipped parameter set uses the inverse S-box; zero inputs are never sampled", "anchors": ["poseidon-permutation/src/permutation.rs: full_sub_words, partial_sub_words"]}
{"id": "C54", "title": "The additional Poseidon2 security check", "statement": "The extra Groebner-basis check of Poseidon2 rejects a candidate exactly when no binomial coefficient C(upper, k), 1 <= k <= lower, has at least M/2 bits, with upper and lower as in the paper; for the modulus q, M = 128 and widths 2..8 the Poseidon2 search selects 8 full and 31 partial rounds like Poseidon1.", "quantifier": "all inputs with t < 2^40 and upper < 2^49; all accurate mathematical libraries", "why_tests_cant": "tests compare a few prime fields", "anchors": ["poseidon-paramgen/src/rounds.rs: algebraic_attack_grobner_basis_v2_possible, v2_generate"]}
{"id": "C55", "title": "Generated parameter files", "statement": "When the compiler for Poseidon1 parameter files returns, its text is a well-formed program with one function rate_{t-1} per requested width, in order, and calling that function returns exactly the generated parameter set; the compiler returns iff no generation panics; a repeated width gives a program that is rejected (two functions of one name); the Poseidon2 file compiler panics on every nonempty list of widths; on the empty list it writes imports only, one of which (Matrix) poseidon_parameters::v2 does not export.", "quantifier": "all primes, security levels, lists of widths, transcripts, logarithm implementations", "why_tests_cant": "the round trip goes through a build script and a second compilation; only a few widths and fields are ever compiled", "anchors": ["poseidon-paramgen/src/poseidon_build.rs: v1_compile, v2_compile, DisplayablePoseidonParameters"]}
{"id": "C56", "title": "The reference script computes the same permutation", "statement": "In poseidonperm_x17.sage, perm_original is the textbook Poseidon permutation and perm (with moved constants and sparse matrices) returns the same words, or raises exactly when the lower right block of the matrix is singular or (with more than one partial round) the matrix is; the generator's calc_equivalent_matrices and ARC optimisation return the script's values; for every shipped parameter set both Rust permutations equal the script's, and the shipped M_i, M_00, v, w_hat and optimized constants are the script's; the numbers printed in the script (prime, round numbers, 117 constants, matrix) are the rate-2 parameters, so its final assertion holds for every input.", "quantifier": "all fields, widths, matrices, constants, even R_F, positive R_P and all states; the seven shipped parameter sets", "why_tests_cant": "the script asserts agreement of its two permutations on one input and needs Sage; one Rust test compares two of the 31 v and w_hat vectors and M_i for width 3 with values printed by the script", "anchors": ["poseidonperm_x17.sage: calc_equivalent_constants, calc_equivalent_matrices, cheap_matrix_mul, perm, perm_original", "poseidon-paramgen/src/mds.rs: calc_equivalent_matrices", "poseidon-paramgen/src/round_constants.rs: generate_optimized", "poseidon377/src/params/rate_2.rs"]}
{"id": "C57", "title": "No subspace trails through the partial rounds", "statement": "Algorithms 2 and 3 of the vendored Sage script accept a matrix exactly when no proper subspace containing word 0 is stable under M^r (r = 1, and 2..4t); algorithm 1 on an invertible matrix rejects every matrix with a difference that stays inactive forever. Over Fq the matrices 1/(i+t+j) for t = 1..12, hence every matrix the generator returns and every shipped matrix, have no inactive and no active subspace trail of period up to 4t and are accepted by all three algorithms; two different states differ in an S-box input within t consecutive partial rounds; the internal Poseidon2 matrices of widths 2 and 3 have no such trails either, although both have eigenvectors.", "quantifier": "all subspaces of Fq^t, all periods up to 4t, all pairs of states; the algorithms for all matrices over all fields", "why_tests_cant": "the doc comment says the matrices were checked empirically; no test in the repository runs the algorithms, and subspaces of Fq^t cannot be enumerated", "anchors": ["poseidon-paramgen/src/mds.rs: fixed_cauchy_matrix (doc comment)", "vendor/hadeshash/code/generate_parameters_grain.sage: algorithm_1, algorithm_2, algorithm_3, generate_matrix", "poseidon-paramgen/src/v2/internal.rs: generate", "poseidon377/src/params/: rate1..rate7"]}
{"id": "C58", "title": "Two runs of a shipped permutation differ in at least 4(t+1) + 31/t S-box inputs", "statement": "A t x t matrix with all square submatrices invertible (every matrix generate_mds returns and every shipped one) has branch number t+1; for an injective S-box, an invertible matrix of branch number b without inactive trails, and any round constants, the inputs of at least 2*floor(R_f/2)*b + floor(R_P/t) S-boxes differ between the runs on two distinct states, R_f full rounds on either side; for each shipped parameter set that is 4(t+1) + floor(31/t), counted along the states that permute goes through.", "quantifier": "all pairs of distinct states; all fields, widths, S-boxes, constants and round counts for the general bound", "why_tests_cant": "there are q^(2t) pairs of states, and the minimum is over all of them", "anchors": ["poseidon-permutation/src/permutation.rs: permute, full_sub_words, partial_sub_words, mix_layer_mds", "poseidon-paramgen/src/mds.rs: MdsMatrix::generate", "poseidon-paramgen/src/rounds.rs: statistical_attack_full_rounds", "poseidon377/src/params/*.rs"]}
{"id": "C59", "title": "The S-boxes have differential uniformity at most 16 (x^17), e-1 (x^e), 4 (x^-1)", "statement": "For e > 1 with e nonzero in the field and a nonzero a, at most e-1 inputs x have (x+a)^e - x^e = b; for the shipped S-box x^17 over Fq that is 16. For the inverse S-box at most 4 inputs have the output difference b, at most 2 of them with x and x+a nonzero (for zero the code panics).", "quantifier": "all fields and exponents e > 1 not divisible by the characteristic; all input and output differences", "why_tests_cant": "there are q^2 pairs of differences and q inputs", "anchors": ["poseidon-parameters/src/alpha.rs", "poseidon-permutation/src/permutation.rs: full_sub_words, partial_sub_words", "poseidon-paramgen/src/rounds.rs: statistical_attack_full_rounds"]}
{"id": "C60", "title": "The script's attack-cost checks hold for every rate", "statement": "With the script's numbers, the cost of eigenpolynomial computation is at least 8(8 r_in + 31) >= 128 bits for all positive r_in, r_out, and the root-extraction expression takes the branch D > q and is at least 1260(8 r_in + 36) >= 128 for all r_in.", "quantifier": "all rates r_in, r_out, over the real numbers", "why_tests_cant": "the script prints the comparison in floating point for six rates", "anchors": ["poseidonperm_x17.sage: resist_eigenpolynomial_computation, resist_root_extraction"]}
{"id": "C61", "title": "The statistical check bounds differential characteristics", "statement": "If statistical_attack_full_rounds returns 6, then M <= (log2 p - log2 d)(t+1) + 2^-20 with d = e-1 or 4 the uniformity of C59, rounding errors included; hence for every generated matrix and exponent (prime below 2^1024) the numbers of states that follow a characteristic through two consecutive full rounds have a product of at most p^(2t) 2^(2^-20 - M). Through all rounds the product is at most d^k p^(Rt-k), k the number of S-boxes of C58; for the shipped parameters d = 16, k = 4(t+1) + floor(31/t), R = 39.", "quantifier": "all primes, widths, security levels, exponents for which generation succeeds; all accurate logarithms; all characteristics", "why_tests_cant": "a counting statement over all states and all characteristics; the code only compares two floats", "anchors": ["poseidon-paramgen/src/rounds.rs: statistical_attack_full_rounds", "poseidon-paramgen/src/mds.rs: MdsMatrix::generate", "poseidon377/src/params/*.rs"]}
{"id": "C62", "title": "The reference script finds the cheapest candidate that passes its tests", "statement": "find_FD_round_numbers of calc_round_numbers.py returns (F, P) exactly if they are the reported numbers of the candidate (even 4 <= F < 100, 1 <= P < 500) that is accepted by sat_inequiv_alpha and cheapest in S-boxes, ties broken by fewer full rounds, or if they are zero and no candidate is accepted - although the inner loop overwrites the variable of the outer one; an exponent that is neither positive nor -1 exits; minimizing the size cost instead gives the same result (the comment in line 103).", "quantifier": "all moduli, widths, exponents, security levels, any logarithm function", "why_tests_cant": "minimality over 24000 candidates for every modulus; the overwritten loop variable changes which candidates are looked at", "anchors": ["vendor/hadeshash/code/calc_round_numbers.py: find_FD_round_numbers, sat_inequiv_alpha, get_sbox_cost, get_size_cost"]}
{"id": "C63", "title": "The generator chooses the round numbers of the reference script", "statement": "For security M <= 256, exponent 3 <= e < 2^32 with (e-1)^2 <= 2^M, modulus 2^(M+1) <= p < 2^1023 and width 2 <= t <= 405 not a proper power e^k, k >= 2, v1_generate's round numbers are the script's, and equal a closed form in integer arithmetic (total = max(a+b+2, t), a = floor(M/log2 e), b = ceil(log_e t)). Refuted outside: for 405 < t <= 500 the generator panics or takes more full rounds than the script's 8, and for the prime 396140812571296918169769213953 (e = 3, t = 2, M = 128) the generator takes 63 partial rounds, the script 64.", "quantifier": "all such inputs, all accurate logarithm functions", "why_tests_cant": "the repository compares with a table of 30 rows; the claim is for all fields, exponents and widths and for all accurate libm's", "anchors": ["poseidon-paramgen/src/rounds.rs: v1_generate, RoundNumbers::is_secure", "vendor/hadeshash/code/calc_round_numbers.py: calc_final_numbers_fixed"]}
{"id": "C64", "title": "The reference script's numbers for the shipped field are the shipped ones, and a fifth of the constraints", "statement": "For the shipped field, M = 128 and width t = 2..8 the script's calc_final_numbers_fixed returns 8 full and 31 partial rounds, 8t+31 S-boxes and 253(8t+31) bits for exponent 17; 8, 37, 8t+37 for exponent 11; for the BLS12-381 scalar field and exponent 5, 8, 56, 8t+56. The hash gadget with all words allocated has exactly five constraints per S-box counted by the script.", "quantifier": "all accurate logarithm functions, all widths named, all constraint systems and allocated words", "why_tests_cant": "the script is not run by the repository's tests, and the constraint count is for every constraint system", "anchors": ["vendor/hadeshash/code/calc_round_numbers.py: calc_final_numbers_fixed", "poseidon377/src/params/*.rs", "poseidon-permutation/src/r1cs.rs"]}
{"id": "C65", "title": "The test circuit proves exactly the seven hashes", "statement": "generate_constraints of the repository's PreimageCircuit never panics; every assignment satisfying its constraints has as public inputs hash_1..hash_7 (domain separator DOMAIN_SEP) of its first seven witnesses; every seven preimages have a satisfying assignment, which they determine including the public inputs; the assignment recorded by the prover satisfies the constraints iff the given outputs are the hashes; the public inputs of the unhappy-path test fit no satisfying assignment with the same first preimage; there are 7 instance variables, 2457 witnesses, 2457 constraints, and the constraints do not depend on values or on setup mode.", "quantifier": "all preimages and outputs (seven each), all assignments, both modes of the constraint system", "why_tests_cant": "the tests prove 1 and refute 5 random instances with fixed keys; they cannot exclude witnesses other than the honest prover's, nor that key generation and proving see different constraints", "anchors": ["poseidon-tests/tests/poseidon377_r1cs.rs: PreimageCircuit::generate_constraints", "poseidon377/src/r1cs.rs: hash_1..hash_7", "poseidon377/src/hash.rs"]}
{"id": "C66", "title": "The repository's Groth16 keys fit the test circuit's constraints", "statement": "For every run of generate_constraints of the test circuit, in either mode: b_g1_query and b_g2_query of preimage_pk.bin have one point per variable, and the point is infinity exactly for the variables occurring in no right factor; a_query has a finite point exactly for the constant, the public inputs and the variables occurring in a left factor; l_query has one point per witness, finite exactly when the witness occurs in some constraint; gamma_abc_g1 has 1 + (public inputs) points and h_query one less than the smallest power of two holding the constraints and the added terms.", "quantifier": "all preimages, both modes, all 2465 variables", "why_tests_cant": "the tests load the keys and only notice a change of the circuit's shape as a failing proof, without saying which variable of which gadget moved; they do not tie the key files to the source", "anchors": ["poseidon-tests/test_vectors/preimage_pk.bin", "poseidon-tests/test_vectors/preimage_vk.param", "poseidon-tests/tests/poseidon377_r1cs.rs: generate_test_parameters, PreimageCircuit", "poseidon-permutation/src/r1cs.rs"]}
{"id": "C67", "title": "The hashes have algebraic degree exactly 17^39 in every argument", "statement": "After k of the 39 rounds every word of a shipped permutation's state is a polynomial of degree exactly 17^k in any one word of the input; hence each of hash_1..hash_7 is, in the domain separator and in each input, the value of a polynomial of degree exactly 17^39, with 2^159 < 17^39 < q: no polynomial of smaller degree computes it, one of smaller degree agrees with it on at most 17^39 points, and no value is taken more than 17^39 times. A parameter set accepted by is_secure (positive exponent) has exponent^(total rounds) >= t * 2^min(M, log2 p), in exact arithmetic.", "quantifier": "all states and constants, all pairs of input and output words, all seven widths; for the check all inputs with t < 1024, M < 2^16, p < 2^1024 and exponents 3 <= e < 2^32", "why_tests_cant": "the degree concerns all q inputs at once and is far too large to interpolate; whether leading terms cancel depends on the matrix and is seen in no output", "anchors": ["poseidon-permutation/src/permutation.rs:101-275", "poseidon377/src/hash.rs:4-80", "poseidon-paramgen/src/rounds.rs:185-210: algebraic_attack_interpolation"]}
{"id": "C68", "title": "The hashes sum to zero along every line of the input space", "statement": "For every base point and every direction, the values of hash_1..hash_7 on the q points of the line sum to zero in Fq, and so do their products with any polynomial of degree below q - 1 - 17^39; over a group of roots of unity of order m > 17^39 they average to the value at the base point. The same zero sums hold for every word of the shipped permutations. The reason is a degree of at most 17^39 along every line (for any exponent e: e^k after k rounds).", "quantifier": "all base points and directions (domain separator included), all seven arities, all output words", "why_tests_cant": "the sums have q terms; the property is a structural limit of the round numbers (17^39 < q - 1) that no sample of inputs shows", "anchors": ["poseidon377/src/hash.rs:4-80", "poseidon-permutation/src/permutation.rs:101-275"]}
{"id": "C69", "title": "The vendored generator of round constants and matrices", "statement": "The shift register of generate_parameters_grain.sage runs from every nonzero state through all 2^80 - 1 nonzero states before it repeats, so its inner loop ends after at most 79 skipped pairs and every draw succeeds. The arguments always give a nonzero state of 80 bits. The drawn bits are the second bits of the pairs whose first bit is 1; the round constants are the n-bit numbers below the prime among them, (R_F + R_P) t of them; a candidate matrix is a Cauchy matrix of 2t distinct elements and every square submatrix is invertible. Run with the arguments of the five vendored scripts it prints exactly their round constants and MDS matrices.", "quantifier": "all 80-bit nonzero states, all arguments in range, all draws, all prime fields, any number of retries", "why_tests_cant": "the period 2^80 - 1 and the end of the selection loop cannot be observed by running; no state can be enumerated", "anchors": ["vendor/hadeshash/code/generate_parameters_grain.sage:39-131", "vendor/hadeshash/code/poseidonperm_x5_254_3.sage:2-12", "vendor/hadeshash/code/poseidonperm_x3_64_24_optimized.sage:4-21"]}
{"id": "C70", "title": "The vendored permutations and test vectors", "statement": "perm of the four vendored x5 scripts is the textbook Poseidon permutation for every field, width, matrix, constants and input, and raises exactly when there are too few constants. With the scripts' own numbers it maps the inputs of test_vectors.txt to exactly the listed outputs, it is a bijection, the library's generator accepts these matrices and constants, and the library's optimized and unoptimized permutations with them are the scripts' perm on every input. In the optimized x3 script perm and perm_original agree on every input, so its closing assertion holds, and they are bijections.", "quantifier": "all fields, widths, matrices, constants and inputs; all prime fields with the scripts' primes", "why_tests_cant": "the test vectors are one input each; agreement of the library with the reference scripts is for all states", "anchors": ["vendor/hadeshash/code/poseidonperm_x5_255_3.sage:34-77", "vendor/hadeshash/code/poseidonperm_x3_64_24_optimized.sage:43-287", "vendor/hadeshash/code/test_vectors.txt:1-23", "poseidon-permutation/src/permutation.rs:93-216"]}
{"id": "C71", "title": "The script from which the first parameters were generated", "statement": "generate_mds_matrix without optimize_mds returns exactly the Cauchy matrix of the first of at most 100 attempts that has no eigenvalue, provided the values of all attempts up to it are distinct; its assertions on the determinant never fail, since the determinant of a Cauchy matrix is the asserted product with the asserted sign; the matrix is MDS, has no eigenvalue in the field and leaves no line and no hyperplane invariant. With optimize_mds only widths 3 and 4 are accepted, the branch number is exactly the width, and the docstring is false: the matrices are not MDS and 2 (3) is an eigenvalue. The script prints 8 full and 30, 31, 30, 26, 23 partial rounds for rates 1 to 5; for all but rate 2 these are too few for the library's own test (the script takes the logarithm of the modulus to the base of the width). The round constants of all instances are prefixes of one sequence. The sponge absorbs block after block and refuses partial blocks and outputs longer than the rate.", "quantifier": "all finite fields, widths, names and hash functions; all accurate logarithms for the comparison of rounds", "why_tests_cant": "the determinant formula and the absence of assertion failures are for all fields, widths and values; the round numbers are compared with every candidate from which they could come", "anchors": ["vendor/generate_mds.sage:44-69", "vendor/generate_mds.sage:118-187", "vendor/generate_mds.sage:263-282", "vendor/generate_mds.sage:315-376"]}
{"id": "C72", "title": "The repository's own tests", "statement": "Every unit test of parameters.rs, hash.rs, the consistency crate and the parameter generator passes; those of the generator pass for every field with the stated modulus (the external matrices: every field; the internal ones: every field without characteristic 5 and 7; the Cauchy matrix: every field of at least 128 bits) and for every platform whose logarithms are accurate to 2^-40. The property test comparing the two permutations passes on all inputs. The property test inverse_2x2 fails exactly when the drawn matrix is singular modulo q, which its strategy allows (all zero bytes), on at most 2^384 + 2^257 of the 2^512 draws.", "quantifier": "all fields and platforms with the stated hypotheses; all drawn values of the property tests", "why_tests_cant": "a run of the tests covers one platform and a few hundred drawn values; that inverse_2x2 can fail is practically never seen in a run", "anchors": ["poseidon-tests/tests/parameters.rs:8-285", "poseidon377/src/hash.rs:82-263", "poseidon-consistency/src/lib.rs:17-88", "poseidon-paramgen/src/alpha.rs:81-113", "poseidon-paramgen/src/mds.rs:262-375", "poseidon-paramgen/src/utils.rs:39-54", "poseidon-paramgen/src/v2/internal.rs:52-85", "poseidon-paramgen/src/v2/external.rs:80-193"]}
{"id": "C73", "title": "Preimages of the hashes", "statement": "Running the shipped rounds backwards, with the shipped M_inverse and the 17th root, inverts the permutation. So when the domain separator may be chosen, every field element h has, for every choice of the other final words, exactly one list (separator, inputs) hashing to it, given by that explicit program: all n+1 words together, every value is hit by exactly q^n of the q^(n+1) lists, and collisions at any value exist between any two rates. With the domain separator fixed, no value is hit by more than 17^39 q^(n-1) of the q^n inputs.", "quantifier": "all rates, all digests, all other final words, all domain separators; any enumeration of the lists", "why_tests_cant": "counting statements over q^(n+1) lists; the tests only evaluate forwards", "anchors": ["poseidon-permutation/src/permutation.rs:79-158", "poseidon377/src/hash.rs:5-77", "poseidon377/src/params/rate_1.rs"]}
{"id": "C74", "title": "The tables of the reference script", "statement": "calc_round_numbers.py prints, for the exponents 3 and 5 and whatever primes it draws, tables 7 and 8 of the paper's appendix G, which appendix_g.rs tests the generator with: the same full rounds, and the same number of partial rounds except that it can be one less when the modulus has no more bits than the security level; S-box counts and sizes follow from these. The tables printed without the security margin differ by exactly the margin. For the primes of appendix_g.rs there is no difference. For the inverse S-box it prints table 9 for all primes whose bit size is not a rounding error away from an integer. Rows are given by a closed form in integer logarithms. It is false that the number of bits of the prime decides the round numbers: two 96-bit primes with 41 and 42 partial rounds are given. The results printed for the scalar fields of BLS12-377 and BLS12-381 are stated in full.", "quantifier": "all primes that can be drawn, all platforms with logarithms accurate to 2^-40", "why_tests_cant": "the script draws random primes on every run, and appendix_g.rs uses thirty fixed ones, with a comment that others can shift the numbers by one", "anchors": ["vendor/hadeshash/code/calc_round_numbers.py:109-202", "poseidon-paramgen/src/appendix_g.rs:1-215"]}
{"id": "C75", "title": "The round numbers of the generator for every modulus of a size", "statement": "For every modulus of the number of bits of a row of tables 7 and 8 of the paper's appendix G (not only the primes of appendix_g.rs), v1_rounds and v2_rounds choose the same numbers, with the full rounds of the row and its partial rounds, or one partial round less in seven of the twenty rows (16 words; and at 256 bits of security 6 words, and 8 words with exponent 3); for each of these seven rows a prime of the right size, with the exponent coprime to its predecessor, is given for which one less is chosen. For the inverse S-box the numbers of table 9 are chosen for all moduli, if those not exceeding the security level are not within 2^-12 of the next power of two. For moduli of at least M + 2 bits, M the security level, the choice for an inverse S-box or an exponent of at most 17 does not depend on the modulus at all.", "quantifier": "all moduli of the given sizes, all platforms with logarithms accurate to 2^-40; for the last part all M from 10 to 1022, all widths and all moduli below 2^1024", "why_tests_cant": "appendix_g.rs tests one prime per row and warns in a comment that other primes can shift the numbers by one; there are more than 2^95 moduli per row", "anchors": ["poseidon-paramgen/src/appendix_g.rs:53-58", "poseidon-paramgen/src/rounds.rs:18-315", "poseidon-paramgen/src/utils.rs:6-30"]}
{"id": "C76", "title": "The numbers of field operations of the two permutations", "statement": "Instance::permute performs exactly (2f+1)t^2 + r(2t-1) multiplications, (2f+1)(t^2+t) + r(2t-1) + r-1 additions and 2ft + r S-boxes (f = full/2, r = partial rounds, t = STATE_SIZE), unoptimized_permute exactly (2f+r)t^2, (2f+r)(t^2+t) and 2ft + r, whatever the state words and the parameter values are. The optimized one needs fewer multiplications exactly when t^2 < r(t-1)^2, and fewer additions exactly when t(t+1) <= r t(t-1). For the seven shipped parameter sets both hashes return the same word, the optimized one after 9t^2 + 31(2t-1) instead of 39t^2 multiplications (504 instead of 975 at rate 4, the pair that the benchmark compares).", "quantifier": "all fields, all parameter sets with consistent sizes, all states and inputs; all widths and round numbers for the comparison", "why_tests_cant": "a benchmark times one rate on one machine and 100 inputs; it neither counts operations nor tells for which widths and round numbers the optimization pays", "anchors": ["poseidon-permutation/src/permutation.rs:78-297", "poseidon-consistency/benches/permutation.rs:9-61"]}
{"id": "C77", "title": "The branch number of the Poseidon2 external matrix", "statement": "For width t = 4d the matrix returned by v2/external.rs has branch number exactly min(t/4 + 4, 10): a nonzero vector and its image have at least that many nonzero words together, and some vector attains it. Hence the t/4 + 4 of the block construction holds exactly up to width 24 and the diffusion stops growing there (two blocks that cancel give 10 at every larger width). At width 4 the matrix is M4 itself, with branch number 5.", "quantifier": "all widths divisible by four, all fields in which 1, ..., max(64, t/4 + 1) are nonzero (for the project's field every width below the modulus), all nonzero vectors", "why_tests_cant": "a minimum over all q^t vectors; the tests compare the entries at widths 4 and 8", "anchors": ["poseidon-paramgen/src/v2/external.rs:8-72"]}
{"id": "C78", "title": "Irreducible minimal polynomials exclude subspace trails", "statement": "The condition that v2/internal.rs names for widths from 4 (instead of the three algorithms of Grassi et al.): if the minimal polynomials of M, M^2, ..., M^R are irreducible and of degree t then M has no subspace trails of any period up to R, active or inactive. For one matrix the condition holds exactly when no subspaces but zero and the whole space are mapped to themselves, and exactly when the characteristic polynomial is irreducible. It is not necessary: the two internal matrices in the code have no trails over the project's field, but no power of them meets the condition there.", "quantifier": "all fields, widths, matrices and periods; for the internal matrices all powers", "why_tests_cant": "about all subspaces and all matrices; the code asserts only that the matrix is invertible and leaves the condition as a comment", "anchors": ["poseidon-paramgen/src/v2/internal.rs:4-41"]}
{"id": "C79", "title": "Optimized round constants of generate_ark in the sage script", "statement": "vendor/generate_mds.sage defines generate_ark, which prints linear constants meant to replace the round constants of the partial rounds. The model gives its output in closed form and when it raises: without a matrix, for a singular one, or for fewer than max(1, R_p) + 8 rounds. The first of the non-linear constants is always 0, because linear_constants and ark[0] are the same object. With that word replaced the constants are right for one and two partial rounds. For three and more they are wrong: for any invertible matrix with nonzero entries off the diagonal in row 0 and column 0 and any injective S-box with non-constant S(y+1) - S(y) there are round constants for which no choice of the first three words gives the same permutation; in particular for x^17 over the project's field and any MDS matrix of width at least two. Constants that do exist for every number of rounds.", "quantifier": "all fields, widths, matrices, round numbers, round constants and states; all injective S-boxes as above", "why_tests_cant": "the function is never called and the script never tests its output; the failure is an inequality against all choices of words", "anchors": ["vendor/generate_mds.sage:220-260"]}
{"id": "C80", "title": "What the sage generator computes with SHA-256", "statement": "With SHA-256 as in FIPS 180-4 and the project's field, vendor/generate_mds.sage does not fail for any of its five arities: the first attempts at widths 2 and 3, the third at width 4 and the second at widths 5 and 6 are the first whose matrix has no eigenvalue, and the matrix of width m is 1/(x_(km+i) - y_(km+j)) for attempt k, where x_n and y_n are the digests of HadesMDSx and HadesMDSy followed by n in decimal. The instance has 8 full and 30, 31, 30, 26, 23 partial rounds and the constants of Hades. None of these matrices is the shipped one of its width: every entry is another one. No input is hashed for two different constants. SHA-256 pads to whole blocks, injectively below 2^61 bytes, and its value is below 2^256.", "quantifier": "all messages; all indices and the three names of the script; all arities 1 to 5; all shipped parameter sets of width at most 6 and all entries", "why_tests_cant": "that a matrix has no eigenvalue is a statement about all 2^253 field elements and all vectors; the script needs Sage and asserts it by a characteristic polynomial, and nothing in the repository compares its output with the shipped parameters", "anchors": ["vendor/generate_mds.sage:72-86", "vendor/generate_mds.sage:118-187", "vendor/generate_mds.sage:266-272", "vendor/generate_mds.sage:403-436"]}
{"id": "C81", "title": "No affine symmetry passes through neighbouring rounds of which one is full", "statement": "An affine map of the state that the power maps turn into an affine map is a scaled permutation of the words without an offset. One that the power map of a partial round turns into an affine map multiplies the first word and maps the other words among themselves. If an invertible affine map of the state is turned into an affine map by a round of a shipped permutation, that one into a third one by the next round, and at least one of the two rounds is full, then all three are the identity. Hence if inputs x and A x + a of a shipped permutation, A invertible, are in affine relations after the first and after the second round, then A = 1 and a = 0. In general, for the Cauchy matrices of width 2 to 8, this holds for second constants other than 0, and at width 2 other than those with c_0^2 = 2 c_1^2; both exceptions do have symmetries. Two partial rounds have symmetries (translations).", "quantifier": "all matrices, offsets and rounds; all fields with more than e elements in which e is not 0; all shipped parameter sets and pairs of consecutive rounds", "why_tests_cant": "the statement ranges over all affine maps of the state, q^(t^2+t) of them, and all states; a symmetry such as the scalar multiples of rounds without constants or the exchange of words at width 2 shows in no test vector", "anchors": ["poseidon-permutation/src/permutation.rs:178-224", "poseidon-permutation/src/permutation.rs:227-269", "poseidon377/src/params/rate_1.rs", "poseidon377/src/params/rate_7.rs"]}
{"id": "C82", "title": "Along each word exactly one line of states passes the first two rounds as a line, and on it the hashes have degree 17^37", "statement": "A full round maps a line x + u v of states into a line exactly if all words that change along it reach 0 before the power maps at the same point u. For two full rounds with an invertible matrix without zeros in column j, a line along word j is mapped into a line exactly if (x_k + c_k)^e is minus word k of M^-1 c' for every other word k; the state after the two rounds is then ((x_j + c_j + u)^e + (M^-1 c')_j)^e times the vector M (M e_j)^e. These are the lines through the state that the two rounds map to 0. With the shipped parameters there is therefore, for each word j, exactly one choice of the other words (the domain separator among them) for which the first two rounds map the line along word j into a line: the words of a tabulated state, which the two rounds map to 0. With this choice every word after k+2 rounds is a polynomial of degree exactly 17^k in ((u + a)^17 + b)^17, which is a one-to-one function of u; in particular the hash is one of degree 17^37 rather than 17^39, and takes no value more than 17^37 times on the line.", "quantifier": "all lines and states; all fields with more than e elements in which e is not 0 (for two rounds, those in which x^e is a bijection); all shipped parameter sets, words, pairs of consecutive full rounds and numbers of rounds; all seven hashes", "why_tests_cant": "uniqueness ranges over all choices of t-1 field elements; the choice that shortens the permutation by two rounds is one in q^(t-1), and the degrees are far beyond what can be interpolated", "anchors": ["poseidon-permutation/src/permutation.rs:178-224", "poseidon-permutation/src/permutation.rs:227-269", "poseidon377/src/params/rate_1.rs", "poseidon377/src/params/rate_7.rs", "poseidon377/src/hash.rs:4-74"]}
