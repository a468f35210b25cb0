# Design

Machine-checked model of `penumbra-zone/poseidon377` (source read as text from
`/repo`, never run) in Coq 8.16.1 with mathcomp. All files are in
`rocq/theories/` (logical name `Verif`).

## Ground rules

* Every model definition carries a comment with the file and lines it models.
* A panic is the explicit value `Panic` of `outcome A := Ret a | Panic`. The
  model is generic over a mathcomp `fieldType` where the code is generic or
  where the field does not matter, and is instantiated at `Fq` (integers below
  the BLS12-377 scalar modulus) for the shipped parameters.
* `usize` is `nat` with explicit underflow; wrap-around at 2^64 is not
  modelled (all sizes are array lengths), integer casts that truncate (`as u8`)
  are.
* Rust arrays `[Fq; N]` are sequences whose length is checked by the shape
  predicates (`wf_*`), since the type checker guarantees the length.
* Specifications (`Spec.v`) use mathcomp matrices and know nothing about the
  model's helpers.

## Trusted base

* Coq's kernel (and `coqchk`).
* Axioms: the generic theorems are closed under the global context. The
  theorems about shipped constants are proved by computation on machine
  integers: `Print Assumptions` lists the stdlib's primitive `int`
  (`PrimInt63.*`) and its specification (`Uint63.*`). Theorems on `f64`
  round numbers use the stdlib's classical reals:
  `ClassicalDedekindReals.sig_not_dec`, `ClassicalDedekindReals.sig_forall_dec`,
  `FunctionalExtensionality.functional_extensionality_dep`, `Classical_Prop.classic`.
* The reading of the Rust source, in particular the contract of the external
  crates listed under "Not modelled".

## Not modelled

* `decaf377::Fq` itself (Montgomery arithmetic, backends): assumed to implement
  the field Z/q with `power` = exponentiation, `Div` by zero = panic,
  `inverse()` = `None` on zero, `from_montgomery_limbs(l)` = l * 2^-256 mod q.
* `ark-relations` / `ark-r1cs-std`: the R1CS model re-states the contract of
  `FpVar` (`Constant`/`Var`, addition and constant multiplication are linear,
  variable multiplication allocates one witness and one constraint,
  `pow_by_constant` is most-significant-bit-first square-and-multiply). What
  `Sum` does when no summand is a variable is an arbitrary function in the
  theorems on C09-C12 (they assume an allocated input, so it is never called);
  C47 assumes that it panics, as ark-r1cs-std 0.4 does (`new_lc` on no
  constraint system).
* `merlin` (transcript.rs, strobe.rs) and the Keccak permutation, from their
  published descriptions: `Keccak.v` is FIPS 202's Keccak-f[1600] on bits,
  `Strobe.v` Strobe-128 and the Merlin transcript on top of it. Theorems on the
  transcript hold for any implementation (record `merlin`); only C37 fixes
  `merlin128`. `KeccakExec.v` and `MerlinExec.v` run the same text on machine
  integers and are proved equal to it; test vectors are in `ReproduceExamples.v`.
* `ark_ff::PrimeField` in the parameter generator: the record `prime_field` of
  `PrimeField.v` (a field, a prime p, ring homomorphism `Z -> F` with the
  canonical representative as section); instances for `Fq` and every `Z/p`.
  `F::BigInt` is `Z` together with its number of limbs.
* `poseidon-paramgen` is excluded from the workspace in /repo ("Temporarily
  excluded until refactored") and is written against an older, `Vec`-based
  matrix API (`SquareMatrix::from_vec`, `mat_mul(..).expect(..)`). It is
  modelled against that API, with the semantics of the present matrix library
  where both have an operation, run-time dimensions, and no const generics.
* libm: `ln` and `log2` of `f64` are arbitrary functions (record `libm` of
  `Rounds.v`); theorems that need it assume `accurate` (`RoundsSpec.v`): relative
  error at most 2^-40 on the integers up to 2^64, exact `log2` of powers of two.
  `f64::log(base)` is `ln x / ln base`, as in the Rust standard library.
* `f64` itself: a real number, every operation rounded to nearest even by Flocq's
  `round radix2 (FLT_exp (-1074) 53) ZnearestE`. No infinities or NaN: no
  computation here overflows, and none divides by zero except for width 1 (excluded).
  `as usize` saturates at 0 and 2^64 - 1 as in Rust.
* `rustc` on generated files: `BuildSpec.v` states the lexical structure, grammar
  and meaning of the fragment of Rust that the printer uses (`use` lists,
  functions without arguments, struct literals, calls, `vec![..]`, `.map_err`,
  `.unwrap`), with ranges of integer literals, distinct function names and imported
  names checked. `F::from_str` is ark-ff's: decimal, no leading zeros, nonempty,
  reduced modulo p. `ArcMatrix -> Vec<Vec<F>>` (older API) lists the rows.
* Sage: `Grain.v` models the three tests of matrices of the vendored
  `generate_parameters_grain.sage`; a subspace is a mathcomp row space, the field's
  elements (for the eigenvalues) an arbitrary list. `GrainGen.v` models the rest of it:
  the generator object is the list of bits it works on, unbounded loops have a bound
  and return `None` when it is used up, reading arguments and printing are left out.
  `GrainTables.v` copies the numbers of the five vendored scripts
  (`tools/mkgrain.py`). `Sage.v` models the functions of
  `poseidonperm_x17.sage` over matrices and row vectors for any field: an inverse of
  a singular matrix raises, timers are left out, lists have the lengths the script
  gives them. `SageSecurity.v` has its two cost expressions over the real numbers
  instead of 53-bit floats. `SageTables.v` copies the script's numbers
  (`tools/mksage.py`). `VendoredPerm.v` models `perm` of the four vendored `x5` scripts
  with lists; the functions of the vendored `x3` script are those of `Sage.v` (it also
  builds a matrix `test_mat` that nothing reads). Printing is left out.
  `GenerateMds.v` models `vendor/generate_mds.sage`: the constants are an arbitrary function
  of name and index there, and for C80 those of `Sha256.v`: SHA-256 written from FIPS 180-4
  (`hashlib` is external; three test vectors of the standard are examples) and the decimal
  index; logarithms and `ceil` are exact (Sage keeps them symbolic), the
  product with 1.075 is one of 53-bit floats; the binary fields, `generate_mds_cpp`
  (only prints, not called) and the printed text around the numbers are left out.
  `GenerateArk.v` models `generate_ark`, which the script does not call either.
* Python: `CalcRounds.v` and `CalcTables.v` model the vendored `calc_round_numbers.py`;
  of what is printed, the numbers are modelled and the text around them is not, and the
  random primes of the tables (`getPrime`) are arguments. C74 assumes for the inverse
  S-box that `log(2**k, 2)` is exact for `k` from 1 to 4 (`exact_logs`). `int` is `Z`, `float` a binary64 as above; `math.log(x, b)` is CPython's
  quotient of two natural logarithms, assumed accurate to 2^-40 on integers below
  2^1023 (`accurate_ln`). The comparison with the generator (C63) excludes moduli
  below 2^(M+1), M > 256 (the generator panics), widths that are a proper power of the
  exponent (the logarithm of such a width is not determined by its accuracy) and the
  inverse S-box.
* Tests: `Tests.v` models every test of the repository except those of
  `appendix_g.rs` (C51) and `poseidon377_r1cs.rs` (C65) as a program that panics where
  an assertion fails. What `proptest` draws is not modelled: a property test is a
  function of the drawn values. `from_ark_fq` (consistency tests) is the identity.
* Groth16 and its keys: `Preimage.v` models the circuit of
  `poseidon-tests/tests/poseidon377_r1cs.rs` (C65) up to the constraint system, with
  ark-r1cs-std's `new_input` and `enforce_equal` (one constraint `(x - y) * 1 = 0`).
  That "the prover's assignment satisfies the constraints" makes a proof verify, and
  its converse, are properties of the proof system and are not claimed. Of the
  repository's key files C66 uses only what `tools/mkkey.py` reads (`KeyData.v`): the
  lengths of the vectors and which points are the point at infinity, in ark-groth16's
  uncompressed format. That these flags are those of a polynomial that is zero assumes
  that no nonzero one vanishes at the secret point; the theorem is about the flags.
* Trait plumbing (`Clone`, `Debug`), `no_std` features, build script I/O.

## Plan, per property

| id | modelled | proof idea |
|----|----------|------------|
| C01 | `Instance`, both permutations, 7 parameter sets | C08 + a Boolean consistency check computed for each rate |
| C02 | `hash_1..7` | C01, unoptimized loop = textbook rounds over matrices, Cauchy entries checked |
| C03 | same | textbook rounds are compositions of bijections (C04, det of Cauchy != 0) |
| C04 | `Fq`, `power` | Pocklington primality proof, 17 * k = 1 mod q-1 |
| C05 | operation sequences on `Instance` | inputs overwrite the whole state |
| C06 | same as C01 | outcome of C02 is `Ret` |
| C07 | same | by definition unfolding, all states |
| C08 | generic permutations | induction on partial rounds with P_j = diag(1, hat(M)^j) |
| C09-C12 | `FpVar` layer, `InstanceVar` | symbolic evaluation invariant: satisfying assignments force values |
| C13 | same | case analysis |
| C14 | shipped `mds` | Cauchy determinant / product formula, any submatrix is Cauchy |
| C15, C16 | shipped fields | computed checks |
| C17, C18 | generic permutations | loop bounds |
| C19-C30 | `Matrix`, `SquareMatrix`, `MdsMatrix`, `dot_product` | representation predicate `repr A M` to mathcomp matrices; Laplace expansion `expand_det_col`, `mulmx_adj` |
| C31 | `Alpha::to_bytes_le` | byte arithmetic |
| C32 | paramgen `alpha::generate` | table search |
| C33 | paramgen `mds::v1_generate` | Cauchy as C14 |
| C34-C36, C49 | `mds::generate_optimized`, `round_constants::generate_optimized`, `v1::generate` (for any round-number function) | block matrices; loop invariant on the table of constants; certificates for the entries of M'' |
| C37 | paramgen (`v1::generate`, v1_compile) against shipped parameters | uniqueness of the optimized matrices and constants; the transcript run on machine integers |
| C38, C39, C48 | transcript messages and constants, for any transcript implementation (record `merlin`) | list-prefix reasoning; counting residues |
| C40-C43, C50 | `rounds.rs` (`Rounds.v`) | fold over candidates; interval bounds for the f64 part (`RoundsEval.v`), certificates for logarithms |
| C44 | `utils::log2` | reals, Flocq |
| C51 | `appendix_g.rs` | the interval checker of C42, run on 30 rows |
| C52 | `v1::generate` with `rounds.rs` | C36, C43, C49 combined |
| C45 | `v2.rs`, `v2/internal.rs`, `v2/external.rs` (`V2.v`) | block matrices with an explicit inverse and kernel vectors; minors by Laplace expansion |
| C53 | permutation with the inverse S-box | partial rounds are defined while no S-box input is zero |
| C54 | `algebraic_attack_grobner_basis_v2_possible` | the loop computes binomial coefficients |
| C46, C55 | `poseidon_build.rs` (`Build.v`) | a separate lexer, parser and evaluator for the fragment of Rust that is printed (`BuildSpec.v`); printed text denotes the printed value |
| C57 | algorithms 1-3 of `generate_parameters_grain.sage` (`Grain.v`) | Krylov vectors of `M^r` independent (elimination on machine integers), for r up to 4t |
| C56 | `poseidonperm_x17.sage` (`Sage.v`, `SageTables.v`) | the script's loops are the matrices and constants of C08/C09; sparse factorisation pushed through the rounds |
| C60 | its cost checks (`SageSecurity.v`) | log2 17 >= 4, ln x >= n if x >= 3^n |
| C58 | permutation with the shipped and the generated matrices | branch number of a matrix with invertible minors; C57 for the partial rounds |
| C59 | the S-boxes | roots of a polynomial of degree e-1 |
| C61 | `statistical_attack_full_rounds` with C58, C59 | solutions of a layer of S-boxes form a product; rounding errors; the independence of rounds, on which the paper's argument rests, is not claimed: the statement is about products of numbers of solutions |
| C62 | `calc_round_numbers.py` (`CalcRounds.v`) | invariant of the two loops; the overwritten variable only skips dearer candidates |
| C63 | the same and `rounds.rs` | both reduce to one closed form by interval bounds on the logarithms |
| C64 | the same, shipped parameters, the gadget | the closed form of C63 and the constraint count of C12 |
| C65 | test circuit of `poseidon377_r1cs.rs` (`Preimage.v`) | one step lemma for a hash followed by `enforce_equal`, from C09-C12, applied seven times |
| C66 | the key files `preimage_pk.bin`, `preimage_vk.param` (`KeyData.v`) | which wires occur in which factor, by an invariant over the rounds and the seven hashes; MDS entries nonzero (C02) |
| C67 | the states of C58, `hash_1`..`hash_7` (`Hash.v`), the interpolation check (`Rounds.v`) | leading coefficients go through the rounds as `v -> M (v^17)`; that none vanishes is computed for the seven Cauchy matrices with `BigZ`; error bounds of C61 for the check |
| C68 | as C67 | degrees along lines; power sums over roots of unity vanish |
| C69 | `generate_parameters_grain.sage` 39-131, 286-301 (`GrainGen.v`), numbers of the five vendored scripts (`GrainTables.v`) | polynomials over two elements act on the sequence: x^(2^80-1) = 1 and inverses of x^((2^80-1)/r) + 1 modulo the polynomial; square roots for the decimation; counting for the orbit; the scripts by running the register eighteen bits at a time |
| C70 | `perm` of the vendored `x5` scripts (`VendoredPerm.v`), `perm` and `perm_original` of the `x3` script (`Sage.v`), `test_vectors.txt` (`VendoredTables.v`) | loop invariants; the vectors by computing the textbook permutation with `BigZ`; the matrices are MDS by C69; C35, C56 for the optimized forms |
| C71 | `generate_mds.sage` 44-69, 118-187, 263-272, 315-376, 379-436 (`GenerateMds.v`) | Schur complement for the Cauchy determinant; C40, C42 for the comparison of round numbers; powers bound the logarithms |
| C72 | the repository's `#[test]` functions and `proptest!` bodies (`Tests.v`) | the definitions they call, through C01, C02, C37, C42, C44 where computing is too expensive; singular matrices counted by the entries that determine the last |
| C73 | `permute`, `hash_1`..`hash_7`, `M_inverse` of the parameters | rounds cancel one by one; lists counted through a bijection; degree bound of C67 for a fixed separator. Nothing is claimed about the hardness of finding preimages with the separator fixed |
| C74 | `calc_round_numbers.py` 109-202 (`CalcTables.v`), the tables of `appendix_g.rs` (`AppendixGData.v`) | the search of C62 with the inequalities decided by integer certificates for the logarithms; two 96-bit primes with Pocklington certificates for the refutation |
| C75 | `rounds.rs`, `utils.rs` 6-30 (`Rounds.v`), the tables of `appendix_g.rs` (`AppendixGData.v`) | the interval arithmetic of C50 with the logarithm of the modulus known only up to one; every compatible choice is checked; three primes with Pocklington certificates for the shifted rows; above the level, monotonicity of the roundings |
| C76 | `permutation.rs` 78-297 with every multiplication, addition and S-box counted (`Count.v`), compared by `benches/permutation.rs` | a rule for each loop with the size of the state as invariant; what one S-box costs is left open, and `Sum` is taken to add each element to a sum that starts at zero |
| C77 | `v2/external.rs` (the model of C45), its diffusion (`BranchSpec.v`, `ExternalBranch.v`) | the state as d blocks a_i with sum s: s = 0 leaves two nonzero blocks and 10 words; otherwise the blocks with a_i = 0, a_i = -s and the others are counted against the branch number 5 of M4, whose minors are checked in C45 |
| C78 | the condition in the comment of `v2/internal.rs` 28-33 (`IrreducibleSpec.v`, `Irreducible.v`) | x, A x, ..., A^(t-1) x are independent by Bezout for x nonzero; conversely kernels of divisors p(A) and the space of all f(A) e_0 are stable |
| C79 | `generate_ark` of `vendor/generate_mds.sage` (`GenerateArk.v`; `ArkSpec.v`, `GenerateArkProofs.v`, `ArkField.v`) | the closed form by induction on the loop; the witness has the constants of the third partial round equal to column 0 of the matrix: with injective S the words off position 0 force the first difference to be e_0, then S(y) + 1 = S(y + 1) + w for all y |
| C80 | `generate_mds.sage` with SHA-256 (`Sha256.v`; `Sha256Proofs.v`, `FqFinite.v`, `EigenCheck.v`, `MdsRun.v`, `MdsRunTheorems.v`, tables `MdsRunData.v` by `tools/mkmds.py`) | 24 digests by computation; a rejected attempt by an eigenvector, an accepted one by a polynomial g with M^m = g(M) and an inverse of x^q - x modulo x^m - g, so that no eigenvalue can be a root; both checked by computation on lists of integers and interpreted in the field |
| C81 | affine symmetries of full rounds (`SymmetrySpec.v`, `Symmetry.v`, `SymmetryShipped.v`, `SymmetryPartial.v`, `SymmetryMixed.v`) | (αu + γ)^e = βu^e + δ at e+1 points forces γ = 0; so both matrices are monomial; that the Cauchy matrix carries one monomial matrix to another bounds cross ratios of entries, and a search over all pairs of partial permutations leaves the identity and at width 2 the exchange; for a full and a partial round the first row of the matrix and the first column of its inverse (tabulated, checked over the integers) leave only multiples; the round constants are checked on machine integers |
| C82 | lines through the first rounds (`BypassSpec.v`, `Bypass.v`, `BypassShipped.v`, `BypassZero.v`; table `BypassTable.v` written by `tools/mkbypass.py`) | two changing words on one line satisfy (αu + γ)^e = βu^e + δ, so γ = 0 as in C81; along one word the first round always gives a line, whose second round condition is a linear system with the matrix; the degree after the two rounds is bounded round by round and exact because the composition with ((u + a)^17 + b)^17 has degree 17^39 (C67) and both sides have degrees below q; the lines are those through the state that the two rounds map to 0, which is tabulated and checked on machine integers |
