(** C72: the repository's own tests ([Tests.v]) pass.  Proofs in [TestsProofs.v], [TestsParamgen.v],
    [TestsLog2.v] and [TestsHash.v]; instances in [TestsExamples.v].  [Ret tt] is a test that passes. *)
From Coq Require Import ZArith NArith.
From mathcomp Require Import all_ssreflect all_algebra.
From Verif Require Import Base Fq Bytes PrimeField Rounds RoundsSpec Tests TestsProofs TestsParamgen TestsLog2 TestsHash.
Import GRing.Theory.
Delimit Scope Z_scope with Z.
Local Open Scope ring_scope.

(** ** poseidon-tests/tests/parameters.rs *)
Theorem C72_parameters :
  [/\ [/\ test_identity_matrix = Ret tt, test_square_matmul = Ret tt, test_nonsquare_matmul_happy = Ret tt,
          test_hadamard_product = Ret tt & test_transpose = Ret tt],
      test_cofactors = Ret tt, test_inverse = Ret tt, test_create_matrix_from_array = Ret tt & test_determinant = Ret tt].
Proof.
exact (And5 (And5 t_identity_matrix t_square_matmul t_nonsquare_matmul_happy t_hadamard_product t_transpose)
  t_cofactors t_inverse t_create_matrix_from_array t_determinant).
Qed.
(** The property test [inverse_2x2] fails exactly on the singular matrices; these are in the range
    of its strategy (all zero bytes), but fewer than one in 2^127 of the draws. *)
Theorem C72_inverse_2x2 (a b c d : bytes) : proptest_inverse_2x2 a b c d =
  if ((Z.of_N (le_val a) * Z.of_N (le_val d) - Z.of_N (le_val b) * Z.of_N (le_val c)) mod q =? 0)%Z then Panic else Ret tt.
Proof. exact (pp_inverse_2x2 a b c d). Qed.
Theorem C72_inverse_2x2_refuted : exists a b c d : bytes,
  [/\ all is_bytes [:: a; b; c; d], all (fun x : bytes => size x == 16%N) [:: a; b; c; d] & proptest_inverse_2x2 a b c d = Panic].
Proof. exact zeros_fail. Qed.
Theorem C72_few_failures (N : nat) : Z.of_nat N = (2 ^ 128)%Z ->
  (#|[set x : 'I_N * 'I_N * 'I_N * 'I_N | if proptest_inverse_2x2 (le_bytes 16 (N.of_nat x.1.1.1)) (le_bytes 16 (N.of_nat x.1.1.2))
        (le_bytes 16 (N.of_nat x.1.2)) (le_bytes 16 (N.of_nat x.2)) is Panic then true else false]| <= N ^ 3 + 2 * N ^ 2)%N.
Proof. exact (@few_failing_bytes N). Qed.

(** ** poseidon377/src/hash.rs *)
Theorem C72_hash :
  [/\ [/\ test_rate_1 = Ret tt, test_rate_2 = Ret tt & test_rate_3 = Ret tt],
      test_rate_4 = Ret tt, test_rate_5 = Ret tt & test_rate_6 = Ret tt].
Proof. exact (And4 (And3 t_rate_1 t_rate_2 t_rate_3) t_rate_4 t_rate_5 t_rate_6). Qed.

(** ** poseidon-consistency/src/lib.rs *)
Theorem C72_vs_sage : test_check_optimized_impl_vs_sage = Ret tt /\ test_check_unoptimized_impl_vs_sage = Ret tt.
Proof. exact t_check_vs_sage. Qed.
Theorem C72_consistent (e1 e2 e3 e4 e5 : Fq) : prop_optimized_and_unoptimized_permutation_consistent e1 e2 e3 e4 e5 = Ret tt.
Proof. exact (p_consistent e1 e2 e3 e4 e5). Qed.

(** ** poseidon-paramgen *)
Theorem C72_gcd : test_gcd = Ret tt.
Proof. exact t_gcd. Qed.
Theorem C72_alpha_5 (Fq381 Fq254 : prime_field) : pf_p Fq381 = p381 -> pf_p Fq254 = p254 -> test_check_alpha_5 Fq381 Fq254 = Ret tt.
Proof. exact (@t_check_alpha_5 Fq381 Fq254). Qed.
Theorem C72_alpha_17 (Fq377 : prime_field) : pf_p Fq377 = q -> test_check_alpha_17 Fq377 = Ret tt.
Proof. exact (@t_check_alpha_17 Fq377). Qed.
Theorem C72_convert (PF : prime_field) :
  test_convert_from_arc_to_vec_of_vecs PF = Ret tt /\ test_convert_from_mds_to_vec_of_vecs PF = Ret tt.
Proof. exact (conj (t_convert_from_arc_to_vec_of_vecs PF) (t_convert_from_mds_to_vec_of_vecs PF)). Qed.
Theorem C72_cauchy_method_mds (PF : prime_field) (lm : libm) : (2 ^ 127 <= pf_p PF)%Z -> test_cauchy_method_mds PF lm = Ret tt.
Proof. exact (@t_cauchy_method_mds PF lm). Qed.
Theorem C72_calc_equivalent_matrices (lm : libm) : accurate lm -> test_check_calc_equivalent_matrices_vs_sage lm = Ret tt.
Proof. exact (@t_check_calc_equivalent_matrices_vs_sage lm). Qed.
Theorem C72_log2 (lm : libm) : accurate lm -> test_log2_bigint lm = Ret tt.
Proof. exact (@t_log2_bigint lm). Qed.
Theorem C72_internal (PF : prime_field) : 5%:R != 0 :> PF -> 7%:R != 0 :> PF ->
  test_internal_matrix_t_equals_2 PF = Ret tt /\ test_internal_matrix_t_equals_3 PF = Ret tt.
Proof. exact (fun h5 h7 => conj (@t_internal_matrix_t_equals_2 PF h5) (@t_internal_matrix_t_equals_3 PF h7)). Qed.
Theorem C72_external (PF : prime_field) : test_external_matrix_t_equals_4 PF = Ret tt /\ test_external_matrix_t_equals_8 PF = Ret tt.
Proof. exact (conj (@t_external_matrix_t_equals_4 PF) (@t_external_matrix_t_equals_8 PF)). Qed.

Print Assumptions C72_parameters.
Print Assumptions C72_inverse_2x2.
Print Assumptions C72_inverse_2x2_refuted.
Print Assumptions C72_few_failures.
Print Assumptions C72_hash.
Print Assumptions C72_vs_sage.
Print Assumptions C72_consistent.
Print Assumptions C72_gcd.
Print Assumptions C72_alpha_5.
Print Assumptions C72_alpha_17.
Print Assumptions C72_convert.
Print Assumptions C72_cauchy_method_mds.
Print Assumptions C72_calc_equivalent_matrices.
Print Assumptions C72_log2.
Print Assumptions C72_internal.
Print Assumptions C72_external.
