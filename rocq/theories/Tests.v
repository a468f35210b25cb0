(** Model of the repository's own tests: every [#[test]] function and [proptest!] body of
    poseidon-tests/tests/parameters.rs, poseidon377/src/hash.rs, poseidon-consistency/src/lib.rs
    and poseidon-paramgen/src/{alpha,mds,round_constants,utils,v2/internal,v2/external}.rs as a
    program on the model: [Ret tt] is a test that passes, [Panic] one that fails.  The tests of
    appendix_g.rs are C51, those of poseidon-tests/tests/poseidon377_r1cs.rs C65.

    [Fq::from(n)] is the class of [n]; a failed assertion, [unwrap] and [expect] panic. *)
From Coq Require Import ZArith NArith String Reals.
From Flocq Require Import Core.
From mathcomp Require Import all_ssreflect all_algebra.
From Verif Require Import Base Fq Matrix Params Montgomery Permutation Hash Bytes Transcript PrimeField Alpha Mds V1 V2 Build Rounds.
From Verif Require Import Rate2 Rate4.
Set Implicit Arguments.
Unset Strict Implicit.
Unset Printing Implicit Defensive.
Import GRing.Theory.
Delimit Scope Z_scope with Z.
Delimit Scope R_scope with Re.
Local Open Scope ring_scope.
Local Open Scope rust_scope.

Definition assert_eq {T : eqType} (a b : T) : outcome unit := require (a == b).

(** A run of [assert_eq!(m.get_element(i, j), F::from(v))], in the order of the source *)
Definition assert_entries (F : fieldType) (of_Z : Z -> F) (m : rmat F) (es : seq (nat * nat * Z)) : outcome unit :=
  for_in es (fun e _ => x <- get_element m e.1.1 e.1.2 ;; assert_eq x (of_Z e.2)) tt.
(** The same for all entries, row by row *)
Definition assert_rows (F : fieldType) (of_Z : Z -> F) (m : rmat F) (rows : seq (seq Z)) : outcome unit :=
  assert_entries of_Z m (flatten [seq [seq (ir.1, jx.1, jx.2) | jx <- enumerate ir.2] | ir <- enumerate rows]).

(** * poseidon-tests/tests/parameters.rs *)
Section Parameters.
Local Notation F := Fq_fieldType.
Local Notation of_Z := (Fq_of_Z : Z -> F).
Local Notation fr n := (Fq_of_Z n%Z : F).
Local Notation els l := (map of_Z l%Z).
Local Notation mat := (rmat F).

(** 9-15 *)
Definition test_identity_matrix : outcome unit :=
  identity <- identity F 2 4 ;;
  assert_entries of_Z identity [:: (0, 0, 1%Z); (0, 1, 0%Z); (1, 1, 1%Z); (1, 0, 0%Z)]%N.

(** 18-34 *)
Definition test_square_matmul : outcome unit :=
  identity <- identity F 2 4 ;;
  matrix_2x2 <- mnew 2 2 4 (els [:: 1; 2; 3; 4]) ;;
  res <- square_mat_mul 4 matrix_2x2 identity ;;
  assert_rows of_Z res [:: [:: 1; 2]; [:: 3; 4]]%Z.

(** 37-59 *)
Definition test_nonsquare_matmul_happy : outcome unit :=
  matrix_2x3 <- mnew 3 2 6 (els [:: 1; 2; 3; 4; 5; 6]) ;;
  matrix_3x2 <- transpose matrix_2x3 ;;
  res <- mat_mul 9 matrix_2x3 matrix_3x2 ;;
  assert_rows of_Z res [:: [:: 5; 11; 17]; [:: 11; 25; 39]; [:: 17; 39; 61]]%Z.

(** 62-80 *)
Definition test_hadamard_product : outcome unit :=
  matrix_3x2 <- mnew 3 2 6 (els [:: 1; 2; 3; 4; 5; 6]) ;;
  r <- hadamard_product matrix_3x2 matrix_3x2 ;; res <- expect r ;;
  assert_rows of_Z res [:: [:: 1; 4]; [:: 9; 16]; [:: 25; 36]]%Z.

(** 83-118 *)
Definition test_transpose : outcome unit :=
  matrix_2x3 <- mnew 3 2 6 (els [:: 1; 2; 3; 4; 5; 6]) ;;
  assert_entries of_Z matrix_2x3 [:: (0, 1, 2%Z); (1, 0, 3%Z); (1, 1, 4%Z); (2, 0, 5%Z); (2, 1, 6%Z)]%N ;;;
  res <- transpose matrix_2x3 ;;
  assert_entries of_Z res [:: (1, 0, 2%Z); (0, 1, 3%Z); (1, 1, 4%Z); (0, 2, 5%Z); (1, 2, 6%Z)]%N ;;;
  matrix_2x2 <- mnew 2 2 4 (els [:: 1; 2; 3; 4]) ;;
  res <- transpose matrix_2x2 ;;
  assert_rows of_Z res [:: [:: 1; 3]; [:: 2; 4]]%Z.

(** 121-136 *)
Definition test_cofactors : outcome unit :=
  identity_1x1 <- identity F 1 1 ;;
  expected_res <- mnew 1 1 1 (els [:: 1]) ;;
  c <- cofactors identity_1x1 ;; require (@rmat_eqb F c expected_res) ;;;
  identity_2x2 <- identity F 2 4 ;;
  expected_res <- mnew 2 2 4 [:: fr 1; - fr 1; - fr 1; fr 1] ;;
  c <- cofactors identity_2x2 ;; require (@rmat_eqb F c expected_res).

(** 138-142 [fq_strategy]: 16 bytes, [Fq::from_le_bytes_mod_order] *)
Definition from_le_bytes_mod_order (b : bytes) : F := of_Z (Z.of_N (le_val b)).

(** 144-152 *)
Definition prop_inverse_2x2 (a b c d : F) : outcome unit :=
  matrix_2x2 <- mnew 2 2 4 [:: a; b; c; d] ;;
  r <- inverse matrix_2x2 ;; res <- expect r ;;
  prod <- square_mat_mul 4 matrix_2x2 res ;; identity <- identity F 2 4 ;;
  require (@rmat_eqb F prod identity).
Definition proptest_inverse_2x2 (a b c d : bytes) : outcome unit :=
  prop_inverse_2x2 (from_le_bytes_mod_order a) (from_le_bytes_mod_order b) (from_le_bytes_mod_order c) (from_le_bytes_mod_order d).

(** 155-208 *)
Definition test_inverse : outcome unit :=
  matrix_1x1 <- mnew 1 1 1 (els [:: 2]) ;;
  r <- inverse matrix_1x1 ;; res <- expect r ;;
  prod <- square_mat_mul 1 matrix_1x1 res ;; id1 <- identity F 1 1 ;; require (@rmat_eqb F prod id1) ;;;
  matrix_2x2 <- mnew 2 2 4 (els [:: 1; 2; 3; 4]) ;;
  r <- inverse matrix_2x2 ;; res <- expect r ;;
  prod <- square_mat_mul 4 matrix_2x2 res ;; id2 <- identity F 2 4 ;; require (@rmat_eqb F prod id2) ;;;
  identity_3x3 <- identity F 3 9 ;;
  r <- inverse identity_3x3 ;; res <- expect r ;; require (@rmat_eqb F identity_3x3 res) ;;;
  matrix_3x3 <- mnew 3 3 9 [:: fr 3; fr 0; fr 2; fr 2; fr 0; - fr 2; fr 0; fr 1; fr 1] ;;
  r <- inverse matrix_3x3 ;; res <- expect r ;;
  prod <- square_mat_mul 9 matrix_3x3 res ;; id3 <- identity F 3 9 ;; require (@rmat_eqb F prod id3) ;;;
  e <- mnew 3 3 9 [:: fr 2; fr 2; fr 0; - fr 2; fr 3; fr 10; fr 2; - fr 3; fr 0] ;;
  k <- Matrix.fdiv (fr 1) (fr 10) ;; expected_res <- scalar_mul e k ;;
  require (@rmat_eqb F res expected_res).

(** 211-237 *)
Definition test_create_matrix_from_array : outcome unit :=
  matrix_2x2 <- mnew 2 2 4 (els [:: 1; 2; 3; 4]) ;;
  assert_rows of_Z matrix_2x2 [:: [:: 1; 2]; [:: 3; 4]]%Z ;;;
  matrix_2x3 <- mnew 2 3 6 (els [:: 1; 2; 3; 4; 5; 6]) ;;
  assert_rows of_Z matrix_2x3 [:: [:: 1; 2; 3]; [:: 4; 5; 6]]%Z.

(** 240-285; the elements of the matrix of size [n] are 1 to 9 followed by tens (265-284) *)
Definition tens (n : nat) : seq F := els [:: 1; 2; 3; 4; 5; 6; 7; 8; 9] ++ nseq (n * n - 9) (fr 10).
Definition assert_det (n : nat) (elements : seq F) (v : F) : outcome unit :=
  m <- mnew n n (n * n) elements ;; d <- determinant m ;; assert_eq d v.
Definition test_determinant : outcome unit :=
  assert_det 1 [:: fr 1] (fr 1) ;;;
  let b := fr 1 + fr 1 in
  assert_det 2 [:: fr 1; b; fr 3; fr 4] (- fr 2) ;;;
  assert_det 3 [:: fr 1; b; fr 3; fr 4; fr 5; fr 6; fr 7; fr 8; fr 9] (fr 0) ;;;
  assert_det 4 (tens 4) (fr 0) ;;; assert_det 5 (tens 5) (fr 0) ;;; assert_det 6 (tens 6) (fr 0) ;;;
  assert_det 7 (tens 7) (fr 0) ;;; assert_det 8 (tens 8) (fr 0).
End Parameters.

(** * poseidon-consistency/src/lib.rs *)
Section Consistency.
(** 24-35, 51-62; [from_ark_fq] is the identity on integers *)
Definition sage_output_words : seq Fq := map Fq_of_Z [::
  6368779772888548211318735707249600947486536081021109980085678920065117075165;
  546637332213889354237126997303352456465330747031466737868777261691321847212;
  1488544471679348337017344865262529731114801536476862121626711131361325263279]%Z.

Definition assert_words (r : Fq * seq Fq) : outcome unit :=
  let: (hash_output, state) := r in
  let words := output_words state in
  w <- aget words 1 ;; assert_eq hash_output w ;;;
  for_in (zip sage_output_words words) (fun ab _ => assert_eq ab.1 ab.2) tt.

(** 17-39 *)
Definition test_check_optimized_impl_vs_sage : outcome unit :=
  r <- n_to_1_fixed_hash RATE_2_PARAMS (map Fq_of_Z [:: 0; 1; 2]%Z) (instance_new RATE_2_PARAMS) ;; assert_words r.
(** 41-66 *)
Definition test_check_unoptimized_impl_vs_sage : outcome unit :=
  r <- unoptimized_n_to_1_fixed_hash RATE_2_PARAMS (map Fq_of_Z [:: 0; 1; 2]%Z) (instance_new RATE_2_PARAMS) ;; assert_words r.
(** 68-88 *)
Definition prop_optimized_and_unoptimized_permutation_consistent (elem_1 elem_2 elem_3 elem_4 elem_5 : Fq) : outcome unit :=
  our <- n_to_1_fixed_hash RATE_4_PARAMS [:: elem_1; elem_2; elem_3; elem_4; elem_5] (instance_new RATE_4_PARAMS) ;;
  unoptimized <- unoptimized_n_to_1_fixed_hash RATE_4_PARAMS [:: elem_1; elem_2; elem_3; elem_4; elem_5] (instance_new RATE_4_PARAMS) ;;
  assert_eq unoptimized.1 our.1.
End Consistency.

(** * poseidon377/src/hash.rs *)
Section HashTests.
(** 84 *)
Definition domain_sep_test : Fq := from_le_bytes_mod_order (str "Penumbra_TestVec").
(** The numbers of the six tests: the output of one test is the last input of the next *)
Definition in_1 : Fq := Fq_of_Z 7553885614632219548127688026174585776320152166623257619763178041781456016062.
Definition out_1 : Fq := Fq_of_Z 2337838243217876174544784248400816541933405738836087430664765452605435675740.
Definition out_2 : Fq := Fq_of_Z 4318449279293553393006719276941638490334729643330833590842693275258805886300.
Definition out_3 : Fq := Fq_of_Z 2884734248868891876687246055367204388444877057000108043377667455104051576315.
Definition out_4 : Fq := Fq_of_Z 5235431038142849831913898188189800916077016298531443239266169457588889298166.
Definition out_5 : Fq := Fq_of_Z 66948599770858083122195578203282720327054804952637730715402418442993895152.
Definition out_6 : Fq := Fq_of_Z 6797655301930638258044003960605211404784492298673033525596396177265014216269.

(** 82-97, 100-122, 125-151, 154-184, 187-221, 224-263 *)
Definition test_rate_1 := output <- hash_1 domain_sep_test in_1 ;; assert_eq output out_1.
Definition test_rate_2 := output <- hash_2 domain_sep_test (in_1, out_1) ;; assert_eq output out_2.
Definition test_rate_3 := output <- hash_3 domain_sep_test (in_1, out_1, out_2) ;; assert_eq output out_3.
Definition test_rate_4 := output <- hash_4 domain_sep_test (in_1, out_1, out_2, out_3) ;; assert_eq output out_4.
Definition test_rate_5 := output <- hash_5 domain_sep_test (in_1, out_1, out_2, out_3, out_4) ;; assert_eq output out_5.
Definition test_rate_6 := output <- hash_6 domain_sep_test (in_1, out_1, out_2, out_3, out_4, out_5) ;; assert_eq output out_6.
End HashTests.

(** * poseidon-paramgen *)

(** [ark_ed_on_bls12_381::Fq::MODULUS], [ark_bn254::Fq::MODULUS] *)
Definition p381 : Z := 52435875175126190479447740508185965837690552500527637822603658699938581184513.
Definition p254 : Z := 21888242871839275222246405745257275088696311157297823662689037894645226208583.

(** alpha.rs:81-95; [Fq377::MODULUS] is [q] *)
Definition test_gcd : outcome unit :=
  assert_eq (Z.gcd 16 24) 8%Z ;;; assert_eq (Z.gcd 33 11) 11%Z ;;; assert_eq (Z.gcd 17 11) 1%Z ;;;
  assert_eq (Z.gcd 11586173 63141853) 1%Z ;;; assert_eq (Z.gcd 5 (q - 1)) 5%Z.

Definition alpha_eqb (a b : alpha) : bool :=
  match a, b with Exponent x, Exponent y => N.eqb x y | Inverse, Inverse => true | _, _ => false end.

(** alpha.rs:97-106 *)
Definition test_check_alpha_5 (Fq381 Fq254 : prime_field) : outcome unit :=
  a <- alpha_generate Fq381 (pf_p Fq381) true ;; require (alpha_eqb a (Exponent 5)) ;;;
  a <- alpha_generate Fq254 (pf_p Fq254) true ;; require (alpha_eqb a (Exponent 5)).
(** alpha.rs:108-113 *)
Definition test_check_alpha_17 (Fq377 : prime_field) : outcome unit :=
  a <- alpha_generate Fq377 (pf_p Fq377) true ;; require (alpha_eqb a (Exponent 17)).

Section Vecs.
Variable PF : prime_field.
(** [vec_of_vecs[i][j]] for all [i] and [j], row by row *)
Definition assert_vecs (vec_of_vecs : seq (seq PF)) (rows : seq (seq Z)) : outcome unit :=
  for_in (enumerate rows) (fun ir _ => for_in (enumerate ir.2) (fun jx _ =>
    row <- aget vec_of_vecs ir.1 ;; x <- aget row jx.1 ;; assert_eq x (pf_of PF jx.2)) tt) tt.

(** round_constants.rs:117-138 *)
Definition test_convert_from_arc_to_vec_of_vecs : outcome unit :=
  arc_matrix <- mnew 2 3 6 (map (pf_of PF) [:: 1; 2; 0; 4; 5; 6]%Z) ;;
  vec_of_vecs <- arc_matrix_to_vec_vec arc_matrix ;;
  assert_vecs vec_of_vecs [:: [:: 1; 2; 0]; [:: 4; 5; 6]]%Z.
(** mds.rs:262-275; the conversion of an [MdsMatrix] is external (older poseidon-parameters), it lists the rows *)
Definition test_convert_from_mds_to_vec_of_vecs : outcome unit :=
  MDS_matrix <- from_vec (map (pf_of PF) [:: 1; 2; 3; 4]%Z) ;;
  vec_of_vecs <- arc_matrix_to_vec_vec MDS_matrix ;;
  assert_vecs vec_of_vecs [:: [:: 1; 2]; [:: 3; 4]]%Z.

(** mds.rs:277-288 *)
Definition test_cauchy_method_mds (lm : libm) : outcome unit :=
  let input := input_generate (log2 lm) 128 3 (pf_p PF) 4 true in
  MDS_matrix <- v1_generate_mds PF input ;;
  det <- determinant MDS_matrix ;; require (det != 0) ;;;
  require (n_rows MDS_matrix == 3)%N ;;;
  x <- get_element MDS_matrix 0 0 ;; require (x != 0).

(** v2/internal.rs:52-64, 66-85 *)
Definition test_internal_matrix_t_equals_2 : outcome unit :=
  matrix <- internal_generate PF 2 ;; assert_rows (pf_of PF) matrix [:: [:: 2; 1]; [:: 1; 3]]%Z.
Definition test_internal_matrix_t_equals_3 : outcome unit :=
  matrix <- internal_generate PF 3 ;; assert_rows (pf_of PF) matrix [:: [:: 2; 1; 1]; [:: 1; 2; 1]; [:: 1; 1; 3]]%Z.
(** v2/external.rs:80-108, 110-193 *)
Definition test_external_matrix_t_equals_4 : outcome unit :=
  matrix <- external_generate PF 4 ;;
  assert_rows (pf_of PF) matrix [:: [:: 5; 7; 1; 3]; [:: 4; 6; 1; 1]; [:: 1; 3; 5; 7]; [:: 1; 1; 4; 6]]%Z.
Definition test_external_matrix_t_equals_8 : outcome unit :=
  matrix <- external_generate PF 8 ;;
  assert_rows (pf_of PF) matrix [::
    [:: 10; 14; 2; 6; 5; 7; 1; 3]; [:: 8; 12; 2; 2; 4; 6; 1; 1];
    [:: 2; 6; 10; 14; 1; 3; 5; 7]; [:: 2; 2; 8; 12; 1; 1; 4; 6];
    [:: 5; 7; 1; 3; 10; 14; 2; 6]; [:: 4; 6; 1; 1; 8; 12; 2; 2];
    [:: 1; 3; 5; 7; 2; 6; 10; 14]; [:: 1; 1; 4; 6; 2; 2; 8; 12]]%Z.
End Vecs.

(** mds.rs:290-375 *)
Definition expected_v : seq (seq Z) := [::
  [:: 6333346312071277818186618704086159898531924501365547870951425091938056929281;
      6755569399542696339399059951025237225100719468123251062348186764733927391233];
  [:: 7740756603642672888894756193883084320427907723891225175607297334590958469121;
      7851338840837568215878966996652842667862592119946814106687401582227972161537]]%Z.
Definition expected_w_hat : seq (seq Z) := [::
  [:: 3; 844446174942837042424882493878154653137589933515406382793523345591740923902];
  [:: 981; 1688892349885674084849764987756309306275179867030812765587046691183481846649]]%Z.
Definition expected_M_i : seq Z := [:: 1; 0; 0; 0;
  1949629285152675843545617098663080067734218406516000484720630379218497119024;
  6804287869450188502728877251894011667833647269738979685488937504164506768586; 0;
  6804287869450188502728877251894011667833647269738979685488937504164506768586;
  4924677972410444052137834859533533887056104638988047570112284264367323462906]%Z.
(** [for i in 0..expected.len()] { [for (j, x) in collection[i].elements().iter().enumerate()] { ... } } *)
Definition assert_collection (collection : seq (rmat Fq_fieldType)) (expected : seq (seq Z)) : outcome unit :=
  for_in (range 0 (size expected)) (fun i _ =>
    m <- aget collection i ;;
    for_in (enumerate (elements m)) (fun jx _ =>
      row <- aget expected i ;; e <- aget row jx.1 ;; assert_eq (jx.2 : Fq) (Fq_of_Z e)) tt) tt.
Definition test_check_calc_equivalent_matrices_vs_sage (lm : libm) : outcome unit :=
  let input := input_generate (log2 lm) 128 3 q 4 true in
  rounds <- v1_rounds lm input (Exponent 17) ;;
  mds <- v1_generate_mds Fq_pf input ;;
  M_00 <- get_element mds 0 0 ;;
  assert_eq (M_00 : Fq) (Fq_of_Z 5629641166285580282832549959187697687583932890102709218623488970611606159361) ;;;
  c <- calc_equivalent_matrices mds rounds ;;
  let: (M_i, v_collection, w_hat_collection) := c in
  assert_collection v_collection expected_v ;;;
  assert_collection w_hat_collection expected_w_hat ;;;
  for_in (zip (elements M_i) expected_M_i) (fun ab _ => assert_eq (ab.1 : Fq) (Fq_of_Z ab.2)) tt.

(** utils.rs:39-54; a literal is the nearest [f64] *)
Definition test_log2_bigint (lm : libm) : outcome unit :=
  require (Req_bool (log2 lm 4) 2) ;;;
  require (Rlt_bool (f64_rnd (8005 / 1000)) (log2 lm 257)) ;;;
  require (Rlt_bool (log2 lm 257) (f64_rnd (8006 / 1000))) ;;;
  require (Req_bool (log2 lm 65536) 16) ;;;
  require (Rlt_bool (f64_rnd (254856 / 1000)) (log2 lm p381)) ;;;
  require (Rlt_bool (log2 lm p381) (f64_rnd (254858 / 1000))).
