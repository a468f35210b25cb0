From Coq Require Import ZArith NArith String Reals Lia.
From mathcomp Require Import all_ssreflect all_algebra.
From Verif Require Import Base Fq Matrix MatrixSpec MatrixProofs MatrixProps Params PrimeField Bytes Alpha AlphaProofs V1 V2 V2Spec V2Proofs Build Mds MdsProofs Cauchy MdsCauchy Rounds Tests.
Set Implicit Arguments.
Unset Strict Implicit.
Unset Printing Implicit Defensive.
Import GRing.Theory.
Delimit Scope Z_scope with Z.
Local Open Scope ring_scope.

Section Generic.
Variable PF : prime_field.

Lemma assert_eqxx (T : eqType) (x : T) : assert_eq x x = Ret tt.
Proof. by rewrite /assert_eq eqxx. Qed.

Lemma t_convert_from_arc_to_vec_of_vecs : test_convert_from_arc_to_vec_of_vecs PF = Ret tt.
Proof. by rewrite /test_convert_from_arc_to_vec_of_vecs /assert_vecs /= !assert_eqxx. Qed.
Lemma t_convert_from_mds_to_vec_of_vecs : test_convert_from_mds_to_vec_of_vecs PF = Ret tt.
Proof. by rewrite /test_convert_from_mds_to_vec_of_vecs /assert_vecs /= !assert_eqxx. Qed.

Lemma natE (n : nat) : n%:R = pf_of PF (Z.of_nat n).
Proof. by rewrite pf_of_nat. Qed.

Lemma t_external_matrix_t_equals_4 : test_external_matrix_t_equals_4 PF = Ret tt.
Proof.
rewrite /test_external_matrix_t_equals_4 /external_generate /M4_elements !natE -(pf_of_1 PF).
by rewrite /assert_rows /assert_entries /= !assert_eqxx.
Qed.

Lemma t_internal_matrix_t_equals_2 : 5%:R != 0 :> PF -> test_internal_matrix_t_equals_2 PF = Ret tt.
Proof.
move=> h; rewrite /test_internal_matrix_t_equals_2 internal_generateE h /=.
rewrite ofM_mkm /assert_rows /assert_entries /=.
by rewrite !mxf_at //= !mxE /= !natE !assert_eqxx.
Qed.
Lemma t_internal_matrix_t_equals_3 : 7%:R != 0 :> PF -> test_internal_matrix_t_equals_3 PF = Ret tt.
Proof.
move=> h; rewrite /test_internal_matrix_t_equals_3 internal_generateE h /=.
rewrite ofM_mkm /assert_rows /assert_entries /=.
by rewrite !mxf_at //= !mxE /= !natE !assert_eqxx.
Qed.
Lemma assert_entries_ok t (A : 'M[PF]_t) (f : nat -> nat -> nat) es :
    (forall i j, A i j = (f i j)%:R) ->
    all (fun e : nat * nat * Z => [&& (e.1.1 < t)%N, (e.1.2 < t)%N & (Z.of_nat (f e.1.1 e.1.2) =? e.2)%Z]) es ->
  assert_entries (pf_of PF) (ofM A) es = Ret tt.
Proof.
move=> Af; rewrite /assert_entries; elim: es => //= e es IH /andP [/and3P [hi hj /Z.eqb_eq <-] /IH] {}IH.
by rewrite ofM_mkm get_mkm // bind_ret mxf_at Af /= pf_of_nat assert_eqxx bind_ret -[RHS]IH ofM_mkm.
Qed.

Lemma t_external_matrix_t_equals_8 : test_external_matrix_t_equals_8 PF = Ret tt.
Proof.
have E : external_generate PF 8 = Ret (ofM (external_mx PF 2)) by rewrite external_generateE.
rewrite /test_external_matrix_t_equals_8 E bind_ret /assert_rows.
apply: (@assert_entries_ok _ _ (fun i j => ((i %/ 4 == j %/ 4).+1 * m4 (i %% 4) (j %% 4))%N)); last by vm_compute.
by move=> i j; rewrite mxE.
Qed.

Lemma t_cauchy_method_mds lm : (2 ^ 127 <= pf_p PF)%Z -> test_cauchy_method_mds PF lm = Ret tt.
Proof.
move=> h.
have E L (lg : Z -> L) : v1_generate_mds PF (input_generate lg 128 3 (pf_p PF) 4 true) = Ret (ofM (cauchy_mx PF 3)).
  by rewrite v1_generate_mdsE // (proj2 (Z.leb_le _ _) h).
rewrite /test_cauchy_method_mds E bind_ret determinant_ofM // bind_ret.
have small : (3 * Z.of_nat 3 <= pf_p PF)%Z by lia.
have u : cauchy_mx PF 3 \in unitmx by apply: mds_unit; apply: generated_mds.
rewrite require_ret; last by rewrite -unitfE -unitmxE.
rewrite require_ret // ofM_mkm get_mkm // bind_ret mxf_at // /require ifT //.
by rewrite mxE invr_eq0 /=; apply: (small_of_p small).
Qed.
End Generic.

(** * alpha.rs *)
Section AlphaTests.
Variable PF : prime_field.
Lemma alpha_selected k e allow : (128 < pf_p PF)%Z ->
    odd_exponents = take k odd_exponents ++ N.to_nat e :: drop k.+1 odd_exponents ->
    (Z.gcd (Z.of_N e) (pf_p PF - 1) =? 1)%Z ->
    all (fun e' => ~~ (Z.gcd (Z.of_nat e') (pf_p PF - 1) =? 1)%Z) (take k odd_exponents) ->
  alpha_generate PF (pf_p PF) allow = Ret (Exponent e).
Proof.
move=> big split cop ncop; apply/(generate_exponent _ _ big).
exists (take k odd_exponents), (drop k.+1 odd_exponents); split=> // [|e' /(allP ncop)].
  by rewrite -[N.to_nat e]Nat2Z.id N_nat_Z coprime_gcd //; lia.
by rewrite -[e' in coprime e']Nat2Z.id coprime_gcd //; lia.
Qed.
End AlphaTests.

Lemma t_check_alpha_5 Fq381 Fq254 : pf_p Fq381 = p381 -> pf_p Fq254 = p254 ->
  test_check_alpha_5 Fq381 Fq254 = Ret tt.
Proof.
move=> h1 h2.
have E1 : alpha_generate Fq381 (pf_p Fq381) true = Ret (Exponent 5).
  by apply: (@alpha_selected _ (index 5%N odd_exponents) 5); rewrite ?h1; vm_compute.
have E2 : alpha_generate Fq254 (pf_p Fq254) true = Ret (Exponent 5).
  by apply: (@alpha_selected _ (index 5%N odd_exponents) 5); rewrite ?h2; vm_compute.
by rewrite /test_check_alpha_5 E1 bind_ret require_ret // E2 bind_ret.
Qed.
Lemma t_check_alpha_17 Fq377 : pf_p Fq377 = q -> test_check_alpha_17 Fq377 = Ret tt.
Proof.
move=> h.
have E : alpha_generate Fq377 (pf_p Fq377) true = Ret (Exponent 17).
  by apply: (@alpha_selected _ (index 17%N odd_exponents) 17); rewrite ?h; vm_compute.
by rewrite /test_check_alpha_17 E bind_ret.
Qed.
