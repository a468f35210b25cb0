(** The tests that run the shipped parameters: the vectors of hash.rs, the consistency
    tests against the Sage script, and the matrices of mds.rs. *)
From Coq Require Import ZArith NArith String Lia.
From Bignums Require Import BigZ.
From mathcomp Require Import all_ssreflect all_algebra.
From Verif Require Import Base Fq Matrix MatrixSpec MatrixProofs MatrixProps Params Montgomery Permutation Spec Bytes.
From Verif Require Import PermutationProofs PoseidonProofs Check CheckSound BigField RateChecks Cauchy Shipped Hash PoseidonProps.
From Verif Require Import Rate2 Rate4 TestVectors SageShipped SageExamples PrimeField Alpha Transcript Mds MdsProofs MdsCauchy V1 Rounds RoundsSpec RoundsProps Reproduce.
From Verif Require Import Tests TestsParamgen.
Set Implicit Arguments.
Unset Strict Implicit.
Unset Printing Implicit Defensive.
Import GRing.Theory.
Local Open Scope ring_scope.
Delimit Scope Z_scope with Z.

(** * hash.rs *)
Lemma domain_sepE : domain_sep_test = Fq_of_Z penumbra_testvec.
Proof. by congr Fq_of_Z; vm_compute. Qed.

Lemma t_rate_1 : test_rate_1 = Ret tt.
Proof. by rewrite /test_rate_1 domain_sepE rate_1_vector bind_ret; exact: assert_eqxx. Qed.
Lemma t_rate_2 : test_rate_2 = Ret tt.
Proof. by rewrite /test_rate_2 domain_sepE rate_2_vector bind_ret; exact: assert_eqxx. Qed.
Lemma t_rate_3 : test_rate_3 = Ret tt.
Proof. by rewrite /test_rate_3 domain_sepE rate_3_vector bind_ret; exact: assert_eqxx. Qed.
Lemma t_rate_4 : test_rate_4 = Ret tt.
Proof. by rewrite /test_rate_4 domain_sepE rate_4_vector bind_ret; exact: assert_eqxx. Qed.
Lemma t_rate_5 : test_rate_5 = Ret tt.
Proof. by rewrite /test_rate_5 domain_sepE rate_5_vector bind_ret; exact: assert_eqxx. Qed.
Lemma t_rate_6 : test_rate_6 = Ret tt.
Proof. by rewrite /test_rate_6 domain_sepE rate_6_vector bind_ret; exact: assert_eqxx. Qed.

(** * poseidon-consistency *)
Lemma rate_4_shipped : List.In RATE_4_PARAMS shipped.
Proof. by rewrite shippedE; right; right; right; left. Qed.

Lemma words_012 : ofV (shipped_poseidon RATE_2_PARAMS (toV (1 + p_t1 RATE_2_PARAMS) (map Fq_of_Z [:: 0; 1; 2]%Z))) = sage_output_words.
Proof.
rewrite -(run_textbookE rate_2_shipped) ofV_toV; last exact: erefl.
have -> : sage_output_words = map phi (run_textbook bops (map_params bmont rate_2_raw) [:: 0; 1; 2]%bigZ).
  transitivity (map Fq_of_Z SageExamples.output_words); first exact: erefl.
  by rewrite -run_big -map_comp.
rewrite (run_textbook_phi phi0 phi_add phi_mul) map_params_comp (eq_map_params _ phi_bmont).
exact: erefl.
Qed.

Lemma assert_zip (T : eqType) (s : seq T) : for_in (zip s s) (fun ab _ => assert_eq ab.1 ab.2) tt = Ret tt.
Proof. by elim: s => //= x s IH; rewrite assert_eqxx. Qed.
Lemma size_words : size sage_output_words = 3%N. Proof. exact: erefl. Qed.
Lemma assert_words_ok : assert_words (nth 0 sage_output_words 1, sage_output_words) = Ret tt.
Proof.
rewrite /assert_words /output_words; move: sage_output_words size_words => s sz.
by rewrite (aget_nth 0) ?sz // bind_ret assert_eqxx bind_ret assert_zip.
Qed.

Lemma t_check_vs_sage : test_check_optimized_impl_vs_sage = Ret tt /\ test_check_unoptimized_impl_vs_sage = Ret tt.
Proof.
rewrite /test_check_optimized_impl_vs_sage /test_check_unoptimized_impl_vs_sage.
have [-> ->] := @shipped_hash _ rate_2_shipped (map Fq_of_Z [:: 0; 1; 2]%Z) (instance_new RATE_2_PARAMS) erefl erefl.
by rewrite !bind_ret words_012 assert_words_ok.
Qed.

Lemma p_consistent e1 e2 e3 e4 e5 : prop_optimized_and_unoptimized_permutation_consistent e1 e2 e3 e4 e5 = Ret tt.
Proof.
rewrite /prop_optimized_and_unoptimized_permutation_consistent.
have [-> ->] := @shipped_hash _ rate_4_shipped [:: e1; e2; e3; e4; e5] (instance_new RATE_4_PARAMS) erefl erefl.
by rewrite !bind_ret assert_eqxx.
Qed.

(** * mds.rs:290-375 *)
Lemma optimized_calc (F : fieldType) (m : rmat F) t r om : mds_generate_optimized m t r = Ret om ->
  calc_equivalent_matrices m r = Ret (om_M_i om, om_v_collection om, om_w_hat_collection om).
Proof.
rewrite /mds_generate_optimized; case: (calc_equivalent_matrices m r) => [[[M_i v] w]|]; last first.
  by do ![match goal with |- bind ?x _ = _ -> _ => case: x => // ? end; rewrite ?bind_ret].
do ![match goal with |- bind ?x _ = _ -> _ => case: x => // ? end; rewrite ?bind_ret].
by case=> <-.
Qed.

Lemma generated_matrices lm p : accurate lm -> List.In p shipped -> p_t p = 3%N ->
  calc_equivalent_matrices (ofM (cauchy_mx Fq_pf 3)) (RoundNumbers 31 8) =
  Ret (om_M_i (p_optimized_mds p), om_v_collection (p_optimized_mds p), om_w_hat_collection (p_optimized_mds p)).
Proof.
move=> acc hp h3; have := reproduced true acc hp; rewrite h3.
rewrite /v1_generate alpha_q bind_ret (@q_rounds lm 3 4 true acc isT) bind_ret.
have -> : v1_generate_mds Fq_pf (input_generate (log2 lm) 128 3 q 4 true) = Ret (ofM (cauchy_mx Fq_pf 3)).
  by rewrite v1_generate_mdsE //; exact: ifT.
rewrite bind_ret; case: (v1_generate_arc _ _ _ _ _) => // arc; rewrite bind_ret.
case E: (mds_generate_optimized _ _ _) => [om|] //; rewrite bind_ret.
case: (arc_generate_optimized _ _ _ _) => // oarc; rewrite bind_ret => -[<-].
exact: optimized_calc E.
Qed.

Lemma assert_enumerate (e : seq Z) (es : seq Fq) : es = map Fq_of_Z e ->
  for_in (enumerate es) (fun jx _ => bind (aget e jx.1) (fun z => assert_eq (jx.2 : Fq) (Fq_of_Z z))) tt = Ret tt.
Proof.
move=> ->; rewrite /enumerate size_map.
suff H : forall k n, (n + k = size e)%N -> for_in (zip (iota n k) (map Fq_of_Z (drop n e)))
    (fun jx _ => bind (aget e jx.1) (fun z => assert_eq (jx.2 : Fq) (Fq_of_Z z))) tt = Ret tt.
  by have := H (size e) 0%N erefl; rewrite drop0.
elim=> [|k IH] n h; first by case: (drop _ _).
have ln : (n < size e)%N by rewrite -h -addSnnS leq_addr.
rewrite (drop_nth 0%Z ln) /= (aget_nth 0%Z ln) bind_ret assert_eqxx bind_ret.
by apply: IH; rewrite addSnnS.
Qed.

Lemma assert_collection_ok (ms : seq (rmat Fq_fieldType)) expected :
  [seq elements m | m <- take (size expected) ms] = [seq map Fq_of_Z e | e <- expected] ->
  assert_collection ms expected = Ret tt.
Proof.
move=> E; rewrite /assert_collection.
have sz : (size expected <= size ms)%N.
  by have := congr1 size E; rewrite !size_map size_take; case: ltnP => // [/ltnW|_ ->].
rewrite (eq_in_for_in (g := fun _ _ => Ret tt)); first by elim: (range _ _).
move=> i [] /=; rewrite mem_iota subn0 /= => hi.
rewrite (aget_nth (Rmat 0 0 [::])) ?(leq_trans hi sz) // bind_ret (aget_nth [::] hi).
rewrite (eq_in_for_in (g := fun jx _ => bind (aget (nth [::] expected i) jx.1) (fun z => assert_eq (jx.2 : Fq) (Fq_of_Z z)))).
  apply: assert_enumerate.
  have := congr1 (fun l => nth [::] l i) E; rewrite (nth_map (Rmat 0 0 [::])); last by rewrite size_takel.
  by rewrite nth_take // (nth_map [::]).
by [].
Qed.

Lemma third : (3%:R : Fq)^-1 = Fq_of_Z 5629641166285580282832549959187697687583932890102709218623488970611606159361.
Proof.
have n3 : (3%:R : Fq) != 0 by rewrite -(Fq_of_Z_nat 3) Fq_of_Z_eq0.
apply: (mulfI n3); rewrite divff // -(Fq_of_Z_nat 3) -Fq_of_Z_mul.
by rewrite -[1]/(1%:R) -(Fq_of_Z_nat 1); apply: Fq_of_Z_eq; vm_compute.
Qed.

Lemma two_rows k (ls : seq (seq limbs)) (zs : seq (seq Z)) : map size ls = [:: k; k] -> map size zs = [:: k; k] ->
  [seq BigZ.to_Z (bmont l) | l <- flatten ls] = flatten zs -> map (map from_montgomery_limbs) ls = map (map Fq_of_Z) zs.
Proof.
case: ls => [|l1 [|l2 [|]]] // [s1 s2]; case: zs => [|z1 [|z2 [|]]] // [t1 t2].
rewrite /= !cats0 map_cat => /eqP; rewrite eqseq_cat ?size_map ?s1 ?t1 // => /andP [/eqP E1 /eqP E2].
by rewrite (expected_mont E1) (expected_mont E2).
Qed.

Lemma collections : [/\
  [seq elements m | m <- take (size expected_v) (om_v_collection (p_optimized_mds RATE_2_PARAMS))] = [seq map Fq_of_Z e | e <- expected_v],
  [seq elements m | m <- take (size expected_w_hat) (om_w_hat_collection (p_optimized_mds RATE_2_PARAMS))] = [seq map Fq_of_Z e | e <- expected_w_hat] &
  elements (om_M_i (p_optimized_mds RATE_2_PARAMS)) = map Fq_of_Z expected_M_i].
Proof.
have [H1 H2 H3] := expected_big; split.
- rewrite -(@two_rows 2 (map (@elements _) (take 2 rate_2_v_collection)) expected_v); [exact: erefl | exact: erefl | exact: erefl | exact: H1].
- rewrite -(@two_rows 2 (map (@elements _) (take 2 rate_2_w_hat_collection)) expected_w_hat); [exact: erefl | exact: erefl | exact: erefl | exact: H2].
- exact: (expected_mont H3).
Qed.

Lemma assert_zip_map (zs : seq Z) :
  for_in (zip (map Fq_of_Z zs) zs) (fun ab _ => assert_eq (ab.1 : Fq) (Fq_of_Z ab.2)) tt = Ret tt.
Proof. by elim: zs => //= z zs IH; rewrite assert_eqxx. Qed.

Lemma t_check_calc_equivalent_matrices_vs_sage lm : accurate lm -> test_check_calc_equivalent_matrices_vs_sage lm = Ret tt.
Proof.
move=> acc; rewrite /test_check_calc_equivalent_matrices_vs_sage (@q_rounds lm 3 4 true acc isT) bind_ret.
have -> : v1_generate_mds Fq_pf (input_generate (log2 lm) 128 3 q 4 true) = Ret (ofM (cauchy_mx Fq_pf 3)).
  by rewrite v1_generate_mdsE //; exact: ifT.
rewrite bind_ret [in get_element _ _ _]ofM_mkm get_mkm // bind_ret mxf_at.
rewrite [cauchy_mx _ _ _ _]mxE [X in assert_eq X]third assert_eqxx bind_ret.
rewrite (generated_matrices acc rate_2_shipped erefl) bind_ret; move: collections.
move: (om_M_i _) (om_v_collection _) (om_w_hat_collection _) => a b c [C1 C2 C3].
by rewrite (assert_collection_ok C1) bind_ret (assert_collection_ok C2) bind_ret C3 assert_zip_map.
Qed.
