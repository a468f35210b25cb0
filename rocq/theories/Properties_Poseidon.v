(** Properties C01-C08 and C14-C18: the permutation, the hash functions and the
    shipped parameter sets.  Statements only; proofs in [PoseidonProps.v] and
    the files it uses; concrete instances in [TestVectors.v] (the repository's
    test vectors) and [PoseidonExamples.v]. *)
From Coq Require Import ZArith.
From mathcomp Require Import all_ssreflect all_algebra.
From Verif Require Import Base Fq Matrix MatrixSpec Params Permutation Montgomery Spec.
From Verif Require Import Rate1 Rate2 Rate3 Rate4 Rate5 Rate6 Rate7.
From Verif Require Import PoseidonProofs RateChecks Cauchy SBox Shipped Hash PoseidonProps.
Import GRing.Theory.
Local Open Scope ring_scope.
Local Open Scope rust_scope.
Delimit Scope Z_scope with Z.

(** ** C01.  The outcomes are pairs of the result and [output_words()]. *)
Theorem C01_optimized_equals_unoptimized (p : params Fq_fieldType) :
  List.In p shipped -> forall input st : seq Fq, size input = p_t p -> size st = p_t p ->
  n_to_1_fixed_hash p input st = unoptimized_n_to_1_fixed_hash p input st.
Proof. exact: opt_eq_unopt. Qed.
Print Assumptions C01_optimized_equals_unoptimized.

(** ** C02.  [poseidon] is the textbook permutation of [Spec.v]. *)
Definition spec_hash (t : nat) (arc input : seq Fq) : Fq :=
  nth 0 (ofV (poseidon (fun x => x ^+ 17) (\matrix_(i < 1 + t, j < 1 + t) ((i + (1 + t) + j)%:R)^-1)
    (fun r => \col_i nth 0 arc (r * (1 + t) + i)) 4 31 (\col_i nth 0 input i))) 1.

Theorem C02_hash_1 ds v0 : hash_1 ds v0
  = Ret (spec_hash 1 (elements (p_arc RATE_1_PARAMS)) [:: ds; v0]).
Proof. exact: hash_1E. Qed.
Print Assumptions C02_hash_1.
Theorem C02_hash_2 ds v0 v1 : hash_2 ds (v0, v1)
  = Ret (spec_hash 2 (elements (p_arc RATE_2_PARAMS)) [:: ds; v0; v1]).
Proof. exact: hash_2E. Qed.
Print Assumptions C02_hash_2.
Theorem C02_hash_3 ds v0 v1 v2 : hash_3 ds (v0, v1, v2)
  = Ret (spec_hash 3 (elements (p_arc RATE_3_PARAMS)) [:: ds; v0; v1; v2]).
Proof. exact: hash_3E. Qed.
Print Assumptions C02_hash_3.
Theorem C02_hash_4 ds v0 v1 v2 v3 : hash_4 ds (v0, v1, v2, v3)
  = Ret (spec_hash 4 (elements (p_arc RATE_4_PARAMS)) [:: ds; v0; v1; v2; v3]).
Proof. exact: hash_4E. Qed.
Print Assumptions C02_hash_4.
Theorem C02_hash_5 ds v0 v1 v2 v3 v4 : hash_5 ds (v0, v1, v2, v3, v4)
  = Ret (spec_hash 5 (elements (p_arc RATE_5_PARAMS)) [:: ds; v0; v1; v2; v3; v4]).
Proof. exact: hash_5E. Qed.
Print Assumptions C02_hash_5.
Theorem C02_hash_6 ds v0 v1 v2 v3 v4 v5 : hash_6 ds (v0, v1, v2, v3, v4, v5)
  = Ret (spec_hash 6 (elements (p_arc RATE_6_PARAMS)) [:: ds; v0; v1; v2; v3; v4; v5]).
Proof. exact: hash_6E. Qed.
Print Assumptions C02_hash_6.
Theorem C02_hash_7 ds v0 v1 v2 v3 v4 v5 v6 : hash_7 ds (v0, v1, v2, v3, v4, v5, v6)
  = Ret (spec_hash 7 (elements (p_arc RATE_7_PARAMS)) [:: ds; v0; v1; v2; v3; v4; v5; v6]).
Proof. exact: hash_7E. Qed.
Print Assumptions C02_hash_7.

(** The unoptimized permutation is the textbook one for every parameter set
    with an exponent S-box. *)
Theorem C02_unoptimized_is_textbook (F : fieldType) (p : params F) :
  wf_params p -> forall (e : N) (st : seq F), p_alpha p = Exponent e -> size st = p_t p ->
  let t := (1 + p_t1 p)%N in
  unoptimized_permute p st
  = Ret (ofV (poseidon (fun x => x ^+ N.to_nat e) (toM t t (p_mds p))
       (fun r => \col_i nth 0 (elements (p_arc p)) (r * t + i))
       (r_F (p_rounds p) %/ 2) (r_P (p_rounds p)) (toV t st))).
Proof. exact: generic_textbook. Qed.
Print Assumptions C02_unoptimized_is_textbook.

(** ** C03 *)
Theorem C03_permutation_bijective (p : params Fq_fieldType) :
  List.In p shipped -> forall y : seq Fq, size y = p_t p ->
  exists! x : seq Fq, size x = p_t p /\
    exists out, n_to_1_fixed_hash p x (instance_new p) = Ret (out, y).
Proof. exact: perm_bijective. Qed.
Print Assumptions C03_permutation_bijective.

(** ** C04 *)
Theorem C04_modulus_prime : prime (Z.to_nat q).
Proof. exact: q_prime. Qed.
Print Assumptions C04_modulus_prime.
Theorem C04_coprime : coprime 17 (Z.to_nat (q - 1)).
Proof. exact: coprime17. Qed.
Print Assumptions C04_coprime.
Theorem C04_pow17_bijective : bijective (fun x : Fq => x ^+ 17).
Proof. exact: pow17_bij. Qed.
Print Assumptions C04_pow17_bijective.
Theorem C04_sbox_is_pow17 (p : params Fq_fieldType) (x : Fq) :
  List.In p shipped -> sbox p x = Ret (x ^+ 17).
Proof. exact: sbox17. Qed.
Print Assumptions C04_sbox_is_pow17.

(** ** C05.  [run_calls] runs a sequence of calls of either hash function. *)
Theorem C05_history_independent (F : fieldType) (p : params F) (cs : seq (call F)) (c : call F) (st : seq F) :
  all (fun c => size (call_input c) == p_t p) cs -> size (call_input c) = p_t p ->
  run_calls p cs (instance_new p) = Ret st ->
  run_call p c st = run_call p c (instance_new p).
Proof. exact: history_independence. Qed.
Print Assumptions C05_history_independent.

(** Before the first call the words are zero *)
Theorem C05_new (F : fieldType) (p : params F) :
  size (output_words (instance_new p)) = p_t p /\ forall x, x \in output_words (instance_new p) -> x = 0.
Proof. exact (new_words p). Qed.
Print Assumptions C05_new.

(** ** C06 *)
Theorem C06_never_panics (p : params Fq_fieldType) :
  List.In p shipped -> forall input st : seq Fq, size input = p_t p -> size st = p_t p ->
  exists out words, [/\ n_to_1_fixed_hash p input st = Ret (out, words),
    unoptimized_n_to_1_fixed_hash p input st = Ret (out, words) & size words = p_t p].
Proof. exact: never_panics. Qed.
Print Assumptions C06_never_panics.

(** ** C07 *)
Theorem C07_result_is_word_1 (F : fieldType) (p : params F) (input st st' : seq F) (out : F) :
  n_to_1_fixed_hash p input st = Ret (out, st') -> aget (output_words st') 1 = Ret out.
Proof. exact: hash_word1. Qed.
Print Assumptions C07_result_is_word_1.
Theorem C07_result_is_word_1_unoptimized (F : fieldType) (p : params F) (input st st' : seq F) (out : F) :
  unoptimized_n_to_1_fixed_hash p input st = Ret (out, st') -> aget (output_words st') 1 = Ret out.
Proof. exact: unopt_hash_word1. Qed.
Print Assumptions C07_result_is_word_1_unoptimized.
Theorem C07_one_word_state_panics (F : fieldType) (p : params F) (input st : seq F) :
  p_t p = 1%N -> size input = 1%N -> size st = 1%N ->
  n_to_1_fixed_hash p input st = Panic /\ unoptimized_n_to_1_fixed_hash p input st = Panic.
Proof. exact: one_word_panics. Qed.
Print Assumptions C07_one_word_state_panics.

(** ** C08 *)
Theorem C08_optimization_correct (F : fieldType) (p : params F) :
  wf_params p ->
  let t1 := p_t1 p in let t := (1 + t1)%N in
  let Rf := (r_F (p_rounds p) %/ 2)%N in let Rp := r_P (p_rounds p) in
  let M := toM t t (p_mds p) in
  let om := p_optimized_mds p in
  let row (m : rmat F) r : 'cV[F]_t := \col_i nth 0 (elements m) (r * t + i) in
  (0 < Rp)%N ->
  sparse_factorization M (toM t t (om_M_i om)) (om_M_00 om)
    (fun j => (toM t1 1 (nth (Rmat 0 0 [::]) (om_w_hat_collection om) j))^T)
    (fun j => (toM 1 t1 (nth (Rmat 0 0 [::]) (om_v_collection om) j))^T) Rp ->
  equivalent_constants M (row (p_arc p)) (row (p_optimized_arc p)) Rf Rp ->
  forall st : seq F, size st = p_t p -> permute p st = unoptimized_permute p st.
Proof. exact: generic_opt_unopt. Qed.
Print Assumptions C08_optimization_correct.

(** The shipped sets meet its hypotheses. *)
Theorem C08_shipped_equations (p : params Fq_fieldType) : List.In p shipped ->
  let t1 := p_t1 p in let t := (1 + t1)%N in
  let M := toM t t (p_mds p) in
  let om := p_optimized_mds p in
  let row (m : rmat Fq_fieldType) r : 'cV[Fq_fieldType]_t := \col_i nth 0 (elements m) (r * t + i) in
  sparse_factorization M (toM t t (om_M_i om)) (om_M_00 om)
    (fun j => (toM t1 1 (nth (Rmat 0 0 [::]) (om_w_hat_collection om) j))^T)
    (fun j => (toM 1 t1 (nth (Rmat 0 0 [::]) (om_v_collection om) j))^T) 31 /\
  equivalent_constants M (row (p_arc p)) (row (p_optimized_arc p)) 4 31.
Proof. exact: shipped_equations. Qed.
Print Assumptions C08_shipped_equations.

(** ** C14.  [mds_mx M]: every square submatrix of M is invertible. *)
Theorem C14_shipped_mds (p : params Fq_fieldType) :
  List.In p shipped -> forall (k : nat) (f g : 'I_k -> 'I_(p_t p)), injective f -> injective g ->
  mxsub f g (toM (p_t p) (p_t p) (p_mds p)) \in unitmx.
Proof. exact: shipped_is_mds. Qed.
Print Assumptions C14_shipped_mds.

(** ** C15 *)
Theorem C15_derived_matrices (p : params Fq_fieldType) :
  List.In p shipped -> forall t1 : nat, p_t p = (1 + t1)%N ->
  let om := p_optimized_mds p in
  let M := toM (1 + t1) (1 + t1) (p_mds p) in
  let M' := toM (1 + t1) (1 + t1) (om_M_prime om) in
  let M'' := toM (1 + t1) (1 + t1) (om_M_doubleprime om) in
  let Mh := toM t1 t1 (om_M_hat_inverse om) in
  [/\ [/\ toM (1 + t1) (1 + t1) (om_M_inverse om) *m M = 1%:M,
          M *m toM (1 + t1) (1 + t1) (om_M_inverse om) = 1%:M,
          Mh *m drsubmx M = 1%:M & drsubmx M *m Mh = 1%:M],
      [/\ toM t1 t1 (om_M_hat om) = drsubmx M,
          toM 1 t1 (om_v om) = ursubmx M,
          toM t1 1 (om_w om) = dlsubmx M & om_M_00 om = M 0 0] &
      [/\ M' *m M'' = M, ulsubmx M' = 1%:M, ursubmx M' = 0, dlsubmx M' = 0 & drsubmx M'' = 1%:M]].
Proof. exact: shipped_derived. Qed.
Print Assumptions C15_derived_matrices.

(** ** C16 *)
Theorem C16_canonical (r : params limbs) : List.In r shipped_raw ->
  wf_params r /\ wf_unused r /\
  forall l, List.In l (params_elements r) ->
    [/\ (0 <= limb0 l < 2 ^ 64)%Z, (0 <= limb1 l < 2 ^ 64)%Z, (0 <= limb2 l < 2 ^ 64)%Z,
        (0 <= limb3 l < 2 ^ 64)%Z & (limbs_val l < q)%Z].
Proof. exact: shipped_canonical. Qed.
Print Assumptions C16_canonical.
Theorem C16_decoding_injective (l l' : limbs) : canonical_limbs l -> canonical_limbs l' ->
  from_montgomery_limbs l = from_montgomery_limbs l' -> l = l'.
Proof. exact: canonical_inj. Qed.
Print Assumptions C16_decoding_injective.
Theorem C16_header (p : params Fq_fieldType) : List.In p shipped ->
  [/\ p_t p = (1 + p_t1 p)%N, (1 <= p_t1 p <= 7)%N, p_M p = 128%N,
      p_alpha p = Exponent 17 & p_rounds p = RoundNumbers 31 8].
Proof. exact: shipped_spec. Qed.
Print Assumptions C16_header.

(** ** C17.  [drop_last_round p]: one full round and the last row of both arrays
    of constants less. *)
Theorem C17_odd_rounds_unoptimized (F : fieldType) (p : params F) :
  wf_params p -> odd (r_F (p_rounds p)) -> forall st : seq F, size st = p_t p ->
  unoptimized_permute p st = unoptimized_permute (drop_last_round p) st.
Proof. exact: odd_rounds_unopt. Qed.
Print Assumptions C17_odd_rounds_unoptimized.
Theorem C17_odd_rounds_optimized (F : fieldType) (p : params F) :
  wf_params p -> odd (r_F (p_rounds p)) -> forall st : seq F, (0 < r_P (p_rounds p))%N -> size st = p_t p ->
  permute p st = permute (drop_last_round p) st.
Proof. exact: odd_rounds_opt. Qed.
Print Assumptions C17_odd_rounds_optimized.

(** ** C18 *)
Theorem C18_no_partial_rounds_panic (F : fieldType) (p : params F) (input st : seq F) :
  r_P (p_rounds p) = 0%N -> n_to_1_fixed_hash p input st = Panic.
Proof. exact: no_partial_rounds_hash. Qed.
Print Assumptions C18_no_partial_rounds_panic.
