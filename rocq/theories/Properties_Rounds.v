(** Properties C40-C44 and C50-C52: the search for round numbers, the logarithm of the
    modulus, and the generator with its own search.  Statements only; proofs in
    [RoundsProps.v], [RoundsClosed.v], [AppendixG.v], [WholeGenerator.v] and the files
    they use; concrete instances in [RoundsExamples.v].

    [lm] stands for the logarithms of the mathematical library; [accurate] and the
    other notions of the statements are in [RoundsSpec.v]. *)
From Coq Require Import ZArith NArith Reals.
From Flocq Require Import Core.
From mathcomp Require Import all_ssreflect all_algebra.
From Verif Require Import Base Fq Matrix MatrixSpec Params Permutation Spec PrimeField Alpha Transcript V1.
From Verif Require Import Rounds RoundsSpec F64Proofs RoundsClosed RoundsProps AppendixGData AppendixG RateChecks WholeGenerator.
Import GRing.Theory.
Delimit Scope Z_scope with Z.
Delimit Scope R_scope with Re.

(** ** C40 *)
Theorem C40_v1_cheapest (lm : libm) (i : input f64) (a : alpha) (r : rounds) :
  1 <= in_t i -> (N.of_nat (in_t i) < 2 ^ 56)%num ->
  v1_rounds lm i a = Ret r <->
  (in_M i <= 256)%num /\ exists c, cheapest (fun c => is_secure_v1 lm i a c = Ret true) (in_t i) c r.
Proof. exact: v1_search. Qed.
Theorem C40_v1_panic (lm : libm) (i : input f64) (a : alpha) :
  1 <= in_t i -> (N.of_nat (in_t i) < 2 ^ 56)%num ->
  v1_rounds lm i a = Panic <->
  (256 < in_M i)%num \/ (forall c, candidate c -> is_secure_v1 lm i a c <> Ret true).
Proof. exact: v1_search_panic. Qed.
Theorem C40_v2_cheapest (lm : libm) (i : input f64) (e : N) (r : rounds) :
  1 <= in_t i -> (N.of_nat (in_t i) < 2 ^ 56)%num ->
  v2_rounds lm i (Exponent e) = Ret r <->
  exists c, cheapest (fun c => is_secure_v2 lm i (Exponent e) c = Ret true) (in_t i) c r.
Proof. exact: v2_search. Qed.
Theorem C40_v2_panic (lm : libm) (i : input f64) (e : N) :
  1 <= in_t i -> (N.of_nat (in_t i) < 2 ^ 56)%num ->
  v2_rounds lm i (Exponent e) = Panic <->
  (forall c, candidate c -> is_secure_v2 lm i (Exponent e) c <> Ret true).
Proof. exact: v2_search_panic. Qed.
Theorem C40_v2_inverse_panics (lm : libm) (i : input f64) : (N.of_nat (in_t i) < 2 ^ 56)%num ->
  v2_rounds lm i Inverse = Panic.
Proof. exact: v2_inverse_panics. Qed.
(** Poseidon2 never accepts what Poseidon1 rejects; if it accepts the choice of
    Poseidon1 both choose the same. *)
Theorem C40_v2_agrees (lm : libm) (i : input f64) (e : N) (c r : rounds) :
  1 <= in_t i -> (N.of_nat (in_t i) < 2 ^ 56)%num ->
  cheapest (fun c => is_secure_v1 lm i (Exponent e) c = Ret true) (in_t i) c r ->
  is_secure_v2 lm i (Exponent e) c = Ret true -> v2_rounds lm i (Exponent e) = Ret r.
Proof. exact: v2_agrees. Qed.

(** ** C41 *)
Theorem C41_margin (c : rounds) : (N.of_nat (r_P c) < 2 ^ 40)%num ->
  with_margin c (apply_security_margin c).
Proof. exact: margin_exact. Qed.

(** ** C42 *)
Theorem C42_selected (lm : libm) (t limbs : nat) (allow : bool) : accurate lm -> 2 <= t <= 8 ->
  v1_rounds lm (input_generate (log2 lm) 128 t q limbs allow) (Exponent 17) = Ret (RoundNumbers 31 8).
Proof. exact: q_rounds. Qed.
Theorem C42_shipped (lm : libm) (limbs : nat) (allow : bool) (p : params Fq_fieldType) :
  accurate lm -> List.In p shipped ->
  v1_rounds lm (input_generate (log2 lm) (N.of_nat (p_M p)) (p_t p) q limbs allow) (p_alpha p)
  = Ret (p_rounds p).
Proof. exact: shipped_rounds. Qed.

(** ** C43 *)
Theorem C43_even (lm : libm) (i : input f64) (e : N) : accurate lm ->
  2 <= in_t i <= 128 -> (3 <= e < 2 ^ 32)%num -> (in_M i <= 256)%num ->
  exists r, [/\ v1_rounds lm i (Exponent e) = Ret r, r_F r = 8 \/ r_F r = 12 & ~~ odd (r_F r)].
Proof. exact: rounds_even. Qed.
(** Not for every width: here an odd number of full rounds is chosen, *)
Theorem C43_every_width_refuted (lm : libm) (limbs : nat) (allow : bool) : accurate lm ->
  v1_rounds lm (input_generate (log2 lm) 128 420 q limbs allow) (Exponent 17) = Ret (RoundNumbers 429 23).
Proof. exact: large_width_odd. Qed.
(** and here there is no secure candidate. *)
Theorem C43_large_width_panics (lm : libm) (limbs : nat) (allow : bool) : accurate lm ->
  v1_rounds lm (input_generate (log2 lm) 128 500 q limbs allow) (Exponent 17) = Panic.
Proof. exact: large_width_panics. Qed.

(** ** C44 *)
Theorem C44_bounds (lm : libm) (x : Z) : accurate lm -> (0 < x < 2 ^ 1024)%Z ->
  (ln (IZR x) / ln 2 - ln (5 / 4) / ln 2 - / 2 ^ 34 < log2 lm x <= ln (IZR x) / ln 2 + / 2 ^ 34)%Re.
Proof. exact: log2_accuracy. Qed.
(** [v] is the result in exact arithmetic. *)
Theorem C44_exact (x : Z) : (0 < x < 2 ^ 1024)%Z ->
  exists v : R, [/\ (v <= ln (IZR x) / ln 2 < v + ln (5 / 4) / ln 2)%Re, Zfloor v = Z.log2 x &
    forall lm, accurate lm -> (Rabs (log2 lm x - v) <= / 2 ^ 34)%Re].
Proof. exact: log2_exact. Qed.
Theorem C44_accuracy_refuted (lm : libm) : accurate lm ->
  log2 lm (5 * 2 ^ 48 - 1) = 50%Re /\ (50.32 < ln (IZR (5 * 2 ^ 48 - 1)) / ln 2)%Re.
Proof. exact: log2_inaccurate. Qed.
(** With the correctly rounded binary logarithm *)
Theorem C44_floor_refuted : accurate rounded_libm /\
  log2 rounded_libm (2 ^ 50 - 1) = 50%Re /\ Z.log2 (2 ^ 50 - 1) = 49%Z.
Proof. exact (conj rounded_accurate log2_floor_wrong). Qed.

(** ** C50 *)
Theorem C50_closed_form (lm : libm) (i : input f64) (e : N) (G : Z) :
  2 <= in_t i -> (N.of_nat (in_t i) < 2 ^ 56)%num -> (in_M i <= 256)%num ->
  algebraic_attack_grobner_basis_v1 lm i (Exponent e) = Ret G ->
  let s := statistical_attack_full_rounds lm i (Exponent e) in
  let n := (Z.to_nat (Z.max (algebraic_attack_interpolation lm i (Exponent e)) G)).+1 in
  let f := maxn s (n - 399) in
  let p := maxn 1 (n - f) in
  v1_rounds lm i (Exponent e) =
  if n <= 498 then Ret (RoundNumbers ((43 * p + 39) %/ 40) (f + 2)) else Panic.
Proof. exact: v1_rounds_formula. Qed.

(** ** C51 *)
Theorem C51_table_7 (lm : libm) (w : row) (limbs : nat) (allow : bool) : accurate lm -> List.In w table_7 ->
  let i := input_generate (log2 lm) (row_M w) (row_t w) (row_p w) limbs allow in
  v1_rounds lm i (Exponent 3) = Ret (RoundNumbers (row_rP w) (row_rF w)) /\
  v2_rounds lm i (Exponent 3) = Ret (RoundNumbers (row_rP w) (row_rF w)).
Proof. exact: table_7_chosen. Qed.
Theorem C51_table_8 (lm : libm) (w : row) (limbs : nat) (allow : bool) : accurate lm -> List.In w table_8 ->
  let i := input_generate (log2 lm) (row_M w) (row_t w) (row_p w) limbs allow in
  v1_rounds lm i (Exponent 5) = Ret (RoundNumbers (row_rP w) (row_rF w)) /\
  v2_rounds lm i (Exponent 5) = Ret (RoundNumbers (row_rP w) (row_rF w)).
Proof. exact: table_8_chosen. Qed.
Theorem C51_table_9 (lm : libm) (w : row) (limbs : nat) (allow : bool) : accurate lm -> List.In w table_9 ->
  let i := input_generate (log2 lm) (row_M w) (row_t w) (row_p w) limbs allow in
  v1_rounds lm i Inverse = Ret (RoundNumbers (row_rP w) (row_rF w)).
Proof. exact: table_9_chosen. Qed.

(** ** C52 *)
Theorem C52_returns (lm : libm) (PF : prime_field) (Me : merlin) (M : N) (t limbs : nat) (allow : bool) (e : N) :
  accurate lm -> (M <= 256)%num -> (1 < t <= 8)%N -> (2 ^ 127 <= pf_p PF)%Z ->
  alpha_generate PF (pf_p PF) allow = Ret (Exponent e) ->
  exists P, [/\ v1_generate PF Me (log2 lm) (v1_rounds lm) M t (pf_p PF) limbs allow = Ret P,
                p_alpha P = Exponent e & r_F (p_rounds P) = 8 \/ r_F (p_rounds P) = 12].
Proof. by move=> acc HM; exact: generator_returns. Qed.
Theorem C52_textbook (lm : libm) (PF : prime_field) (Me : merlin) (M : N) (t limbs : nat) (allow : bool)
    (P : params PF) (e : N) :
  accurate lm -> (M <= 256)%num ->
  v1_generate PF Me (log2 lm) (v1_rounds lm) M t (pf_p PF) limbs allow = Ret P -> p_alpha P = Exponent e ->
  forall st : seq PF, size st = t ->
  let t' := 1 + p_t1 P in
  permute P st = Ret (ofV (poseidon (fun x => x ^+ N.to_nat e)
    (\matrix_(a < t', b < t') ((a + t' + b)%:R)^-1)
    (fun r => \col_i nth 0 (elements (p_arc P)) (r * t' + i))
    (r_F (p_rounds P) %/ 2) (r_P (p_rounds P)) (toV t' st)))%R.
Proof. by move=> *; apply: generator_textbook; eauto. Qed.
Theorem C52_hash (lm : libm) (PF : prime_field) (Me : merlin) (M : N) (t limbs : nat) (allow : bool)
    (P : params PF) (e : N) :
  accurate lm -> (M <= 256)%num ->
  v1_generate PF Me (log2 lm) (v1_rounds lm) M t (pf_p PF) limbs allow = Ret P -> p_alpha P = Exponent e ->
  forall inp st : seq PF, size inp = t -> size st = t ->
  n_to_1_fixed_hash P inp st = unoptimized_n_to_1_fixed_hash P inp st.
Proof. by move=> *; apply: generator_hash; eauto. Qed.
Theorem C52_bijective (lm : libm) (PF : prime_field) (Me : merlin) (M : N) (t limbs : nat) (allow : bool)
    (P : params PF) (e : N) :
  accurate lm -> (M <= 256)%num ->
  v1_generate PF Me (log2 lm) (v1_rounds lm) M t (pf_p PF) limbs allow = Ret P -> p_alpha P = Exponent e ->
  forall y : seq PF, size y = t -> exists! x : seq PF, size x = t /\ permute P x = Ret y.
Proof. by move=> *; apply: generator_bijective; eauto. Qed.

Print Assumptions C40_v1_cheapest.
Print Assumptions C40_v1_panic.
Print Assumptions C40_v2_cheapest.
Print Assumptions C40_v2_panic.
Print Assumptions C40_v2_inverse_panics.
Print Assumptions C40_v2_agrees.
Print Assumptions C41_margin.
Print Assumptions C42_selected.
Print Assumptions C42_shipped.
Print Assumptions C43_even.
Print Assumptions C43_every_width_refuted.
Print Assumptions C43_large_width_panics.
Print Assumptions C44_bounds.
Print Assumptions C44_exact.
Print Assumptions C44_accuracy_refuted.
Print Assumptions C44_floor_refuted.
Print Assumptions C50_closed_form.
Print Assumptions C51_table_7.
Print Assumptions C51_table_8.
Print Assumptions C51_table_9.
Print Assumptions C52_returns.
Print Assumptions C52_textbook.
Print Assumptions C52_hash.
Print Assumptions C52_bijective.
