(** Property C74: the tables that the reference script for round numbers prints, against
    those of the paper that the generator is tested with.  Statements only; proofs in
    [CalcRows.v] and [CalcTablesProofs.v]; concrete instances in
    [CalcTablesExamples.v].

    The notions of the statements are in [CalcTablesSpec.v], [CalcSpec.v] and
    [RoundsSpec.v]; the tables of the paper are in [AppendixGData.v]. *)
From Coq Require Import ZArith NArith Reals.
From Flocq Require Import Core.
From mathcomp Require Import all_ssreflect.
From Verif Require Import Base Params RoundsSpec Rounds CalcRounds CalcSpec CalcTables AppendixGData CalcTablesSpec.
From Verif Require Import CalcTablesProofs.
Set Implicit Arguments.
Unset Strict Implicit.
Unset Printing Implicit Defensive.

(** ** Tables 7 and 8: whatever primes are drawn *)
Theorem C74_table_7 (lm : libm) (primes : seq Z) : accurate lm -> accurate_ln lm -> size primes = 10 ->
  (forall i, i < 10 -> has_bits (bits_of (nth row0 table_7 i)) (nth 0%Z primes i)) ->
  exists rows, [/\ print_latex_table_combinations lm table_combinations 3 true primes = Ret rows, size rows = 10 &
    forall i, i < 10 -> same_instance (nth row0 table_7 i) (nth 0%Z primes i) (nth line0 rows i) /\
                        close_to (nth row0 table_7 i) (nth line0 rows i)].
Proof. exact: script_table_7. Qed.
Theorem C74_table_8 (lm : libm) (primes : seq Z) : accurate lm -> accurate_ln lm -> size primes = 10 ->
  (forall i, i < 10 -> has_bits (bits_of (nth row0 table_8 i)) (nth 0%Z primes i)) ->
  exists rows, [/\ print_latex_table_combinations lm table_combinations 5 true primes = Ret rows, size rows = 10 &
    forall i, i < 10 -> same_instance (nth row0 table_8 i) (nth 0%Z primes i) (nth line0 rows i) /\
                        close_to (nth row0 table_8 i) (nth line0 rows i)].
Proof. exact: script_table_8. Qed.
(** The same tables printed without the security margin *)
Theorem C74_margin_7 (lm : libm) (primes : seq Z) : accurate lm -> accurate_ln lm -> size primes = 10 ->
  (forall i, i < 10 -> has_bits (bits_of (nth row0 table_7 i)) (nth 0%Z primes i)) ->
  exists rows rows', [/\ print_latex_table_combinations lm table_combinations 3 true primes = Ret rows,
    print_latex_table_combinations lm table_combinations 3 false primes = Ret rows', size rows' = 10 &
    forall i, i < 10 -> margin_of (nth row0 table_7 i) (nth line0 rows' i) (nth line0 rows i)].
Proof. exact: script_margin_7. Qed.
Theorem C74_margin_8 (lm : libm) (primes : seq Z) : accurate lm -> accurate_ln lm -> size primes = 10 ->
  (forall i, i < 10 -> has_bits (bits_of (nth row0 table_8 i)) (nth 0%Z primes i)) ->
  exists rows rows', [/\ print_latex_table_combinations lm table_combinations 5 true primes = Ret rows,
    print_latex_table_combinations lm table_combinations 5 false primes = Ret rows', size rows' = 10 &
    forall i, i < 10 -> margin_of (nth row0 table_8 i) (nth line0 rows' i) (nth line0 rows i)].
Proof. exact: script_margin_8. Qed.
(** ** Table 9: the paper's numbers *)
Theorem C74_table_9 (lm : libm) (primes : seq Z) :
  accurate lm -> accurate_ln lm -> exact_logs lm -> size primes = 10 ->
  (forall i, i < 10 -> well_inside (bits_of (nth row0 table_9 i)) (nth 0%Z primes i)) ->
  exists rows, [/\ print_latex_table_combinations lm table_combinations (-1) true primes = Ret rows, size rows = 10 &
    forall i, i < 10 -> same_instance (nth row0 table_9 i) (nth 0%Z primes i) (nth line0 rows i) /\
                        tr_R_P (nth line0 rows i) = row_rP (nth row0 table_9 i)].
Proof. exact: script_table_9. Qed.

(** ** The formula behind the tables *)
Theorem C74_closed_form (lm : libm) (M : Z) (t : nat) (p n e a b : Z) (sm : bool) :
  accurate lm -> accurate_ln lm ->
  2 <= t <= 16 -> (3 <= e <= 5)%Z -> (128 <= M <= 256)%Z -> (96 <= n <= 1023)%Z ->
  (M <= (n - 5) * (Z.of_nat t + 1))%Z -> has_bits n p -> (forall k : Z, (2 <= k)%Z -> Z.of_nat t <> (e ^ k)%Z) ->
  (0 <= a)%Z -> (1 <= b)%Z -> (e ^ (b - 1) < Z.of_nat t <= e ^ b)%Z ->
  (e ^ a * 2 ^ 12 <= Z.min (2 ^ M) p * (2 ^ 12 - 1))%Z ->
  (Z.min (2 ^ M) p * 2 ^ 12 <= e ^ (a + 1) * (2 ^ 12 - 1))%Z ->
  exists r, reported sm (RoundNumbers (Z.to_nat (a + b - 4)) 6) r /\
    calc_final_numbers_fixed lm p (Z.of_nat t) e M sm =
    Ret (r_F r, r_P r, Z.of_nat (sboxes t r), (Zceil (py_log lm p 2) * Z.of_nat (sboxes t r))%Z).
Proof. exact: close_form. Qed.

(** ** The primes of the generator's tests: no difference *)
Theorem C74_paper_primes_7 (lm : libm) (w : row) : accurate lm -> accurate_ln lm -> List.In w table_7 ->
  find_FD_round_numbers lm (row_p w) (Z.of_nat (row_t w)) 3 (Z.of_N (row_M w)) get_sbox_cost true =
  Ret (row_rF w, row_rP w).
Proof. exact: paper_rows_7. Qed.
Theorem C74_paper_primes_8 (lm : libm) (w : row) : accurate lm -> accurate_ln lm -> List.In w table_8 ->
  find_FD_round_numbers lm (row_p w) (Z.of_nat (row_t w)) 5 (Z.of_N (row_M w)) get_sbox_cost true =
  Ret (row_rF w, row_rP w).
Proof. exact: paper_rows_8. Qed.

(** ** The round numbers do not depend on the number of bits alone. *)
Theorem C74_size_decides_refuted (lm : libm) : accurate lm -> accurate_ln lm ->
  [/\ prime (Z.to_nat p_low) /\ prime (Z.to_nat p_high), has_bits 96 p_low /\ has_bits 96 p_high,
      find_FD_round_numbers lm p_low 16 5 128 get_sbox_cost true = Ret (8, 41) &
      find_FD_round_numbers lm p_high 16 5 128 get_sbox_cost true = Ret (8, 42)].
Proof. exact: prime_matters. Qed.

(** ** The two curves *)
Theorem C74_bls377 (lm : libm) : accurate lm -> accurate_ln lm -> bls377_results lm = Ret [::
  Result 11 2 8 37 53 13409 (Some 265%Z); Result 11 3 8 37 61 15433 (Some 305%Z); Result 11 5 8 37 77 19481 (Some 385%Z);
  Result 17 2 8 31 47 11891 (Some 235%Z); Result 17 3 8 31 55 13915 (Some 275%Z); Result 17 5 8 31 71 17963 (Some 355%Z)].
Proof. exact: script_377. Qed.
Theorem C74_bls381 (lm : libm) : accurate lm -> accurate_ln lm -> bls381_results lm = Ret [::
  Result 5 3 8 56 80 20400 None; Result 5 5 8 56 96 24480 None].
Proof. exact: script_381. Qed.

Print Assumptions C74_table_7.
Print Assumptions C74_table_8.
Print Assumptions C74_margin_7.
Print Assumptions C74_margin_8.
Print Assumptions C74_table_9.
Print Assumptions C74_closed_form.
Print Assumptions C74_paper_primes_7.
Print Assumptions C74_paper_primes_8.
Print Assumptions C74_size_decides_refuted.
Print Assumptions C74_bls377.
Print Assumptions C74_bls381.
