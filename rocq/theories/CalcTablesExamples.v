(** Concrete instances for the properties in [Properties_Tables.v]. *)
From Coq Require Import ZArith NArith Reals Lia Lra.
From Flocq Require Import Core.
From mathcomp Require Import all_ssreflect.
From Verif Require Import Base Params Transcript V1 Rounds RoundsSpec F64Proofs RoundsSearch RoundsClosed RoundsEval.
From Verif Require Import RoundsProps CalcRounds CalcSpec CalcProps CalcTables AppendixGData CalcTablesSpec.
From Verif Require Import CalcTablesProofs.
Set Implicit Arguments.
Unset Strict Implicit.
Unset Printing Implicit Defensive.

(** The primes of appendix_g.rs have the number of bits that the script asks for; they
    are neither close to the smallest nor to the largest number of that size. *)
Definition inside (n p : Z) : bool :=
  Z.leb (2 ^ (n - 1) * 2 ^ 12) (p * (2 ^ 12 - 1)) && Z.leb (p * 2 ^ 12) (2 ^ n * (2 ^ 12 - 1)).
Example paper_inside : all (fun w => inside (bits_of w) (row_p w)) (table_7 ++ table_8 ++ table_9).
Proof. by vm_compute. Qed.
Lemma inside_P n p : inside n p -> well_inside n p.
Proof. by case/andP => /Z.leb_spec0 ? /Z.leb_spec0. Qed.
Lemma inside_bits n p : (1 <= n)%Z -> inside n p -> has_bits n p.
Proof.
move=> n1 /inside_P[h1 h2]; have := @Z.pow_pos_nonneg 2 (n - 1) ltac:(lia) ltac:(lia); have := @Z.pow_pos_nonneg 2 n ltac:(lia) ltac:(lia).
by rewrite /has_bits; lia.
Qed.
(** The smallest number of 96 bits is not inside. *)
Example edge : has_bits 96 (2 ^ 95) /\ ~ well_inside 96 (2 ^ 95).
Proof. by split=> // -[]; vm_compute => /(_ erefl). Qed.

(** The logarithms of the four powers are exact for an exact library; there are libraries
    accurate enough for the rest for which they are not known to be. *)
Example exact_logs_exact : exact_logs exact_libm.
Proof.
move=> k Hk; rewrite /py_log /fdiv /= !f64_of_int_small; last 2 first.
- by [].
- by have := @Z.pow_le_mono_r 2 k 4 ltac:(lia) ltac:(lia); have := @Z.pow_pos_nonneg 2 k ltac:(lia) ltac:(lia); lia.
have -> : IZR (2 ^ k) = (2 ^ Z.to_nat k)%R by rewrite pow_IZR Z2Nat.id //; lia.
rewrite log2_pow2 INR_IZR_INZ Z2Nat.id; last by lia.
by rewrite -/(f64_of_int k) f64_of_int_small //; lia.
Qed.

(** The third table of the paper, printed for its own primes *)
Example table_9_paper : exists rows,
  [/\ print_latex_table_combinations exact_libm table_combinations (-1) true (map row_p table_9) = Ret rows,
      size rows = 10 &
      forall i, i < 10 -> tr_R_P (nth line0 rows i) = row_rP (nth row0 table_9 i)].
Proof.
have H i : i < 10 -> well_inside (bits_of (nth row0 table_9 i)) (nth 0%Z (map row_p table_9) i).
  move=> Hi; rewrite (nth_map row0) //; apply: inside_P.
  have A : all (fun w => inside (bits_of w) (row_p w)) table_9 by vm_compute.
  by move/(all_nthP row0): A => /(_ i Hi).
have [rows [E S R]] := @script_table_9 exact_libm (map row_p table_9) exact_accurate exact_accurate_ln exact_logs_exact erefl H.
by exists rows; split=> // i /R[].
Qed.
(** Its first line: two words of 768 bits *)
Example row_2 : let w := nth row0 table_9 0 in (row_M w, row_t w, row_rF w, row_rP w, bits_of w) = (128%num, 2, 8, 65, 768%Z).
Proof. by []. Qed.

(** Tables 7 and 8 are printed with at most one partial round less, for any primes of the
    right size, and without a difference in the rows whose modulus exceeds the level. *)
Example row_256 : let w := nth row0 table_8 9 in (row_M w, row_t w, bits_of w) = (256%num, 16, 96%Z).
Proof. by []. Qed.
Example row_768 (r : table_row) : close_to (nth row0 table_7 0) r -> tr_R_P r = row_rP (nth row0 table_7 0).
Proof. by case=> // -[]; vm_compute => /(_ erefl). Qed.
Example paper_row_7 : find_FD_round_numbers rounded_libm (row_p (nth row0 table_7 4)) 16 3 128 get_sbox_cost true =
  Ret (row_rF (nth row0 table_7 4), row_rP (nth row0 table_7 4)).
Proof.
exact (@paper_rows_7 rounded_libm (nth row0 table_7 4) rounded_accurate rounded_accurate_ln
  (or_intror (or_intror (or_intror (or_intror (or_introl erefl)))))).
Qed.
(** The first row of table 7 has 6 and 77 rounds without the margin. *)
Example margin_row : margin_of (nth row0 table_7 0) (TableRow 128 1536 768 2 6 77 89 68352) (TableRow 128 1536 768 2 8 83 99 76032).
Proof. by split. Qed.
