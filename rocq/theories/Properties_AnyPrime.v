(** Property C75: the round numbers that the generator chooses for every modulus of the sizes
    in the paper's tables.  Statements only; proofs in [RoundsAnyPrime.v] and [RoundsLevel.v];
    concrete instances in [AnyPrimeExamples.v].

    The notions of the statements are in [AnyPrimeSpec.v] and [CalcTablesSpec.v]; the tables of
    the paper are in [AppendixGData.v]. *)
From Coq Require Import ZArith NArith Reals.
From mathcomp Require Import all_ssreflect.
From Verif Require Import Base Params Transcript V1 RoundsSpec Rounds AppendixGData CalcTablesSpec AnyPrimeSpec.
From Verif Require Import RoundsAnyPrime RoundsLevel.
Set Implicit Arguments.
Unset Strict Implicit.
Unset Printing Implicit Defensive.

(** ** Tables 7 and 8: every modulus of the size of the row *)
Theorem C75_table_7 (lm : libm) (w : row) (p : Z) (limbs : nat) (allow : bool) :
  accurate lm -> List.In w table_7 -> has_bits (bits_of w) p -> chosen_close lm 3 w p limbs allow.
Proof. exact: any_table_7. Qed.
Theorem C75_table_8 (lm : libm) (w : row) (p : Z) (limbs : nat) (allow : bool) :
  accurate lm -> List.In w table_8 -> has_bits (bits_of w) p -> chosen_close lm 5 w p limbs allow.
Proof. exact: any_table_8. Qed.

(** ** Table 9: the paper's numbers *)
Theorem C75_table_9 (lm : libm) (w : row) (p : Z) (limbs : nat) (allow : bool) :
  accurate lm -> List.In w table_9 -> has_bits (bits_of w) p ->
  ((bits_of w <= Z.of_N (row_M w))%Z -> not_top (bits_of w) p) ->
  v1_rounds lm (input_generate (log2 lm) (row_M w) (row_t w) p limbs allow) Inverse =
  Ret (RoundNumbers (row_rP w) (row_rF w)).
Proof. exact: any_table_9. Qed.

(** ** The rows that depend on the modulus do so for primes that the generator accepts *)
Theorem C75_shift_7 (lm : libm) (w : row) (limbs : nat) (allow : bool) :
  accurate lm -> List.In w table_7 -> shifts 3 w -> shift_witness lm 3 w limbs allow.
Proof. exact: shift_7. Qed.
Theorem C75_shift_8 (lm : libm) (w : row) (limbs : nat) (allow : bool) :
  accurate lm -> List.In w table_8 -> shifts 5 w -> shift_witness lm 5 w limbs allow.
Proof. exact: shift_8. Qed.

(** ** Above the security level the modulus does not matter *)
Theorem C75_above_level (lm : libm) (M : N) (t : nat) (p p' : Z) (limbs limbs' : nat) (allow allow' : bool) (a : alpha) :
  accurate lm -> 1 <= t -> (10 <= M <= 1022)%num -> small_sbox a ->
  above (Z.of_N M) p -> above (Z.of_N M) p' ->
  let i := input_generate (log2 lm) M t p limbs allow in
  let j := input_generate (log2 lm) M t p' limbs' allow' in
  v1_rounds lm i a = v1_rounds lm j a /\ v2_rounds lm i a = v2_rounds lm j a.
Proof. exact: above_level. Qed.

Print Assumptions C75_table_7.
Print Assumptions C75_table_8.
Print Assumptions C75_table_9.
Print Assumptions C75_shift_7.
Print Assumptions C75_shift_8.
Print Assumptions C75_above_level.
