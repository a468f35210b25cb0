(** Concrete cases for property C75. *)
From Coq Require Import ZArith NArith Reals Lia.
From mathcomp Require Import all_ssreflect.
From Verif Require Import Base Params Transcript V1 Rounds RoundsSpec RoundsProps AppendixGData CalcTablesSpec AnyPrimeSpec.
From Verif Require Import RoundsAnyPrime RoundsLevel.
Set Implicit Arguments.
Unset Strict Implicit.
Unset Printing Implicit Defensive.

Local Notation row0 := (Row 0 0 0 0 0).

(** Seven of the twenty rows depend on the modulus. *)
Example shifting_rows :
  map (fun w => (row_M w, row_t w)) (filter (shifts 3) table_7) = [:: (128%num, 16); (256%num, 6); (256%num, 8); (256%num, 16)] /\
  map (fun w => (row_M w, row_t w)) (filter (shifts 5) table_8) = [:: (128%num, 16); (256%num, 6); (256%num, 16)].
Proof. by vm_compute. Qed.

(** The third row of table 7: every modulus of 256 bits, at 128 bits of security, gives the
    paper's numbers, for instance the largest. *)
Example row_256_bits : let w := nth row0 table_7 2 in
  [/\ (row_M w, row_t w, row_rF w, row_rP w) = (128%num, 6, 8, 84), bits_of w = 256%Z,
      has_bits (bits_of w) (2 ^ 256 - 189) &
      v1_rounds exact_libm (input_generate (log2 exact_libm) 128 6 (2 ^ 256 - 189) 4 true) (Exponent 3) =
      Ret (RoundNumbers 84 8)].
Proof.
have B : has_bits (bits_of (nth row0 table_7 2)) (2 ^ 256 - 189) by split; vm_compute.
apply: And4; [by [] | by [] | exact B |].
have [r [[F P] V _]] := @any_table_7 exact_libm (nth row0 table_7 2) (2 ^ 256 - 189)%Z 4 true exact_accurate
  (or_intror (or_intror (or_introl erefl))) B.
have E : r = RoundNumbers 84 8.
  by move: F P; case: r {V} => rP rF /= -> [->|[]].
rewrite -E; exact V.
Qed.

(** The last row of table 7 for a prime just above [2^95]: 63 partial rounds instead of 64 *)
Example shifted : let w := nth row0 table_7 9 in
  (row_M w, row_t w, row_rF w, row_rP w) = (256%num, 16, 8, 64) /\
  exists p r, [/\ prime (Z.to_nat p), has_bits 96 p, r = RoundNumbers 63 8 &
    v1_rounds exact_libm (input_generate (log2 exact_libm) 256 16 p 2 true) (Exponent 3) = Ret r].
Proof.
split; first by [].
have I : List.In (nth row0 table_7 9) table_7 by do 9!right; left.
have [p [r [P B _ [F Q] [V _]]]] := @shift_7 exact_libm (nth row0 table_7 9) 2 true exact_accurate I erefl.
have E : r = RoundNumbers 63 8 by case: r F Q {V} => rP rF /= -> [->].
exists p, r; exact (And4 P B E V).
Qed.

(** The BN254 and BLS12-377 scalar fields at 128 bits of security: the same numbers *)
Example same_above : let i p := input_generate (log2 exact_libm) 128 3 p 4 true in
  v1_rounds exact_libm (i 21888242871839275222246405745257275088548364400416034343698204186575808495617%Z) (Exponent 5) =
  v1_rounds exact_libm (i 8444461749428370424248824938781546531375899335154063827935233455917409239041%Z) (Exponent 5).
Proof.
have A : above (Z.of_N 128) 21888242871839275222246405745257275088548364400416034343698204186575808495617 by split; vm_compute.
have B : above (Z.of_N 128) 8444461749428370424248824938781546531375899335154063827935233455917409239041 by split; vm_compute.
have HM : (10 <= 128 <= 1022)%num by [].
have Ha : small_sbox (Exponent 5) by [].
exact (proj1 (@above_level exact_libm 128 3 _ _ 4 4 true true (Exponent 5) exact_accurate isT HM Ha A B)).
Qed.
(** The sixteen-word row of table 9 needs the restriction only because the modulus does not
    exceed the level. *)
Example table_9_rows :
  map (fun w => Z.leb (bits_of w) (Z.of_N (row_M w))) table_9 =
  [:: false; false; false; false; true; false; false; true; true; true].
Proof. by vm_compute. Qed.
Example not_top_middle : not_top 96 (3 * 2 ^ 94) /\ ~ not_top 96 (2 ^ 96 - 17).
Proof. by split; vm_compute. Qed.
