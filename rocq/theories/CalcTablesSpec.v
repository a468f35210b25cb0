(** What the tables of the reference script are compared with: the tables of appendix G
    of the Poseidon paper ([AppendixGData.v]). *)
From Coq Require Import ZArith NArith Reals.
From Flocq Require Import Core.
From mathcomp Require Import all_ssreflect.
From Verif Require Import Base Params RoundsSpec Rounds CalcRounds CalcTables AppendixGData.
Set Implicit Arguments.
Unset Strict Implicit.
Unset Printing Implicit Defensive.

(** A number of exactly [n] bits *)
Definition has_bits (n p : Z) : Prop := (2 ^ (n - 1) <= p < 2 ^ n)%Z.

(** One whose size in bits is not within [2^-12] of the two bounds *)
Definition well_inside (n p : Z) : Prop :=
  (2 ^ (n - 1) * 2 ^ 12 <= p * (2 ^ 12 - 1))%Z /\ (p * 2 ^ 12 <= 2 ^ n * (2 ^ 12 - 1))%Z.

(** The number of bits of the moduli of a row *)
Definition bits_of (w : row) : Z := (1536 / Z.of_nat (row_t w))%Z.

(** The line printed for the modulus [p] is the row [w] of the paper, but for the number
    of partial rounds and the costs *)
Definition same_instance (w : row) (p : Z) (r : table_row) : Prop :=
  [/\ tr_M r = Z.of_N (row_M w), tr_N r = 1536%Z, tr_n r = bits_of w /\ tr_t r = Z.of_nat (row_t w),
      tr_R_F r = row_rF w &
      tr_sbox r = Z.of_nat (row_t w * row_rF w + tr_R_P r) /\
      (well_inside (bits_of w) p -> tr_size r = (bits_of w * tr_sbox r)%Z)].

(** The paper's number of partial rounds, or one less; one less only if the modulus
    does not exceed the security level. *)
Definition close_to (w : row) (r : table_row) : Prop :=
  tr_R_P r = row_rP w \/ (bits_of w <= Z.of_N (row_M w))%Z /\ (tr_R_P r).+1 = row_rP w.

(** The line [r] is the line [r'] of the table without the margin, with the margin: two more
    full rounds and 7.5% more partial rounds, rounded up. *)
Definition margin_of (w : row) (r' r : table_row) : Prop :=
  [/\ with_margin (RoundNumbers (tr_R_P r') (tr_R_F r')) (RoundNumbers (tr_R_P r) (tr_R_F r)),
      tr_R_F r' = 6 & tr_sbox r' = Z.of_nat (row_t w * tr_R_F r' + tr_R_P r')].

(** [log(2**k, 2)] is exact for [k] up to four. *)
Definition exact_logs (lm : libm) : Prop :=
  forall k : Z, (1 <= k <= 4)%Z -> py_log lm (2 ^ k) 2 = IZR k.
