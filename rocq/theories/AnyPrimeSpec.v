(** The notions of property C75: the rows of the paper's tables for other moduli than those
    the generator is tested with. *)
From Coq Require Import ZArith NArith Reals.
From mathcomp Require Import all_ssreflect.
From Verif Require Import Base Params Transcript V1 Rounds AppendixGData CalcTablesSpec.
Set Implicit Arguments.
Unset Strict Implicit.
Unset Printing Implicit Defensive.

(** The rows (with the exponent [e]) whose number of partial rounds depends on the modulus *)
Definition shifts (e : N) (w : row) : bool :=
  (row_t w == 16) || (row_M w == 256%num) && ((row_t w == 6) || (row_t w == 8) && (e == 3%num)).

(** The outcome [r] for a row: that of the paper, or with one partial round less *)
Definition close_rounds (e : N) (w : row) (r : rounds) : Prop :=
  r_F r = row_rF w /\ (r_P r = row_rP w \/ shifts e w /\ (r_P r).+1 = row_rP w).

(** Both versions of the generator choose such numbers for the modulus [p]. *)
Definition chosen_close (lm : libm) (e : N) (w : row) (p : Z) limbs allow : Prop :=
  let i := input_generate (log2 lm) (row_M w) (row_t w) p limbs allow in
  exists r, [/\ close_rounds e w r, v1_rounds lm i (Exponent e) = Ret r & v2_rounds lm i (Exponent e) = Ret r].

(** Not among the largest numbers of [n] bits *)
Definition not_top (n p : Z) : Prop := (p * 2 ^ 12 <= 2 ^ n * (2 ^ 12 - 1))%Z.

(** A prime of the size of the row, with [e] coprime to its predecessor, for which one
    partial round less is chosen *)
Definition shift_witness (lm : libm) (e : N) (w : row) limbs allow : Prop :=
  exists p r, let i := input_generate (log2 lm) (row_M w) (row_t w) p limbs allow in
  [/\ prime (Z.to_nat p), has_bits (bits_of w) p, Z.gcd (Z.of_N e) (p - 1) = 1%Z,
      r_F r = row_rF w /\ (r_P r).+1 = row_rP w &
      v1_rounds lm i (Exponent e) = Ret r /\ v2_rounds lm i (Exponent e) = Ret r].

(** The S-boxes considered above the security level *)
Definition small_sbox (a : alpha) : Prop :=
  match a with Exponent e => (2 <= e <= 17)%num | Inverse => True end.

(** More bits than [M]: a modulus of at least [M + 2] bits *)
Definition above (M p : Z) : Prop := (2 ^ (M + 1) <= p < 2 ^ 1024)%Z.
