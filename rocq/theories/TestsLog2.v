(** The test of utils.rs passes on every platform whose logarithms are accurate. *)
From Coq Require Import ZArith NArith Reals Lia Lra.
From Flocq Require Import Core.
From mathcomp Require Import ssreflect ssrfun ssrbool eqtype ssrnat seq.
From Verif Require Import Base Params Transcript Rounds RoundsSpec F64Proofs RoundsEval Log2Proofs RoundsProps Tests.
Set Implicit Arguments.
Unset Strict Implicit.
Unset Printing Implicit Defensive.
Local Open Scope Z_scope.

Section Log2.
Variable lm : libm.
Hypothesis acc : accurate lm.

(** [2^a <= y^b] bounds the logarithm from below, and conversely *)
Lemma log_lower y a b : 1 < y -> 0 < b -> 0 <= a -> (2 ^ a <=? y ^ b) -> (IZR a / IZR b <= ln (IZR y) / ln 2)%R.
Proof.
move=> Hy Hb Ha /Z.leb_le H; have L := ln2_gt0.
have := @ln_leZ (2 ^ a) (y ^ b) ltac:(lia) H; rewrite !ln_IZR_pow; try lia; move=> X.
have B : (0 < IZR b)%R by apply: IZR_lt.
apply: (Rmult_le_reg_r (IZR b * ln 2)); first by apply: Rmult_lt_0_compat.
have -> : (IZR a / IZR b * (IZR b * ln 2) = IZR a * ln 2)%R by field; lra.
by have -> : (ln (IZR y) / ln 2 * (IZR b * ln 2) = IZR b * ln (IZR y))%R by field; lra.
Qed.
Lemma log_upper y a b : 1 < y -> 0 < b -> 0 <= a -> (y ^ b <=? 2 ^ a) -> (ln (IZR y) / ln 2 <= IZR a / IZR b)%R.
Proof.
move=> Hy Hb Ha /Z.leb_le H; have L := ln2_gt0.
have := @ln_leZ (y ^ b) (2 ^ a) ltac:(lia) H; rewrite !ln_IZR_pow; try lia; move=> X.
have B : (0 < IZR b)%R by apply: IZR_lt.
apply: (Rmult_le_reg_r (IZR b * ln 2)); first by apply: Rmult_lt_0_compat.
have -> : (IZR a / IZR b * (IZR b * ln 2) = IZR a * ln 2)%R by field; lra.
by have -> : (ln (IZR y) / ln 2 * (IZR b * ln 2) = IZR b * ln (IZR y))%R by field; lra.
Qed.

Lemma log2_at x y b lo lod hi hid : log2_loop (Z.to_nat (Z.log2_up x)) x 0 = (y, b) -> 0 < x < 2 ^ 1024 ->
  1 < y -> 0 < lod -> 0 <= lo -> 0 < hid -> 0 <= hi -> 2 ^ lo <=? y ^ lod -> y ^ hid <=? 2 ^ hi ->
  (IZR b + IZR lo / IZR lod - / 2 ^ 34 <= log2 lm x <= IZR b + IZR hi / IZR hid + / 2 ^ 34)%R.
Proof.
move=> E Hx Hy l1 l2 h1 h2 Lo Hi; have A := log_lower Hy l1 l2 Lo; have B := log_upper Hy h1 h2 Hi.
by have [C D] := Rabs_le_inv _ _ (log2_error acc Hx); move: C D; rewrite /log2_real E; lra.
Qed.

Lemma log2_pow2 k : (0 < k <= 48)%N -> log2 lm (2 ^ Z.of_nat k) = IZR (Z.of_nat k).
Proof.
move=> /andP [k0 /leP k48]; have k0' : (0 < k)%coq_nat by apply/ltP.
have Hk : 0 < Z.of_nat k <= 48 by lia.
rewrite /log2.
have -> : log2_loop (Z.to_nat (Z.log2_up (2 ^ Z.of_nat k))) (2 ^ Z.of_nat k) 0 = (2 ^ Z.of_nat k, 0).
  have P : 2 ^ Z.of_nat k <= 2 ^ 50 by apply: Z.pow_le_mono_r; lia.
  by case: Z.to_nat => //= n; case: Z.ltb_spec => //; lia.
have [_ _ acc3] := acc.
have F (n : Z) : Z.abs n <= 2 ^ 53 -> f64_rnd (IZR n) = IZR n by move=> H; apply: rnd_fmt; apply: fmt_int.
have P : 2 ^ Z.of_nat k <= 2 ^ 48 by apply: Z.pow_le_mono_r; lia.
have P0 : 0 < 2 ^ Z.of_nat k by apply: Z.pow_pos_nonneg; lia.
rewrite /fadd /f64_of_int !F; try lia.
rewrite -pow_IZR acc3; last by apply/leP; lia.
rewrite Rplus_0_l INR_IZR_INZ F //; lia.
Qed.

Lemma t_log2_bigint : test_log2_bigint lm = Ret tt.
Proof.
rewrite /test_log2_bigint.
have E4 := @log2_pow2 2 isT; have E16 := @log2_pow2 16 isT.
rewrite [2 ^ Z.of_nat 2]/= [Z.of_nat 2]/= in E4; rewrite [2 ^ Z.of_nat 16]/= [Z.of_nat 16]/= in E16.
rewrite E4 E16 !Req_bool_true // !bind_ret.
have P34 : (/ 2 ^ 34 < / 10 ^ 9)%R by apply: Rinv_lt_contravar; lra.
have R (v : R) : (/ 10 <= v <= 300)%R -> (v - / 10 ^ 6 <= f64_rnd v <= v + / 10 ^ 6)%R.
  move=> H; have [A B] := Rabs_le_inv _ _ (@rnd_small_err v (or_intror (proj1 H))); lra.
have [A1 B1] := @log2_at 257 257 0 1425 178 1361 170 erefl ltac:(lia) ltac:(lia) ltac:(lia) ltac:(lia) ltac:(lia) ltac:(lia) ltac:(by vm_compute) ltac:(by vm_compute).
have [A2 B2] := @log2_at p381 29677 240 2065 139 104 7 ltac:(by vm_compute) ltac:(by rewrite /p381; lia) ltac:(lia) ltac:(lia) ltac:(lia) ltac:(lia) ltac:(lia) ltac:(by vm_compute) ltac:(by vm_compute).
have [] := R (8005 / 1000)%R ltac:(lra); have [] := R (8006 / 1000)%R ltac:(lra).
have [] := R (254856 / 1000)%R ltac:(lra); have [] := R (254858 / 1000)%R ltac:(lra).
move=> *; rewrite !Rlt_bool_true //; lra.
Qed.
End Log2.
