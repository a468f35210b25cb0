(** The binary logarithm of a big integer: accuracy. *)
From Coq Require Import ZArith NArith Reals Lia Lra.
From Flocq Require Import Core.
From mathcomp Require Import all_ssreflect.
From Verif Require Import Base Params Rounds RoundsSpec F64Proofs RoundsEval Slia.
Set Implicit Arguments.
Unset Strict Implicit.
Unset Printing Implicit Defensive.
Local Open Scope Z_scope.

Lemma log2_loopS fuel x b : log2_loop fuel.+1 x b =
  if Z.ltb (2 ^ 50) x then log2_loop fuel (Z.shiftr x 48) (b + 48) else (x, b).
Proof. by []. Qed.

(** The loop stops with the leading bits: [x / 2^(48 k)], at least four of them
    remaining if any were removed. *)
Lemma log2_loopP fuel x b : 0 < x -> Z.log2_up x <= Z.of_nat fuel ->
  exists2 k, 0 <= k & log2_loop fuel x b = (x / 2 ^ (48 * k), b + 48 * k) /\
                      1 <= x / 2 ^ (48 * k) <= 2 ^ 50 /\ (k = 0 \/ 4 <= x / 2 ^ (48 * k)).
Proof.
elim: fuel x b => [|fuel IH] x b Hx Hf.
  have : Z.log2_up x = 0 by have := Z.log2_up_nonneg x; move: Hf; rewrite /=; lia.
  move/Z.log2_up_null => H; exists 0 => //; rewrite Z.mul_0_r Z.pow_0_r Z.div_1_r Z.add_0_r.
  by split=> //; split; [lia | left].
rewrite log2_loopS; case: Z.ltb_spec => H; last first.
  exists 0 => //; rewrite Z.mul_0_r Z.pow_0_r Z.div_1_r Z.add_0_r.
  by split=> //; split; [lia | left].
have S : Z.shiftr x 48 = x / 2 ^ 48 by rewrite Z.shiftr_div_pow2.
have y4 : 4 <= Z.shiftr x 48.
  by rewrite S; apply: Z.div_le_lower_bound; lia.
have Hy : Z.log2_up (Z.shiftr x 48) <= Z.of_nat fuel.
  have L1 : Z.log2_up (Z.shiftr x 48) <= Z.log2 (Z.shiftr x 48) + 1.
    by have := Z.le_log2_up_succ_log2 (Z.shiftr x 48); lia.
  have L2 : Z.log2 (Z.shiftr x 48) = Z.log2 x - 48.
    by rewrite Z.log2_shiftr // Z.max_r //; have := Z.log2_le_mono _ _ (Z.lt_le_incl _ _ H); rewrite Z.log2_pow2; lia.
  have L3 := Z.le_log2_log2_up x.
  by rewrite Nat2Z.inj_succ in Hf; lia.
have [k Hk [-> [H1 H2]]] := IH (Z.shiftr x 48) (b + 48) ltac:(lia) Hy.
have E : Z.shiftr x 48 / 2 ^ (48 * k) = x / 2 ^ (48 * (k + 1)).
  rewrite S Z.div_div; [|lia|by apply: Z.pow_pos_nonneg; lia].
  by rewrite -Z.pow_add_r; [congr (_ / 2 ^ _); lia | lia | lia].
exists (k + 1); first by lia.
rewrite -E; split; first by congr pair; lia.
split=> //; right; case: H2 => // k0.
by move: H1; rewrite k0 /= Z.div_1_r.
Qed.

(** The real number the code approximates *)
Definition log2_real (x : Z) : R :=
  let: (y, b) := log2_loop (Z.to_nat (Z.log2_up x)) x 0 in (IZR b + ln (IZR y) / ln 2)%R.

Lemma ln2_gt0 : (0 < ln 2)%R.
Proof. exact: (@ln_gt0 2). Qed.

Lemma log2_realE x : 0 < x -> exists k y,
  [/\ 0 <= k, y = x / 2 ^ (48 * k), 1 <= y <= 2 ^ 50, k = 0 \/ 4 <= y &
      log2_loop (Z.to_nat (Z.log2_up x)) x 0 = (y, 48 * k)].
Proof.
move=> Hx; have [|k Hk [E [H1 H2]]] := @log2_loopP (Z.to_nat (Z.log2_up x)) x 0 Hx.
  by rewrite Z2Nat.id; [lia | exact: Z.log2_up_nonneg].
by exists k, (x / 2 ^ (48 * k)); split=> //; rewrite E.
Qed.

Lemma ln_scale y k : 0 < y -> 0 <= k -> (ln (IZR (y * 2 ^ k)) / ln 2 = IZR k + ln (IZR y) / ln 2)%R.
Proof.
move=> Hy Hk; have L := ln2_gt0.
rewrite mult_IZR ln_mult; [|exact: IZR_lt|by apply: IZR_lt; apply: Z.pow_pos_nonneg].
by rewrite ln_IZR_pow //; field; lra.
Qed.

Lemma log2_real_bounds x : 0 < x ->
  (log2_real x <= ln (IZR x) / ln 2 < log2_real x + ln (5 / 4) / ln 2)%R.
Proof.
move=> Hx; have [k [y [Hk Ey Hy H4 E]]] := log2_realE Hx.
rewrite /log2_real E.
have L := ln2_gt0; have Li := Rinv_0_lt_compat _ L.
have k48 : 0 <= 48 * k by lia.
have y0 : 0 < y by lia.
have P : 0 < 2 ^ (48 * k) by apply: Z.pow_pos_nonneg; lia.
have D1 : y * 2 ^ (48 * k) <= x by rewrite Ey; apply: div_le.
have D2 : x < (y + 1) * 2 ^ (48 * k).
  rewrite Ey; have := Z.div_mod x (2 ^ (48 * k)); have := Z.mod_pos_bound x _ P; nia.
rewrite -ln_scale //; split.
  by apply: Rmult_le_compat_r; [lra | apply: ln_leZ => //; nia].
have -> : (ln (IZR (y * 2 ^ (48 * k))) / ln 2 + ln (5 / 4) / ln 2 = ln (IZR (y * 2 ^ (48 * k)) * (5 / 4)) / ln 2)%R.
  rewrite ln_mult; [by field; lra | by apply: IZR_lt; nia | lra].
apply: Rmult_lt_compat_r => //; apply: ln_increasing; first exact: IZR_lt.
case: H4 => [k0|y4].
  rewrite k0 Z.mul_0_r Z.pow_0_r Z.mul_1_r in Ey D1 *.
  rewrite Z.div_1_r in Ey; rewrite -Ey.
  by have := IZR_lt _ _ y0; lra.
have {}D2 := IZR_lt _ _ D2; have y4' := IZR_le _ _ y4; have P' := IZR_lt _ _ P.
rewrite mult_IZR plus_IZR in D2; rewrite mult_IZR.
by move: (IZR (2 ^ _)) P' D2 => w; nra.
Qed.

Lemma log2_real_floor x : 0 < x -> Zfloor (log2_real x) = Z.log2 x.
Proof.
move=> Hx; have [k [y [Hk Ey Hy H4 E]]] := log2_realE Hx.
rewrite /log2_real E.
have L := ln2_gt0; have Li := Rinv_0_lt_compat _ L.
have y0 : 0 < y by lia.
have [Y1 Y2] := Z.log2_spec y y0.
have Yn := Z.log2_nonneg y.
have Ly : Z.log2 y = Z.log2 x - 48 * k.
  rewrite Ey -Z.shiftr_div_pow2; last by lia.
  rewrite Z.log2_shiftr // Z.max_r //.
  have: 2 ^ (48 * k) <= x.
    have P : 0 < 2 ^ (48 * k) by apply: Z.pow_pos_nonneg; lia.
    by have := @div_le x _ P; rewrite -Ey; nia.
  by move/Z.log2_le_mono; rewrite Z.log2_pow2; lia.
apply: Zfloor_eq.
have -> : (IZR (Z.log2 x) = IZR (48 * k) + IZR (Z.log2 y))%R by rewrite -plus_IZR; congr IZR; lia.
have A : (IZR (Z.log2 y) <= ln (IZR y) / ln 2)%R.
  apply: (Rmult_le_reg_r _ _ _ L); rewrite -ln_IZR_pow //.
  have -> : (ln (IZR y) / ln 2 * ln 2 = ln (IZR y))%R by field; lra.
  by apply: ln_leZ => //; apply: Z.pow_pos_nonneg; lia.
have B : (ln (IZR y) / ln 2 < IZR (Z.log2 y) + 1)%R.
  apply: (Rmult_lt_reg_r _ _ _ L); rewrite -plus_IZR -ln_IZR_pow //; last by lia.
  have -> : (ln (IZR y) / ln 2 * ln 2 = ln (IZR y))%R by field; lra.
  by apply: ln_increasing; apply: IZR_lt.
by split; lra.
Qed.

(** The floating-point result *)
Lemma log2_error lm x : accurate lm -> 0 < x < 2 ^ 1024 ->
  (Rabs (log2 lm x - log2_real x) <= / 2 ^ 34)%R.
Proof.
case=> _ A2 _ [Hx Hb]; have [k [y [Hk Ey Hy H4 E]]] := log2_realE Hx.
rewrite /log2_real /log2 E.
have k22 : 48 * k <= 1024.
  apply: Z.le_trans (_ : Z.log2 x <= _); last first.
    by have := Z.log2_lt_pow2 x 1024 Hx; lia.
  have: 2 ^ (48 * k) <= x.
    have P : 0 < 2 ^ (48 * k) by apply: Z.pow_pos_nonneg; lia.
    by have := @div_le x _ P; rewrite -Ey; nia.
  by move/Z.log2_le_mono; rewrite Z.log2_pow2; lia.
rewrite !f64_of_int_small; try lia.
have y1 : 1 <= y <= 2 ^ 64 by lia.
have := A2 _ y1.
have v0 : (0 <= ln (IZR y) / ln 2)%R.
  have L := ln2_gt0; apply: Rmult_le_pos; last by apply: Rlt_le; apply: Rinv_0_lt_compat.
  by rewrite -ln_1; apply: (@ln_leZ 1); lia.
have v50 : (ln (IZR y) / ln 2 <= 50)%R.
  have L := ln2_gt0; apply: (Rmult_le_reg_r _ _ _ L); rewrite -(@ln_IZR_pow 2 50) //.
  have -> : (ln (IZR y) / ln 2 * ln 2 = ln (IZR y))%R by field; lra.
  by apply: ln_leZ; lia.
move: (ln _ / ln _)%R v0 v50 => v v0 v50.
move: (f64_log2 lm (IZR y)) => w H.
have b0 : (0 <= IZR (48 * k) <= 1024)%R by split; apply: IZR_le; lia.
move: (IZR (48 * k)) b0 => b b0.
have W : (Rabs (w - v) <= 50 / 2 ^ 40)%R.
  apply: (Rle_trans _ _ _ H); apply: Rmult_le_compat_r => //.
  by apply: Rlt_le; apply: Rinv_0_lt_compat; apply: pow_lt; lra.
have [W1 W2] := Rabs_le_inv _ _ W.
have bw : (Rabs (b + w) <= 1100)%R by apply: Rabs_le; move: W1 W2; rewrite /=; lra.
have R : (Rabs (f64_rnd (b + w) - (b + w)) <= / 2 ^ 40)%R.
  case: (Rle_lt_dec (bpow radix2 (-1022)) (Rabs (b + w))) => H'.
    by apply: (Rle_trans _ _ _ (rnd_err H')); move: bw; rewrite /=; lra.
  have F m : m = 1 \/ m = -1 -> f64_format (IZR m * bpow radix2 (-1022)).
    by move=> Hm; apply: fmt_dyadic => //; case: Hm => ->.
  have [H1 H2] := Rabs_le_inv _ _ (Rlt_le _ _ H').
  have U := rnd_ub (F 1 (or_introl (erefl _))) (_ : b + w <= _)%R.
  have D := rnd_lb (F (-1) (or_intror (erefl _))) (_ : _ <= b + w)%R.
  have {}U := U ltac:(lra); have {}D := D ltac:(lra).
  have S : (bpow radix2 (-1022) <= bpow radix2 (-50))%R by apply: bpow_le.
  have S' : (bpow radix2 (-50) <= / 2 ^ 40 / 2)%R by rewrite /=; lra.
  by apply: Rabs_le; lra.
have [R1 R2] := Rabs_le_inv _ _ R.
by rewrite /fadd; apply: Rabs_le; move: W1 W2 R1 R2; rewrite /=; lra.
Qed.
