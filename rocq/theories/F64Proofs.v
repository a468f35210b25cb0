(** Facts about the model of 64-bit floating-point numbers. *)
From Coq Require Import ZArith NArith Reals Lia Lra.
From Flocq Require Import Core Relative.
From mathcomp Require Import all_ssreflect.
From Verif Require Import Base Params Transcript Rounds Slia.
Set Implicit Arguments.
Unset Strict Implicit.
Unset Printing Implicit Defensive.
Local Open Scope R_scope.

Notation f64_format := (generic_format radix2 (FLT_exp (-1074) 53)).

Instance f64_valid : Valid_exp (FLT_exp (-1074) 53).
Proof. exact: FLT_exp_valid. Qed.

Lemma fmt_dyadic m e : (Z.abs m < 2 ^ 53)%Z -> (-1074 <= e)%Z -> f64_format (IZR m * bpow radix2 e).
Proof.
move=> Hm He; apply: generic_format_FLT.
by exists (Float radix2 m e).
Qed.

Lemma fmt_int m : (Z.abs m <= 2 ^ 53)%Z -> f64_format (IZR m).
Proof.
move=> Hm; case: (Z.lt_ge_cases (Z.abs m) (2 ^ 53)) => H.
  by rewrite -(Rmult_1_r (IZR m)) -[1](_ : bpow radix2 0 = 1) //; apply: fmt_dyadic.
have E : m = (Z.sgn m * 2 ^ 53)%Z by case: (Z.abs_spec m) => [[? ?]|[? ?]]; lia.
rewrite E mult_IZR -[IZR (2 ^ 53)]/(bpow radix2 53); apply: fmt_dyadic => //.
by case: m {Hm H E}.
Qed.

Lemma rnd_fmt x : f64_format x -> f64_rnd x = x.
Proof. exact: round_generic. Qed.

Lemma rnd_format x : f64_format (f64_rnd x).
Proof. exact: generic_format_round. Qed.

Lemma rnd_le x y : x <= y -> f64_rnd x <= f64_rnd y.
Proof. exact: round_le. Qed.

Lemma rnd_ub x y : f64_format y -> x <= y -> f64_rnd x <= y.
Proof. by move=> Fy H; rewrite -(rnd_fmt Fy); apply: rnd_le. Qed.

Lemma rnd_lb x y : f64_format y -> y <= x -> y <= f64_rnd x.
Proof. by move=> Fy H; rewrite -{1}(rnd_fmt Fy); apply: rnd_le. Qed.

Lemma f64_of_int_small m : (Z.abs m <= 2 ^ 53)%Z -> f64_of_int m = IZR m.
Proof. by move=> H; apply/rnd_fmt/fmt_int. Qed.

(** The value of a rounding, from the binade of the argument and the nearest
    significand. *)
Lemma rnd_eq x e n :
  (-1021 <= e)%Z -> bpow radix2 (e - 1) <= x < bpow radix2 e ->
  Rabs (x * bpow radix2 (53 - e) - IZR n) < / 2 ->
  f64_rnd x = IZR n * bpow radix2 (e - 53).
Proof.
move=> He Hx Hn.
have M : mag radix2 x = e :> Z.
  apply: mag_unique; rewrite Rabs_pos_eq //.
  by apply: Rle_trans (bpow_ge_0 _ _) (proj1 Hx).
rewrite /f64_rnd /round /F2R /=.
have C : cexp radix2 (FLT_exp (-1074) 53) x = (e - 53)%Z.
  by rewrite /cexp M /FLT_exp; lia.
rewrite C /scaled_mantissa C; congr (IZR _ * _).
apply: Znearest_imp.
by rewrite (_ : - (e - 53) = 53 - e)%Z //; lia.
Qed.

(** Relative error of a rounding *)
Lemma rnd_err x : bpow radix2 (-1022) <= Rabs x -> Rabs (f64_rnd x - x) <= bpow radix2 (-53) * Rabs x.
Proof.
move=> H.
have E := @relative_error_N_FLT radix2 (-1074) 53 erefl (fun x => negb (Z.even x)) x H.
apply: (Rle_trans _ _ _ E); apply: Req_le; congr (_ * _).
by rewrite /=; lra.
Qed.

Lemma as_usize_IZR n : (0 <= n < 2 ^ 64)%Z -> as_usize (IZR n) = n.
Proof. by rewrite /as_usize Ztrunc_IZR; lia. Qed.

Lemma Zceil_eq x n : IZR n - 1 < x <= IZR n -> Zceil x = n.
Proof. by move=> H; apply: Zceil_imp; rewrite minus_IZR. Qed.

Lemma Zfloor_eq x n : IZR n <= x < IZR n + 1 -> Zfloor x = n.
Proof. by move=> H; apply: Zfloor_imp; rewrite plus_IZR. Qed.

(** The literal 1.075 *)
Lemma lit_1075 : f64_rnd (1075 / 1000) = 4841369599423283 * bpow radix2 (-52).
Proof.
apply: (@rnd_eq _ 1) => //.
  by rewrite /=; lra.
by apply: Rabs_def1; rewrite /=; lra.
Qed.

(** The multiplication by 1.075 and the rounding up, without intermediate
    rounding; the margin of one fortieth absorbs the rounding errors. *)
Lemma ceil_1075 r : (0 <= r < 2 ^ 40)%Z ->
  Zceil (fmul (f64_rnd (1075 / 1000)) (f64_of_int r)) = ((43 * r + 39) / 40)%Z.
Proof.
move=> Hr; rewrite /fmul f64_of_int_small; last by lia.
rewrite lit_1075.
set n := ((43 * r + 39) / 40)%Z.
have [n1 n2] : (43 * r <= 40 * n /\ 40 * n <= 43 * r + 39)%Z.
  by rewrite /n; have := Z.div_mod (43 * r + 39) 40; have := Z.mod_pos_bound (43 * r + 39) 40; lia.
have {}n1 := IZR_le _ _ n1; have {}n2 := IZR_le _ _ n2.
rewrite !(mult_IZR, plus_IZR) in n1 n2.
have [r0 r1] : 0 <= IZR r <= IZR (2 ^ 40) by split; apply: IZR_le; lia.
have nb : (Z.abs (64 * n - 63) < 2 ^ 53)%Z by rewrite /n; have := Z.div_mod (43 * r + 39) 40;
  have := Z.mod_pos_bound (43 * r + 39) 40; lia.
rewrite /= in r1.
apply: Zceil_eq; split.
  apply: (@Rlt_le_trans _ (IZR (64 * n - 63) * bpow radix2 (-6))).
    by rewrite minus_IZR mult_IZR /=; lra.
  apply: rnd_lb; first exact: fmt_dyadic.
  by rewrite minus_IZR mult_IZR /=; lra.
by apply: rnd_ub; [apply: fmt_int; lia | rewrite /=; lra].
Qed.

Lemma apply_security_marginE c : (Z.of_nat (r_P c) < 2 ^ 40)%Z ->
  apply_security_margin c = RoundNumbers ((43 * r_P c + 39) %/ 40)%N (r_F c + 2)%N.
Proof.
move=> Hr; rewrite /apply_security_margin /fceil ceil_1075; last by lia.
congr RoundNumbers.
rewrite as_usize_IZR; last first.
  by have := Z.div_mod (43 * Z.of_nat (r_P c) + 39) 40;
     have := Z.mod_pos_bound (43 * Z.of_nat (r_P c) + 39) 40; lia.
apply: Nat2Z.inj; rewrite Z2Nat.id; last by apply: Z.div_pos; lia.
have E := divn_eq (43 * r_P c + 39) 40.
have H : ((43 * r_P c + 39) %% 40 < 40)%N by rewrite ltn_mod.
symmetry; apply: (Z.div_unique_pos _ _ _ (Z.of_nat ((43 * r_P c + 39) %% 40)%N)).
  by clear -H; slia.
by clear -E; slia.
Qed.
