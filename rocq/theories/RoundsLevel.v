(** Moduli above the security level: the round numbers do not depend on them. *)
From Coq Require Import ZArith NArith Reals Lia Lra.
From Flocq Require Import Core.
From mathcomp Require Import all_ssreflect.
From Verif Require Import Base Params Transcript V1 Rounds RoundsSpec F64Proofs RoundsSearch RoundsEval RoundsCheck RoundsProps
  CalcTablesSpec AnyPrimeSpec RoundsAnyPrime Slia.
Set Implicit Arguments.
Unset Strict Implicit.
Unset Printing Implicit Defensive.

Lemma log2_above lm M p : accurate lm -> (0 <= M)%Z -> (2 ^ (M + 1) <= p < 2 ^ 1024)%Z -> (IZR M <= log2 lm p)%R.
Proof.
move=> acc M0 Hp.
have Q : (0 < 2 ^ (M + 1))%Z by apply: Z.pow_pos_nonneg; lia.
have p0 : (0 < p)%Z by lia.
have [v [_ F /(_ lm acc) H]] := log2_exact (conj p0 (proj2 Hp)).
have L : (M + 1 <= Z.log2 p)%Z by apply/Z.log2_le_pow2 => //; lia.
have lo := Zfloor_lb v; rewrite F in lo; have := IZR_le _ _ L; rewrite plus_IZR.
by move/Rabs_le_inv: H => [A _]; lra.
Qed.

Lemma fmin_l x y : (x <= y)%R -> fmin x y = x.
Proof. by move=> h; rewrite /fmin Rle_bool_true. Qed.

Section Level.
Variables (lm : libm) (i : input f64) (a : alpha).
Hypotheses (acc : accurate lm) (t1 : 1 <= in_t i) (M10 : (10 <= in_M i <= 1024)%num).
Hypothesis Hl : (IZR (Z.of_N (in_M i)) <= in_log_2_p i)%R.
Hypothesis Ha : small_sbox a.
Let Mz := Z.of_N (in_M i).

Lemma MzR : (10 <= Mz <= 1024)%Z. Proof. by clear -M10; rewrite /Mz; lia. Qed.
Lemma f64_ME : f64_M i = IZR Mz.
Proof. by have := MzR; rewrite /f64_M => h; rewrite f64_of_int_small //; rewrite -/Mz; lia. Qed.
Lemma MR0 : (10 <= IZR Mz)%R. Proof. by apply: IZR_le; case: MzR. Qed.

Lemma f64_tge : (1 <= f64_t i)%R.
Proof.
rewrite /f64_t /f64_of_int; apply: rnd_lb; first exact: (@fmt_int 1).
by apply: (IZR_le 1); clear -t1; slia.
Qed.
Lemma t_add1 : (2 <= fadd (f64_t i) 1)%R.
Proof. by apply: rnd_lb; [exact: (@fmt_int 2) | have := f64_tge; lra]. Qed.

Lemma min_level : fmin (f64_M i) (in_log_2_p i) = f64_M i.
Proof. by rewrite fmin_l // f64_ME. Qed.

Lemma log2_small n : (1 <= n <= 16)%Z -> (f64_log2 lm (IZR n) <= 5)%R.
Proof.
case: acc => _ Al2 _ Hn; have := Al2 n ltac:(lia).
have L2 := ln_gt0 (Z.le_refl 2).
have h : (ln (IZR n) / ln 2 <= 4)%R.
  apply: (Rmult_le_reg_r (ln 2)) => //; rewrite /Rdiv Rmult_assoc Rinv_l; last by lra.
  have n0 : (0 < n)%Z by lia.
  by have := ln_leZ n0 (proj2 Hn); rewrite (@ln_IZR_pow 2 4) //; lra.
by move/Rabs_le_inv => [_ B]; lra.
Qed.

Lemma stat_level : statistical_attack_full_rounds lm i a = 6.
Proof.
rewrite /statistical_attack_full_rounds; set C := (X in fsub _ X).
have HC : (C <= 5)%R.
  rewrite /C; case: a Ha => [e /= He|_]; last by lra.
  rewrite /f64_exp /fsub f64_of_int_small; last by lia.
  rewrite -minus_IZR rnd_fmt; last by apply: fmt_int; lia.
  by apply: log2_small; lia.
rewrite Rle_bool_true // f64_ME.
have [h1 h2] := MzR; have r1 := MR0.
have F : (IZR Mz <= ffloor (in_log_2_p i))%R by apply: IZR_le; apply: Zfloor_lub.
have S : (IZR (Mz - 5) <= fsub (ffloor (in_log_2_p i)) C)%R.
  apply: rnd_lb; first by apply: fmt_int; lia.
  by rewrite minus_IZR; lra.
apply: rnd_lb; first by apply: fmt_int; lia.
have t2 := t_add1; rewrite minus_IZR in S.
move: (fsub _ _) (fadd _ _) S t2 => x y S t2; nra.
Qed.

Lemma level_pos : (0 <= in_log_2_p i)%R.
Proof. by have := MR0; have : (IZR Mz <= in_log_2_p i)%R by []; lra. Qed.

Lemma grobner_min1 : fmin (fdiv (f64_M i) 3) (fdiv (in_log_2_p i) 2) = fdiv (f64_M i) 3.
Proof.
apply: fmin_l; apply: rnd_le; rewrite f64_ME.
have := MR0; have := Hl; rewrite -/Mz; move: (in_log_2_p i) => l; lra.
Qed.

Lemma grobner_min2 L : (0 <= L)%R ->
  fmin (fdiv (fmul L (f64_M i)) (fadd (f64_t i) 1)) (fdiv (fmul L (in_log_2_p i)) 2) =
  fdiv (fmul L (f64_M i)) (fadd (f64_t i) 1).
Proof.
move=> L0; apply: fmin_l; apply: rnd_le; rewrite f64_ME.
have h : (fmul L (IZR Mz) <= fmul L (in_log_2_p i))%R by apply: rnd_le; apply: Rmult_le_compat_l.
have h0 : (0 <= fmul L (IZR Mz))%R.
  apply: rnd_lb; first exact: (@fmt_int 0).
  by apply: Rmult_le_pos => //; have := MR0; lra.
have t2 := t_add1; move: (fmul L (IZR Mz)) (fmul L (in_log_2_p i)) (fadd (f64_t i) 1) h h0 t2 => x y t h h0 t2.
apply: (Rle_trans _ (x / 2)); last by lra.
rewrite /Rdiv; apply: Rmult_le_compat_l => //.
by apply: Rinv_le_contravar; lra.
Qed.

Lemma grobner_min3 :
  fmin (fceil (fdiv (f64_M i) (fadd (f64_t i) 1))) (fceil (fmul (1 / 2)%R (in_log_2_p i))) =
  fceil (fdiv (f64_M i) (fadd (f64_t i) 1)).
Proof.
apply: fmin_l; apply: IZR_le; apply: Zceil_le; apply: rnd_le; rewrite f64_ME.
have t2 := t_add1; have r1 := MR0; have := Hl; rewrite -/Mz.
move: (in_log_2_p i) (fadd _ _) (IZR Mz) t2 r1 => l t m t2 r1 h.
apply: (Rle_trans _ (m / 2)); last by lra.
rewrite /Rdiv; apply: Rmult_le_compat_l; first by lra.
by apply: Rinv_le_contravar; lra.
Qed.
End Level.

Lemma flog_nonneg lm e : accurate lm -> (2 <= e <= 17)%num -> (0 <= flog lm 2 (f64_exp e))%R.
Proof.
move=> [Al _ _] He; rewrite /flog /f64_exp f64_of_int_small; last by lia.
have P n : (2 <= n <= 17)%Z -> (0 < f64_ln lm (IZR n))%R.
  move=> Hn; have := Al n ltac:(lia); have := ln_gt0 (proj1 Hn).
  by move: (ln _) => x x0 /Rabs_le_inv [A _]; lra.
apply: rnd_lb; first exact: (@fmt_int 0).
apply: Rmult_le_pos; first by apply: Rlt_le; apply: (P 2%Z).
by apply: Rlt_le; apply: Rinv_0_lt_compat; apply: P; lia.
Qed.

Section Two.
Variables (lm : libm) (i j : input f64) (a : alpha).
Hypotheses (acc : accurate lm) (t1 : 1 <= in_t i) (M10 : (10 <= in_M i <= 1024)%num).
Hypotheses (Et : in_t j = in_t i) (EM : in_M j = in_M i).
Hypotheses (Hi : (IZR (Z.of_N (in_M i)) <= in_log_2_p i)%R) (Hj : (IZR (Z.of_N (in_M i)) <= in_log_2_p j)%R).
Hypothesis Ha : small_sbox a.

Let t1j : 1 <= in_t j. Proof. by rewrite Et. Qed.
Let M10j : (10 <= in_M j <= 1024)%num. Proof. by rewrite EM. Qed.
Let Hj' : (IZR (Z.of_N (in_M j)) <= in_log_2_p j)%R. Proof. by rewrite EM. Qed.
Let EMf : f64_M j = f64_M i. Proof. by rewrite /f64_M EM. Qed.
Let Etf : f64_t j = f64_t i. Proof. by rewrite /f64_t Et. Qed.

Lemma stat_same : statistical_attack_full_rounds lm j a = statistical_attack_full_rounds lm i a.
Proof. by rewrite !stat_level. Qed.

Lemma interp_same : algebraic_attack_interpolation lm j a = algebraic_attack_interpolation lm i a.
Proof. by rewrite /algebraic_attack_interpolation !min_level // EMf Etf. Qed.

Lemma grobner_same : algebraic_attack_grobner_basis_v1 lm j a = algebraic_attack_grobner_basis_v1 lm i a.
Proof.
rewrite /algebraic_attack_grobner_basis_v1; case: a Ha => [e He|_].
  have L0 := flog_nonneg acc He.
  by rewrite !grobner_min1 // !grobner_min2 // EMf Etf Et.
by rewrite !min_level // !grobner_min3 // EMf Etf Et.
Qed.

Lemma secure_same_v1 : is_secure_v1 lm j a = is_secure_v1 lm i a.
Proof. by rewrite /is_secure_v1 /inverse_rounds stat_same interp_same grobner_same Etf. Qed.

Lemma secure_same_v2 : is_secure_v2 lm j a = is_secure_v2 lm i a.
Proof.
rewrite /is_secure_v2 /algebraic_attack_grobner_basis_v2_possible stat_same interp_same grobner_same Etf Et EM.
by [].
Qed.

Theorem rounds_same : v1_rounds lm j a = v1_rounds lm i a /\ v2_rounds lm j a = v2_rounds lm i a.
Proof. by rewrite /v1_rounds /v2_rounds secure_same_v1 secure_same_v2 EM Et. Qed.
End Two.

Theorem above_level lm M t p p' limbs limbs' allow allow' a :
  accurate lm -> 1 <= t -> (10 <= M <= 1022)%num -> small_sbox a ->
  above (Z.of_N M) p -> above (Z.of_N M) p' ->
  let i := input_generate (log2 lm) M t p limbs allow in
  let j := input_generate (log2 lm) M t p' limbs' allow' in
  v1_rounds lm i a = v1_rounds lm j a /\ v2_rounds lm i a = v2_rounds lm j a.
Proof.
move=> acc t1 HM Ha Hp Hp' i j.
have Hi : (IZR (Z.of_N (in_M j)) <= in_log_2_p j)%R by apply: log2_above => //; clear -HM; rewrite /=; lia.
have Hj : (IZR (Z.of_N (in_M j)) <= in_log_2_p i)%R by apply: log2_above => //; clear -HM; rewrite /=; lia.
apply: rounds_same => //; rewrite /=; lia.
Qed.
