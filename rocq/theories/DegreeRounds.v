(** What the interpolation check of rounds.rs:185-210 means for degrees. *)
From Coq Require Import ZArith NArith Reals Lia Lra.
From Flocq Require Import Core.
From mathcomp Require Import all_ssreflect all_algebra.
From Verif Require Import Base Params Transcript V1 Slia Rounds RoundsSpec F64Proofs RoundsEval RoundsCheck RoundsProps StatSpec StatProofs.
Set Implicit Arguments.
Unset Strict Implicit.
Unset Printing Implicit Defensive.
Delimit Scope Z_scope with Z.
Delimit Scope R_scope with Re.
Local Open Scope R_scope.
Local Open Scope nat_scope.

Section Check.
Variables (lm : libm) (i : input f64) (p : Z) (e : N).
Hypothesis acc : accurate lm.
Hypothesis p_range : (1 < p < 2 ^ 1024)%Z.
Hypothesis log_p : in_log_2_p i = log2 lm p.
Hypothesis t_range : 1 < in_t i < 1024.
Hypothesis M_range : (in_M i < 2 ^ 16)%num.
Hypothesis e_range : (3 <= e < 2 ^ 32)%num.
Local Notation le := (ln (IZR (Z.of_N e))).
Local Notation lt := (ln (INR (in_t i))).
Local Notation M := (IZR (Z.of_N (in_M i))).


Lemma log_bounds x : (2 <= x < 1024)%Z ->
  (ln (IZR x) / le - / 2 ^ 30 <= flog lm (IZR x) (f64_exp e) /\ 0 <= flog lm (IZR x) (f64_exp e) <= 16)%Re.
Proof.
move=> [x2 x1]; case: acc => Aln _ _; rewrite f64_exp_small; last first.
  by rewrite /in53; apply/andP; split; apply/Z.leb_spec0; lia.
have lx := ln_gt0 x2; have l2 := ln2_gt0.
have le2 := @ln_leZ 2 (Z.of_N e) ltac:(lia) ltac:(lia).
have Q := quot_err (Rlt_le _ _ lx) (Rlt_le_trans _ _ _ l2 le2) (Aln x ltac:(lia)) (Aln (Z.of_N e) ltac:(lia)).
have R : (0 < ln (IZR x) / le <= 10)%Re.
  split; first by apply: Rdiv_lt_0_compat; lra.
  apply: (Rmult_le_reg_r le); first by lra.
  have -> : (ln (IZR x) / le * le = ln (IZR x))%Re by field; lra.
  have := @ln_leZ x (2 ^ 10) ltac:(lia) ltac:(lia); rewrite ln_IZR_pow //; lra.
rewrite /flog /fdiv; move: (_ / _)%Re (f64_ln _ _ / _)%Re Q R => r q [Q1 Q2] [R0 R1].
have h : (0 < / 2 ^ 38 < / 10)%Re by lra.
have q0 : (0 <= q)%Re by apply: Rle_trans Q1; apply: Rmult_le_pos; lra.
have q1 : (q <= 15)%Re by nra.
have /Rabs_le_inv E : (Rabs (f64_rnd q - q) <= bpow radix2 (4 - 53))%Re.
  by apply: rnd_abs => //; apply: Rabs_le; rewrite /=; lra.
have B : (bpow radix2 (4 - 53) <= / 2 ^ 49)%Re by rewrite /=; lra.
split; last first.
  split; last by lra.
  by apply: rnd_lb => //; apply: (@fmt_int 0).
have : (r * (1 - / 2 ^ 38) >= r - / 2 ^ 34)%Re by nra.
lra.
Qed.

Lemma interp_lower : (Rmin M (log_2 (IZR p)) * (ln 2 / le) + lt / le - / 2 <=
  IZR (algebraic_attack_interpolation lm i (Exponent e)))%Re.
Proof.
have [L1 L2] := @log_bounds 2 ltac:(lia).
have tz : (2 <= Z.of_nat (in_t i) < 1024)%Z by case/andP: t_range => /leP h1 /leP h2; lia.
have [T1 T2] := log_bounds tz.
have [l1 l2] := log2_accuracy acc (x := p) ltac:(lia); rewrite -log_p -/(log_2 (IZR p)) in l1 l2.
have P0 : (1 <= log_2 (IZR p) <= 1024)%Re.
  split.
    rewrite (_ : 1 = log_2 2)%Re; last by rewrite /log_2; field; have := ln2_gt0; lra.
    by apply: log_2_le; [lra | apply: IZR_le; lia].
  have -> : (1024 = INR 1024)%Re by rewrite INR_IZR_INZ.
  by have := @log_2_range p 1024 ltac:(lia); lra.
have L45 : (ln (5 / 4) / ln 2 <= / 3)%Re.
  have E : (3 * ln (5 / 4) = ln ((5 / 4) ^ 3))%Re by rewrite ln_pow; [rewrite INR_IZR_INZ | lra].
  have := ln_increasing ((5 / 4) ^ 3) 2 ltac:(lra) ltac:(lra); have l := ln2_gt0.
  move=> H; apply: (Rmult_le_reg_r (ln 2)) => //.
  by have -> : (ln (5 / 4) / ln 2 * ln 2 = ln (5 / 4))%Re; [field; lra | lra].
have M0 : (0 <= M <= 65536)%Re by split; [apply: (IZR_le 0); lia | apply: (IZR_le _ 65536); lia].
have Lr : (0 < ln 2 / le <= 7 / 10)%Re.
  have l0 := ln2_gt0; have le3 := @ln_leZ 3 (Z.of_N e) ltac:(lia) ltac:(lia).
  have l3 := @ln_gt0 3 ltac:(lia).
  split; first by apply: Rdiv_lt_0_compat; lra.
  apply: (Rmult_le_reg_r le); first by lra.
  have -> : (ln 2 / le * le = ln 2)%Re by field; lra.
  have := @ln_leZ (2 ^ 10) (3 ^ 7) ltac:(lia) ltac:(lia).
  by rewrite !ln_IZR_pow //; lra.
rewrite /algebraic_attack_interpolation fminE /f64_M /f64_t !f64_of_int_small; try by lia.
rewrite [INR _]INR_IZR_INZ; set m := Rmin M (in_log_2_p i).
have m1 : (Rmin M (log_2 (IZR p)) - 35 / 100 <= m)%Re.
  rewrite /m; apply: Rmin_glb.
    by have := Rmin_l M (log_2 (IZR p)); lra.
  by have := Rmin_r M (log_2 (IZR p)); lra.
have m2 : (0 <= m <= 65536)%Re.
  rewrite /m; split; last by have := Rmin_l M (in_log_2_p i); lra.
  by apply: Rmin_glb; lra.
move: T1 T2; set T := flog lm _ _ => T1 T2.
move: L1 L2; set L := flog lm _ _ => L1 L2.
clearbody m L T; move: (Rmin _ _) m1 => mr m1.
move: Lr L1; move: (ln 2 / le)%Re => lr Lr L1.
move: T1; move: (_ / le)%Re => tr T1.
have /Rabs_le_inv E1 : (Rabs (fmul L m - L * m) <= bpow radix2 (21 - 53))%Re.
  apply: rnd_abs => //; apply: Rabs_le; rewrite -[bpow radix2 21]/2097152%Re; nra.
have B1 : (bpow radix2 (21 - 53) <= / 2 ^ 32)%Re by rewrite /=; lra.
have K1 : (lr * mr - 26 / 100 <= L * m)%Re.
  have a1 : (lr * m - / 2 ^ 30 * m <= L * m)%Re by nra.
  have a2 : (/ 2 ^ 30 * m <= / 100)%Re by nra.
  have a3 : (lr * mr - lr * (35 / 100) <= lr * m)%Re by nra.
  nra.
have C1 : (fmul L m <= fceil (fmul L m) < fmul L m + 1)%Re.
  by split; [exact: Zceil_ub | have := Zceil_lb (fmul L m); rewrite /fceil; lra].
move: C1; set C := fceil _ => C1.
have Lm : (0 <= L * m <= 1048576)%Re by nra.
have /Rabs_le_inv E2 : (Rabs (fadd C T - (C + T)) <= bpow radix2 (21 - 53))%Re.
  by apply: rnd_abs => //; apply: Rabs_le; rewrite -[bpow radix2 21]/2097152%Re; lra.
have A1 : (fadd C T <= fceil (fadd C T) < fadd C T + 1)%Re.
  by split; [exact: Zceil_ub | have := Zceil_lb (fadd C T); rewrite /fceil; lra].
rewrite /fceil in A1.
have Z1 : (0 <= Zceil (fadd C T) < 2 ^ 64)%Z.
  have h1 : (-1 < IZR (Zceil (fadd C T)))%Re by lra.
  have h2 : (IZR (Zceil (fadd C T)) < IZR (2 ^ 64))%Re by rewrite -[IZR (2 ^ 64)]/(18446744073709551616)%Re; lra.
  by split; [have := lt_IZR (-1) _ h1; lia | exact: lt_IZR].
rewrite as_usize_IZR //; lra.
Qed.

Lemma interp_degree (c : rounds) : is_secure_v1 lm i (Exponent e) c = Ret true ->
  (Rpower 2 (Rmin M (log_2 (IZR p))) * INR (in_t i) <= IZR (Z.of_N e) ^ rounds_total c)%Re.
Proof.
rewrite /is_secure_v1; case: ifP => // _; case: Z.leb_spec => // H _.
have I := interp_lower; have h : (IZR (algebraic_attack_interpolation lm i (Exponent e)) + 1 <= INR (rounds_total c))%Re.
  by rewrite INR_IZR_INZ -plus_IZR; apply: IZR_le; lia.
have t0 : (0 < INR (in_t i))%Re by apply: lt_0_INR; case/andP: t_range => /ltP; lia.
have le0 : (0 < le)%Re by apply: ln_gt0; lia.
have e0 : (0 < IZR (Z.of_N e))%Re by apply: IZR_lt; lia.
rewrite -Rpower_pow // /Rpower -[X in (_ * X <= _)%Re](exp_ln (INR (in_t i))) // -exp_plus.
have K : (Rmin M (log_2 (IZR p)) * ln 2 + lt <= INR (rounds_total c) * le)%Re.
  have -> : (Rmin M (log_2 (IZR p)) * ln 2 + lt = (Rmin M (log_2 (IZR p)) * (ln 2 / le) + lt / le) * le)%Re by field; lra.
  by apply: Rmult_le_compat_r; lra.
by case: K => [K | ->]; [apply: Rlt_le; apply: exp_increasing | apply: Rle_refl].
Qed.
End Check.
