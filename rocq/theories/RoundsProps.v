(** Proofs of the properties of the round-number search. *)
From Coq Require Import ZArith NArith Reals Lia Lra.
From Flocq Require Import Core.
From mathcomp Require Import all_ssreflect.
From Verif Require Import Base Params Transcript Fq V1 Rounds RoundsSpec F64Proofs RoundsSearch RoundsClosed RoundsEval RoundsCheck Log2Proofs Slia.
Set Implicit Arguments.
Unset Strict Implicit.
Unset Printing Implicit Defensive.

(** * The search *)

Lemma is_secure_v1_ret lm i a c : 1 <= in_t i -> is_secure_v1 lm i a c <> Panic.
Proof.
move=> t1; rewrite /is_secure_v1; case: ifP => // _; case: ifP => // _.
rewrite /algebraic_attack_grobner_basis_v1 /usub t1 bind_ret.
by case: a.
Qed.

Theorem v1_search lm i a r : 1 <= in_t i -> (N.of_nat (in_t i) < 2 ^ 56)%num ->
  v1_rounds lm i a = Ret r <->
  (in_M i <= 256)%num /\ exists c, cheapest (fun c => is_secure_v1 lm i a c = Ret true) (in_t i) c r.
Proof.
move=> t1 ts; rewrite /v1_rounds; case: N.ltb_spec => HM; first by split=> // -[]; lia.
split; first by move/(search_ret ts); split.
case=> _ [c Hc]; case E: (search _ _) => [r'|].
  have [c' Hc'] := search_ret ts E.
  by case: (cheapest_unique Hc Hc') => _ ->.
case/(search_panic _ ts): E => [[c' _ /is_secure_v1_ret]|H]; first by case.
by case: Hc => H1 H2 _ _; rewrite H in H2.
Qed.

Theorem v1_search_panic lm i a : 1 <= in_t i -> (N.of_nat (in_t i) < 2 ^ 56)%num ->
  v1_rounds lm i a = Panic <->
  (256 < in_M i)%num \/ (forall c, candidate c -> is_secure_v1 lm i a c <> Ret true).
Proof.
move=> t1 ts; rewrite /v1_rounds; case: N.ltb_spec => HM; first by split=> // _; left.
split.
  case/(search_panic _ ts) => [[c _ /is_secure_v1_ret]|H]; first by case.
  by right=> c /H ->.
case=> [|H]; first by lia.
apply/(search_panic _ ts); right=> c Hc.
by case E: (is_secure_v1 _ _ _ _) (H c Hc) (@is_secure_v1_ret lm i a c t1) => [[]|].
Qed.

Lemma v2_step_upper M upper k st : k <= upper -> grobner_basis_v2_step M upper k st <> Panic.
Proof.
move=> H; rewrite /grobner_basis_v2_step; case: st => // acc.
by rewrite /usub H bind_ret; case: ifP.
Qed.

Lemma v2_loop M upper xs st : all (fun k => k <= upper) xs ->
  for_in xs (grobner_basis_v2_step M upper) st <> Panic.
Proof.
elim: xs st => //= x xs IH st /andP[Hx Hxs].
case E: (grobner_basis_v2_step _ _ _ _) => [st'|] /=; first exact: IH.
by case: (v2_step_upper Hx E).
Qed.

Lemma v2_possible_ret i e c : 1 <= r_F c ->
  algebraic_attack_grobner_basis_v2_possible i (Exponent e) c <> Panic.
Proof.
move=> F1; rewrite /algebraic_attack_grobner_basis_v2_possible /usub F1 bind_ret.
set lo := (_ + _); set up := (_ + _).
case E: (for_in _ _ _) => [st|] //=.
case: (@v2_loop (in_M i) up (range 0 lo) (Some 1%Z) _ E).
apply/allP => k; rewrite mem_iota => /andP[_ H].
by apply: leq_trans (ltnW H) _; rewrite add0n /up /lo; move: (_ * _)%N (_ * _)%N => x y; slia.
Qed.

Lemma is_secure_v2_ret lm i e c : 1 <= in_t i -> 1 <= r_F c -> is_secure_v2 lm i (Exponent e) c <> Panic.
Proof.
move=> t1 F1; rewrite /is_secure_v2; case: ifP => // _; case: ifP => // _.
rewrite /algebraic_attack_grobner_basis_v1 /usub t1 bind_ret bind_ret; case: ifP => // _.
by case E: (algebraic_attack_grobner_basis_v2_possible _ _ _) => [b|] //; case: (v2_possible_ret F1 E).
Qed.

Theorem v2_search lm i e r : 1 <= in_t i -> (N.of_nat (in_t i) < 2 ^ 56)%num ->
  v2_rounds lm i (Exponent e) = Ret r <->
  exists c, cheapest (fun c => is_secure_v2 lm i (Exponent e) c = Ret true) (in_t i) c r.
Proof.
move=> t1 ts; rewrite /v2_rounds.
split; first by move/(search_ret ts).
case=> [c Hc]; case E: (search _ _) => [r'|].
  have [c' Hc'] := search_ret ts E.
  by case: (cheapest_unique Hc Hc') => _ ->.
case/(search_panic _ ts): E => [[c' [_ _ H4 _] /is_secure_v2_ret]|H]; first by case=> //; slia.
by case: Hc => H1 H2 _ _; rewrite H in H2.
Qed.

Theorem v2_search_panic lm i e : 1 <= in_t i -> (N.of_nat (in_t i) < 2 ^ 56)%num ->
  v2_rounds lm i (Exponent e) = Panic <->
  (forall c, candidate c -> is_secure_v2 lm i (Exponent e) c <> Ret true).
Proof.
move=> t1 ts; rewrite /v2_rounds; split.
  case/(search_panic _ ts) => [[c [_ _ H4 _] /is_secure_v2_ret]|H]; first by case=> //; slia.
  by move=> c /H ->.
move=> H; apply/(search_panic _ ts); right=> c Hc.
have F1 : 1 <= r_F c by case: Hc => _ _ H4 _; slia.
by case E: (is_secure_v2 _ _ _ _) (H c Hc) (@is_secure_v2_ret lm i e c t1 F1) => [[]|].
Qed.

(** The Poseidon2 search has no support for the inverse S-box. *)
Theorem v2_inverse_panics lm i : (N.of_nat (in_t i) < 2 ^ 56)%num -> v2_rounds lm i Inverse = Panic.
Proof.
move=> ts; apply/(search_panic _ ts); left; exists (RoundNumbers 1 10) => //.
by rewrite /is_secure_v2; case: (s_610 lm i Inverse) => ->.
Qed.

(** What is secure for Poseidon2 is secure for Poseidon1, so when the choice for
    Poseidon1 passes the additional test both searches agree. *)
Lemma secure_v2_v1 lm i e c : is_secure_v2 lm i (Exponent e) c = Ret true -> is_secure_v1 lm i (Exponent e) c = Ret true.
Proof.
rewrite /is_secure_v2 /is_secure_v1; case: ifP => // _; case: ifP => // _.
by case: algebraic_attack_grobner_basis_v1 => //= g; case: ifP.
Qed.

Theorem v2_agrees lm i e c r : 1 <= in_t i -> (N.of_nat (in_t i) < 2 ^ 56)%num ->
  cheapest (fun c => is_secure_v1 lm i (Exponent e) c = Ret true) (in_t i) c r ->
  is_secure_v2 lm i (Exponent e) c = Ret true -> v2_rounds lm i (Exponent e) = Ret r.
Proof.
move=> t1 ts [H1 H2 H3 H4] H; apply/(v2_search _ _ _ t1 ts); exists c; split=> // c' r' Hc /secure_v2_v1.
exact: H4.
Qed.

(** * The margin *)

Theorem margin_exact c : (N.of_nat (r_P c) < 2 ^ 40)%num -> with_margin c (apply_security_margin c).
Proof. by move=> H; rewrite apply_security_marginE; [exact: margin_with | lia]. Qed.

(** * The shipped round numbers *)

Definition certs_q (t : nat) : certs :=
  Certs (1, 12, 13)%Z (1, 4, 4)%Z (512, 125, 126)%Z
    (nth (8, 5, 6) [:: (8, 0, 1); (8, 0, 1); (8, 1, 2); (8, 3, 4); (8, 3, 4); (8, 4, 5); (8, 5, 6); (8, 5, 6); (8, 5, 6)] t)%Z.

Theorem q_rounds lm t limbs allow : accurate lm -> 2 <= t <= 8 ->
  v1_rounds lm (input_generate (log2 lm) 128 t q limbs allow) (Exponent 17) = Ret (RoundNumbers 31 8).
Proof.
move=> acc Ht; apply: (@v1_eval_exp_sound _ _ _ q (certs_q t)) => //.
have : t \in iota 2 7 by rewrite mem_iota.
by rewrite !inE; do ![case/orP => [/eqP -> //|]]; move/eqP->.
Qed.

(** * Even numbers of full rounds *)

Section Even.
Local Open Scope R_scope.
Variables (lm : libm) (i : input f64) (e : N).
Hypothesis acc : accurate lm.
Hypothesis t128 : (2 <= in_t i <= 128)%N.
Hypothesis e3 : (3 <= e < 2 ^ 32)%num.
Hypothesis M256 : (in_M i <= 256)%num.

Lemma L_bounds : 0 <= flog lm 2 (f64_exp e) <= 1.
Proof.
case: acc => Aln _ _; rewrite f64_exp_small; last first.
  by rewrite /in53; apply/andP; split; apply/Z.leb_spec0; lia.
have E3 : (3 <= Z.of_N e)%Z by lia.
have E32 : (Z.of_N e <= 2 ^ 32)%Z by lia.
have l2 := ln2_gt0; have l3 := @ln_gt0 3 ltac:(lia).
have le3 := @ln_leZ 3 (Z.of_N e) ltac:(lia) E3.
have A2 : (2 <= 2 <= 2 ^ 64)%Z by lia.
have Ae : (2 <= Z.of_N e <= 2 ^ 64)%Z by lia.
have Q := quot_err (Rlt_le _ _ l2) (Rlt_le_trans _ _ _ l3 le3) (Aln _ A2) (Aln _ Ae).
have R : ln 2 / ln (IZR (Z.of_N e)) <= 7 / 10.
  apply: (Rmult_le_reg_r (ln (IZR (Z.of_N e)))); first by lra.
  have -> : ln 2 / ln (IZR (Z.of_N e)) * ln (IZR (Z.of_N e)) = ln 2 by field; lra.
  have := @ln_leZ (2 ^ 10) (3 ^ 7) ltac:(lia) ltac:(lia).
  by rewrite !ln_IZR_pow //; lra.
have R0 : 0 <= ln 2 / ln (IZR (Z.of_N e)).
  by apply: Rmult_le_pos; [lra | apply: Rlt_le; apply: Rinv_0_lt_compat; lra].
have h : 0 < / 2 ^ 38 < / 10.
  have P : 10 < 2 ^ 38 by rewrite pow_IZR; apply: IZR_lt.
  by split; [apply: Rinv_0_lt_compat; lra | apply: Rinv_lt_contravar; lra].
rewrite /flog /fdiv; split.
  apply: (@rnd_lb _ 0); first exact: (@fmt_int 0).
  by apply: Rle_trans (proj1 Q); apply: Rmult_le_pos; lra.
apply: (@rnd_ub _ 1); first exact: (@fmt_int 1).
apply: (Rle_trans _ _ _ (proj2 Q)); nra.
Qed.

Lemma T_bound : flog lm (f64_t i) (f64_exp e) <= 5.
Proof.
case: acc => Aln _ _; rewrite f64_exp_small; last first.
  by rewrite /in53; apply/andP; split; apply/Z.leb_spec0; lia.
have [t2 t28] : (2 <= Z.of_nat (in_t i) <= 128)%Z by case/andP: t128 => H1 H2; clear -H1 H2; slia.
rewrite /f64_t f64_of_int_small; last by lia.
have E3 : (3 <= Z.of_N e)%Z by lia.
have l2 := ln_gt0 t2; have l3 := @ln_gt0 3 ltac:(lia).
have le3 := @ln_leZ 3 (Z.of_N e) ltac:(lia) E3.
have A2 : (2 <= Z.of_nat (in_t i) <= 2 ^ 64)%Z by lia.
have Ae : (2 <= Z.of_N e <= 2 ^ 64)%Z by lia.
have Q := quot_err (Rlt_le _ _ l2) (Rlt_le_trans _ _ _ l3 le3) (Aln _ A2) (Aln _ Ae).
have R : ln (IZR (Z.of_nat (in_t i))) / ln (IZR (Z.of_N e)) <= 9 / 2.
  apply: (Rmult_le_reg_r (ln (IZR (Z.of_N e)))); first by lra.
  have -> : ln (IZR (Z.of_nat (in_t i))) / ln (IZR (Z.of_N e)) * ln (IZR (Z.of_N e)) = ln (IZR (Z.of_nat (in_t i))) by field; lra.
  have := @ln_leZ (128 ^ 2) (3 ^ 9) ltac:(lia) ltac:(lia).
  have := @ln_leZ (Z.of_nat (in_t i)) 128 ltac:(lia) t28.
  by rewrite !ln_IZR_pow //; lra.
have h : 0 < / 2 ^ 38 < / 10.
  have P : 10 < 2 ^ 38 by rewrite pow_IZR; apply: IZR_lt.
  by split; [apply: Rinv_0_lt_compat; lra | apply: Rinv_lt_contravar; lra].
have R0 : 0 <= ln (IZR (Z.of_nat (in_t i))) / ln (IZR (Z.of_N e)).
  by apply: Rmult_le_pos; [lra | apply: Rlt_le; apply: Rinv_0_lt_compat; lra].
apply: (@rnd_ub _ 5); first exact: (@fmt_int 5).
apply: (Rle_trans _ _ _ (proj2 Q)); nra.
Qed.

Lemma as_usize_ub x n : (0 <= n)%Z -> x <= IZR n -> (as_usize x <= n)%Z.
Proof.
move=> Hn H; rewrite /as_usize.
suff : (Ztrunc x <= n)%Z by lia.
by rewrite -(Ztrunc_IZR n); apply: Ztrunc_le.
Qed.

Lemma fmul_ub (a b : R) (n : Z) : (0 <= n < 2 ^ 53)%Z -> 0 <= a <= 1 -> b <= IZR n -> fmul a b <= IZR n.
Proof.
move=> Hn Ha Hb; have n0 : 0 <= IZR n by apply: (IZR_le 0); lia.
by apply: rnd_ub; [apply: fmt_int; lia | nra].
Qed.

Lemma M_bound : 0 <= f64_M i <= 256.
Proof.
rewrite /f64_M f64_of_int_small; last by lia.
by split; apply: IZR_le; lia.
Qed.

Lemma interp_bound : (algebraic_attack_interpolation lm i (Exponent e) <= 261)%Z.
Proof.
have L := L_bounds; have T := T_bound; have Mb := M_bound.
apply: as_usize_ub => //; apply: IZR_le; apply: Zceil_glb.
apply: rnd_ub; first exact: fmt_int.
have : fceil (fmul (flog lm 2 (f64_exp e)) (fmin (f64_M i) (in_log_2_p i))) <= 256.
  apply: IZR_le; apply: Zceil_glb; apply: fmul_ub => //.
  by rewrite fminE; have := Rmin_l (f64_M i) (in_log_2_p i); lra.
by lra.
Qed.

Lemma grobner_bound G : algebraic_attack_grobner_basis_v1 lm i (Exponent e) = Ret G -> (G <= 383)%Z.
Proof.
have L := L_bounds; have Mb := M_bound.
have t1 : (1 <= in_t i)%N by case/andP: t128 => H1 H2; clear -H1 H2; slia.
rewrite /algebraic_attack_grobner_basis_v1 /usub t1 bind_ret; case=> <-.
apply: as_usize_ub => //; apply: (Rle_trans _ _ _ (Zfloor_lb _)).
rewrite fmaxE; apply: Rmax_lub.
  apply: (Rle_trans _ 256); last by lra.
  apply: fmul_ub => //; rewrite fminE; apply: (Rle_trans _ _ _ (Rmin_l _ _)).
  by apply: rnd_ub; [exact: fmt_int | lra].
apply: rnd_ub; first exact: fmt_int.
have : f64_of_int (Z.of_nat (in_t i - 1)) <= 127.
  rewrite f64_of_int_small; last by case/andP: t128 => H1 H2; clear -H1 H2; slia.
  by apply: IZR_le; case/andP: t128 => H1 H2; clear -H1 H2; slia.
rewrite fminE; have := Rmin_l (fdiv (fmul (flog lm 2 (f64_exp e)) (f64_M i)) (fadd (f64_t i) 1))
                              (fdiv (fmul (flog lm 2 (f64_exp e)) (in_log_2_p i)) 2).
suff : fdiv (fmul (flog lm 2 (f64_exp e)) (f64_M i)) (fadd (f64_t i) 1) <= 256 by lra.
apply: rnd_ub; first exact: fmt_int.
have ml : fmul (flog lm 2 (f64_exp e)) (f64_M i) <= 256 by apply: fmul_ub => //; lra.
have m0 : 0 <= fmul (flog lm 2 (f64_exp e)) (f64_M i).
  by apply: (@rnd_lb _ 0); [exact: (@fmt_int 0) | apply: Rmult_le_pos; lra].
have d1 : 1 <= fadd (f64_t i) 1.
  apply: (@rnd_lb _ 1); first exact: (@fmt_int 1).
  suff : 0 <= f64_t i by lra.
  by apply: (@rnd_lb _ 0); [exact: (@fmt_int 0) | apply: (IZR_le 0); lia].
apply: (Rle_trans _ (fmul (flog lm 2 (f64_exp e)) (f64_M i) / 1)); last by lra.
by apply: Rmult_le_compat_l => //; apply: Rinv_le_contravar; lra.
Qed.

Theorem rounds_even : exists r, [/\ v1_rounds lm i (Exponent e) = Ret r, r_F r = 8%N \/ r_F r = 12%N & ~~ odd (r_F r)].
Proof.
have t2 : (2 <= in_t i)%N by case/andP: t128 => H1 H2; clear -H1 H2; slia.
have ts : small (in_t i) by rewrite /small; case/andP: t128 => H1 H2; clear -H1 H2; slia.
have [G HG] := grobner_ret lm e t2 (Exponent e).
have GB := grobner_bound HG; have IB := interp_bound.
rewrite (v1_rounds_closed t2 ts M256 HG).
set n := (Z.to_nat _).
have Hn : (n <= 383)%N by rewrite /n; clear -GB IB; slia.
rewrite (_ : (n.+1 <= 498)%N = true); last by clear -Hn; slia.
eexists; split; first reflexivity.
all: rewrite -[r_F (margin _)]/(select_rF (statistical_attack_full_rounds lm i (Exponent e)) n.+1 + 2)%N.
all: have E : forall s, (6 <= s)%N -> select_rF s n.+1 = s by
  move=> s Hs; rewrite /select_rF; clear -Hs Hn; slia.
all: case: (s_610 lm i (Exponent e)) => ->; rewrite E //.
  by left.
by right.
Qed.
End Even.

(** * The binary logarithm *)

(** Correctly rounded logarithms *)
Definition rounded_libm : libm := Libm (fun x => f64_rnd (ln x)) (fun x => f64_rnd (ln x / ln 2)).
(** Exact logarithms *)
Definition exact_libm : libm := Libm ln (fun x => ln x / ln 2)%R.

Lemma log2_pow2 k : (ln (2 ^ k) / ln 2 = INR k)%R.
Proof. by have L := ln2_gt0; rewrite ln_pow; [field; lra | lra]. Qed.

Lemma exact_accurate : accurate exact_libm.
Proof.
have P : (0 <= / 2 ^ 40)%R by apply: Rlt_le; apply: Rinv_0_lt_compat; apply: pow_lt; lra.
have L := ln2_gt0.
have Li : (0 <= / ln 2)%R by apply: Rlt_le; apply: Rinv_0_lt_compat.
split=> [n Hn|n Hn|k _] /=; last exact: log2_pow2.
  rewrite Rminus_diag_eq // Rabs_R0; apply: Rmult_le_pos => //.
  by apply: Rlt_le; apply: ln_gt0; lia.
rewrite Rminus_diag_eq // Rabs_R0; apply: Rmult_le_pos => //; apply: Rmult_le_pos => //.
by rewrite -ln_1; apply: (@ln_leZ 1); lia.
Qed.

Lemma rnd_small_err (v : R) : (v = 0 \/ / 10 <= v)%R -> (Rabs (f64_rnd v - v) <= v / 2 ^ 40)%R.
Proof.
case=> [->|H].
  by rewrite /f64_rnd round_0 Rminus_0_r Rabs_R0 /Rdiv Rmult_0_l; apply: Rle_refl.
have v0 : (0 <= v)%R by lra.
have Hv : (bpow radix2 (-1022) <= Rabs v)%R.
  rewrite Rabs_pos_eq //; apply: (Rle_trans _ (bpow radix2 (-4))); first exact: bpow_le.
  by rewrite /=; lra.
apply: (Rle_trans _ _ _ (rnd_err Hv)).
rewrite Rabs_pos_eq // Rmult_comm; apply: Rmult_le_compat_l => //.
by rewrite /=; lra.
Qed.

Lemma ln2_half : (/ 2 <= ln 2)%R.
Proof.
(* e < 4 *)
have E : (exp (/ 2) <= 2)%R.
  have := exp_ineq1_le (- / 2); have := exp_pos (/ 2); have := exp_pos (- / 2).
  rewrite exp_Ropp => A B C.
  have I : (exp (/ 2) * / exp (/ 2) = 1)%R by field; lra.
  by nra.
rewrite -{1}(ln_exp (/ 2)); case: E => [E|->]; last exact: Rle_refl.
by apply: Rlt_le; apply: ln_increasing => //; apply: exp_pos.
Qed.

Lemma rounded_accurate : accurate rounded_libm.
Proof.
have H2 := ln2_half; have L := ln2_gt0.
split=> [n Hn|n Hn|k Hk] /=.
- by apply: rnd_small_err; right; have := @ln_leZ 2 n; lra || (move=> H; have := H ltac:(lia) ltac:(lia); lra).
- apply: rnd_small_err; case: (Z.eq_dec n 1) => [->|N].
    by left; rewrite ln_1 /Rdiv Rmult_0_l.
  right; apply: (Rle_trans _ 1); first lra.
  apply: (Rmult_le_reg_r _ _ _ L); rewrite Rmult_1_l.
  have -> : (ln (IZR n) / ln 2 * ln 2 = ln (IZR n))%R by field; lra.
  by apply: (@ln_leZ 2); lia.
rewrite log2_pow2 INR_IZR_INZ; apply: rnd_fmt; apply: fmt_int; clear -Hk; slia.
Qed.

Theorem log2_accuracy lm x : accurate lm -> (0 < x < 2 ^ 1024)%Z ->
  (ln (IZR x) / ln 2 - ln (5 / 4) / ln 2 - / 2 ^ 34 < log2 lm x <= ln (IZR x) / ln 2 + / 2 ^ 34)%R.
Proof.
move=> acc Hx; have [A B] := log2_real_bounds (proj1 Hx).
by have [C D] := Rabs_le_inv _ _ (log2_error acc Hx); lra.
Qed.

(** In exact arithmetic *)
Lemma log2_exact x : (0 < x < 2 ^ 1024)%Z -> 
  exists v, [/\ (v <= ln (IZR x) / ln 2 < v + ln (5 / 4) / ln 2)%R, Zfloor v = Z.log2 x &
                forall lm, accurate lm -> (Rabs (log2 lm x - v) <= / 2 ^ 34)%R].
Proof.
move=> Hx; exists (log2_real x); split; first exact: log2_real_bounds (proj1 Hx).
  exact: log2_real_floor (proj1 Hx).
by move=> lm acc; apply: log2_error.
Qed.

(** The error is large for this number, whatever the library. *)
Theorem log2_inaccurate lm : accurate lm ->
  log2 lm (5 * 2 ^ 48 - 1) = 50%R /\ (50.32 < ln (IZR (5 * 2 ^ 48 - 1)) / ln 2)%R.
Proof.
case=> _ _ Apow; split.
  rewrite /log2 (_ : log2_loop _ _ _ = (4, 48)%Z) //.
  rewrite !f64_of_int_small //.
  have -> : IZR 4 = (2 ^ 2)%R by rewrite /=; ring.
  rewrite Apow // /fadd (_ : (48 + INR 2 = 50)%R); last by rewrite /=; ring.
  by apply: rnd_fmt; apply: (@fmt_int 50).
have L := ln2_gt0; apply: (Rmult_lt_reg_r _ _ _ L).
have -> : (ln (IZR (5 * 2 ^ 48 - 1)) / ln 2 * ln 2 = ln (IZR (5 * 2 ^ 48 - 1)))%R by field; lra.
have H : (ln (IZR (2 ^ 1258)) < ln (IZR ((5 * 2 ^ 48 - 1) ^ 25)))%R.
  by apply: ln_increasing; apply: IZR_lt.
by rewrite !ln_IZR_pow // in H; lra.
Qed.

(** Even with correctly rounded logarithms the integral part can be wrong. *)
Theorem log2_floor_wrong : log2 rounded_libm (2 ^ 50 - 1) = 50%R /\ Z.log2 (2 ^ 50 - 1) = 49%Z.
Proof.
split=> //; rewrite /log2 (_ : log2_loop _ _ _ = (2 ^ 50 - 1, 0)%Z) //.
rewrite !f64_of_int_small // /rounded_libm /f64_log2.
have L := ln2_gt0; have H2 := ln2_half.
set v := (ln _ / ln 2)%R.
have X0 : (0 < IZR (2 ^ 50 - 1))%R by apply: (IZR_lt 0).
have A : (v < 50)%R.
  apply: (Rmult_lt_reg_r _ _ _ L); rewrite -(@ln_IZR_pow 2 50) //.
  have -> : (v * ln 2 = ln (IZR (2 ^ 50 - 1)))%R by rewrite /v; field; lra.
  by apply: ln_increasing => //; apply: IZR_lt.
have B : (50 - / 2 ^ 48 < v)%R.
  apply: (Rmult_lt_reg_r _ _ _ L).
  have -> : (v * ln 2 = ln (IZR (2 ^ 50 - 1)))%R by rewrite /v; field; lra.
  have E : (ln (IZR (2 ^ 50)) - ln (IZR (2 ^ 50 - 1)) <= 3 / 2 / 2 ^ 50)%R.
    have -> : (ln (IZR (2 ^ 50)) - ln (IZR (2 ^ 50 - 1)) = ln (IZR (2 ^ 50) / IZR (2 ^ 50 - 1)))%R.
      by rewrite /Rdiv ln_mult ?ln_Rinv //; try exact: Rinv_0_lt_compat; apply: (IZR_lt 0).
    set h := (3 / 2 / 2 ^ 50)%R.
    rewrite -(ln_exp h); have := exp_ineq1_le h => E.
    have F : (IZR (2 ^ 50) / IZR (2 ^ 50 - 1) <= exp h)%R.
      apply: Rle_trans _ E; apply: (Rmult_le_reg_r _ _ _ X0).
      have -> : (IZR (2 ^ 50) / IZR (2 ^ 50 - 1) * IZR (2 ^ 50 - 1) = IZR (2 ^ 50))%R by field; lra.
      by rewrite /h /=; lra.
    case: F => [F|->]; last exact: Rle_refl.
    apply: Rlt_le; apply: ln_increasing => //.
    by apply: Rmult_lt_0_compat; [apply: (IZR_lt 0) | exact: Rinv_0_lt_compat].
  rewrite ln_IZR_pow // in E.
  have h0 : (3 / 2 / 2 ^ 50 < / 2 ^ 48 * / 2)%R by rewrite /=; lra.
  have : (/ 2 ^ 48 * / 2 <= / 2 ^ 48 * ln 2)%R.
    by apply: Rmult_le_compat_l => //; apply: Rlt_le; apply: Rinv_0_lt_compat; apply: pow_lt; lra.
  by rewrite Rmult_minus_distr_r; lra.
have -> : f64_rnd v = 50%R.
  have -> : (50 = IZR 7036874417766400 * bpow radix2 (6 - 53))%R by rewrite /=; lra.
  apply: rnd_eq => //; first by rewrite /=; move: A B; rewrite /=; lra.
  by apply: Rabs_def1; move: A B; rewrite /=; lra.
rewrite /fadd Rplus_0_l; apply: rnd_fmt; exact: (@fmt_int 50).
Qed.

(** * Large widths *)

(** For width 420 the search selects an odd number of full rounds. *)
Theorem large_width_odd lm limbs allow : accurate lm ->
  v1_rounds lm (input_generate (log2 lm) 128 420 q limbs allow) (Exponent 17) = Ret (RoundNumbers 429 23).
Proof.
by move=> acc; apply: (@v1_eval_exp_sound _ _ _ q (Certs (1, 12, 13) (1, 4, 4) (512, 125, 126) (8, 17, 18))%Z).
Qed.

(** For width 500 no candidate is secure. *)
Theorem large_width_panics lm limbs allow : accurate lm ->
  v1_rounds lm (input_generate (log2 lm) 128 500 q limbs allow) (Exponent 17) = Panic.
Proof.
by move=> acc; apply: (@v1_eval_exp_sound _ _ _ q (Certs (1, 12, 13) (1, 4, 4) (512, 125, 126) (8, 17, 18))%Z).
Qed.

(** * The choice in closed form *)

Lemma Nat_max m n : Nat.max m n = maxn m n.
Proof. by rewrite maxnE; slia. Qed.

Theorem v1_rounds_formula lm (i : input f64) e G :
  2 <= in_t i -> (N.of_nat (in_t i) < 2 ^ 56)%num -> (in_M i <= 256)%num ->
  algebraic_attack_grobner_basis_v1 lm i (Exponent e) = Ret G ->
  let s := statistical_attack_full_rounds lm i (Exponent e) in
  let n := (Z.to_nat (Z.max (algebraic_attack_interpolation lm i (Exponent e)) G)).+1 in
  let f := maxn s (n - 399) in
  let p := maxn 1 (n - f) in
  v1_rounds lm i (Exponent e) =
  if n <= 498 then Ret (RoundNumbers ((43 * p + 39) %/ 40) (f + 2)) else Panic.
Proof.
move=> t2 ts M256 HG s n f p; rewrite (v1_rounds_closed t2 ts M256 HG) -/s -/n.
by rewrite /margin /select /select_rP /select_rF !Nat_max.
Qed.
