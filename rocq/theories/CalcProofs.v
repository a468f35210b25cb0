(** The reference script in closed form, and its agreement with the generator. *)
From Coq Require Import ZArith NArith Reals Lia Lra.
From Flocq Require Import Core.
From mathcomp Require Import all_ssreflect.
From Verif Require Import Base Params Transcript V1 Rounds RoundsSpec F64Proofs RoundsSearch RoundsClosed.
From Verif Require Import RoundsEval RoundsProps CalcRounds CalcSpec CalcSearch Slia.
Set Implicit Arguments.
Unset Strict Implicit.
Unset Printing Implicit Defensive.

(** * [s] full rounds and [n] rounds in total are required *)
Definition finish (sm : bool) (c : rounds) : rounds := if sm then margin c else c.

Lemma script_select (t s n : nat) sm : 2 <= t -> 4 <= s < 100 -> ~~ odd s -> n <= s + 499 ->
  script_best (enough s n) t sm (RoundNumbers (Nat.max 1 (n - s)) s)
              (finish sm (RoundNumbers (Nat.max 1 (n - s)) s)).
Proof.
move=> t2 /andP[s4 s99] so Hn.
have := erefl (Nat.max 1 (n - s)); move: {2 3 4}(Nat.max _ _) => p Hp.
have Rp c : reported sm c (finish sm c) by rewrite /reported /finish; case: sm => //; exact: margin_with.
have Er c r : reported sm c r -> r = finish sm c.
  by rewrite /reported /finish; case: (sm) => //; exact: with_marginE.
split=> //.
- by split=> //=; slia.
- by split=> //=; rewrite /rounds_total /=; slia.
move=> c' r' [A1 A2 A3 A4 A5] [A6 A7] /Er -> N.
have [k Hk] : exists k, r_F c' = s + k by exists (r_F c' - s); slia.
have Hp' : p <= r_P c' + k by move: A7; rewrite /rounds_total; slia.
have Hp0 : k = 0 -> p <> r_P c'.
  by move=> k0 E; apply: N; apply: rounds_eq => //=; slia.
have X2 : r_P (finish sm (RoundNumbers p s)) <= r_P (finish sm c') + 2 * k /\
          (k = 0 -> r_P (finish sm (RoundNumbers p s)) < r_P (finish sm c')).
  rewrite /finish; case: (sm); last by split=> [|k0] /=; [slia | have := Hp0 k0; slia].
  case: (margin_with (RoundNumbers p s)) => _ P1 P2; case: (margin_with c') => _ P3 P4.
  move: P1 P2; rewrite [r_P (RoundNumbers p s)]/= => P1 P2.
  move: (r_P (margin _)) (r_P (margin _)) P1 P2 P3 P4 => a b P1 P2 P3 P4.
  by split=> [|k0]; [clear -P2 P3 Hp'; slia | have := Hp0 k0; clear -k0 Hp' P2 P3; slia].
have F1 : r_F (finish sm c') = r_F (finish sm (RoundNumbers p s)) + k.
  by rewrite /finish; case: (sm) => /=; rewrite Hk; slia.
rewrite /sboxes F1; case: X2.
move: (r_P (finish sm c')) (r_F (finish sm _)) (r_P (finish sm _)) => b f a X2 X3.
have T2 : 2 * k <= t * k by rewrite leq_mul2r t2 orbT.
rewrite mulnDr; move: (t * f) (t * k) T2 => x y T2.
case: (k =P 0) => [k0|k0]; first by left; have := X3 k0; clear -T2; slia.
case: (ltngtP (x + a) (x + y + b)) => H'; first by left.
  by clear -X2 H' T2; slia.
by right; split=> //; clear -k0; slia.
Qed.

Lemma script_best_ext (S S' : rounds -> Prop) t sm c r :
  (forall c, script_candidate c -> S c <-> S' c) -> script_best S t sm c r -> script_best S' t sm c r.
Proof.
move=> H [H1 H2 H3 H4]; split=> //; first by apply/H.
by move=> c' r' Hc /(H _ Hc); apply: H4.
Qed.

(** * The search *)
Lemma sat_ret lm p t alpha M F P : (0 < alpha)%Z \/ alpha = (-1)%Z ->
  exists b, sat_inequiv_alpha lm p t F P alpha M = Ret b.
Proof.
rewrite /sat_inequiv_alpha => -[H|->]; last by eexists.
by case: Z.ltb_spec0 => // _; eexists.
Qed.

Theorem script_search_gen lm p (t : nat) alpha M sm F P cost k :
  (1 <= t)%N -> (0 < alpha)%Z \/ alpha = (-1)%Z -> (0 < k)%Z ->
  (forall F P : nat, cost (Z.of_nat F) (Z.of_nat P) (Zceil (py_log lm p 2) * Z.of_nat t)%Z (Z.of_nat t) =
     (k * (Z.of_nat t * Z.of_nat F + Z.of_nat P))%Z) ->
  find_FD_round_numbers lm p (Z.of_nat t) alpha M cost sm = Ret (F, P) <->
  (exists c, script_best (script_secure lm p (Z.of_nat t) alpha M) t sm c (RoundNumbers P F)) \/
  (forall c, script_candidate c -> ~ script_secure lm p (Z.of_nat t) alpha M c) /\ F = 0 /\ P = 0.
Proof.
move=> t1 Ha k0 costE; rewrite /find_FD_round_numbers.
set sat := fun F P => sat_inequiv_alpha lm p (Z.of_nat t) F P alpha M.
pose s F P := if sat (Z.of_nat F) (Z.of_nat P) is Ret b then b else false.
have satE F' P' : sat (Z.of_nat F') (Z.of_nat P') = Ret (s F' P').
  by rewrite /s /sat; have [b ->] := sat_ret lm p (Z.of_nat t) M (Z.of_nat F') (Z.of_nat P') Ha.
have E c : script_secure lm p (Z.of_nat t) alpha M c <-> s (r_F c) (r_P c).
  by rewrite /script_secure -/(sat _ _) satE; split=> [[]|->].
apply: iff_trans (@find_loops_best sat s satE _ _ t k k0 costE t1 sm F P) _.
split=> -[[c H]|[H H']].
- by left; exists c; apply: script_best_ext H => c' _; rewrite E.
- by right; split=> // c Hc; rewrite E; apply/negP; exact: H.
- by left; exists c; apply: script_best_ext H => c' _; rewrite -E.
- by right; split=> // c Hc; apply/negP; rewrite -E; exact: H.
Qed.

Theorem script_search lm p (t : nat) alpha M sm F P :
  (1 <= t)%N -> (0 < alpha)%Z \/ alpha = (-1)%Z ->
  find_FD_round_numbers lm p (Z.of_nat t) alpha M get_sbox_cost sm = Ret (F, P) <->
  (exists c, script_best (script_secure lm p (Z.of_nat t) alpha M) t sm c (RoundNumbers P F)) \/
  (forall c, script_candidate c -> ~ script_secure lm p (Z.of_nat t) alpha M c) /\ F = 0 /\ P = 0.
Proof. by move=> t1 Ha; apply: (@script_search_gen _ _ _ _ _ _ _ _ _ 1) => // F' P'; rewrite /get_sbox_cost; lia. Qed.

(** * Floating point *)
Local Open Scope R_scope.

Lemma rnd_abs x (k : Z) : (-900 <= k)%Z -> Rabs x <= bpow radix2 k ->
  Rabs (f64_rnd x - x) <= bpow radix2 (k - 53).
Proof.
move=> k0 H; case: (Rle_or_lt (bpow radix2 (-1022)) (Rabs x)) => Hx.
  apply: Rle_trans (rnd_err Hx) _; rewrite (_ : k - 53 = -53 + k)%Z; last lia.
  by rewrite bpow_plus; apply: Rmult_le_compat_l => //; apply: bpow_ge_0.
have E : f64_format (bpow radix2 (-1022)) by rewrite -[bpow _ _]Rmult_1_l; apply: (@fmt_dyadic 1).
have E' : f64_format (- bpow radix2 (-1022)) by apply: generic_format_opp.
have [h1 h2] := Rabs_def2 _ _ Hx.
have u := rnd_ub E (Rlt_le _ _ h1); have l := rnd_lb E' (Rlt_le _ _ h2).
have B : bpow radix2 (-1021) <= bpow radix2 (k - 53) by apply: bpow_le; lia.
have D : bpow radix2 (-1021) = 2 * bpow radix2 (-1022) by rewrite (bpow_plus radix2 1 (-1022)).
by apply: Rabs_le; lra.
Qed.

(** Errors of numbers below [2^12] *)
Lemma rnd12 x : Rabs x <= 4096 -> Rabs (f64_rnd x - x) <= / 2 ^ 40.
Proof.
move=> H; apply: Rle_trans (@rnd_abs x 12 _ _) _ => //.
by rewrite /=; lra.
Qed.

(** [ceil(x - P)] for a float [x] away from the integers *)
Lemma ceil_sub x (n P : Z) : (0 <= P <= 1000)%Z -> 0 <= x <= 1000 -> IZR n - 1 + / 2 ^ 30 <= x <= IZR n - / 2 ^ 30 ->
  Zceil (fsub x (f64_of_int P)) = (n - P)%Z.
Proof.
move=> HP Hx Hn; rewrite f64_of_int_small; last by lia.
have P0 := IZR_le _ _ (proj1 HP); have P1 := IZR_le _ _ (proj2 HP).
have /Rabs_le_inv E : Rabs (fsub x (IZR P) - (x - IZR P)) <= / 2 ^ 40 by apply: rnd12; apply: Rabs_le; lra.
by apply: Zceil_eq; rewrite minus_IZR; lra.
Qed.

Lemma ceil_sub_le x (n P : Z) : (0 <= P <= 1000)%Z -> 0 <= x <= 1000 -> x <= IZR n - / 2 ^ 30 ->
  (Zceil (fsub x (f64_of_int P)) <= n - P)%Z.
Proof.
move=> HP Hx Hn; rewrite f64_of_int_small; last by lia.
have P0 := IZR_le _ _ (proj1 HP); have P1 := IZR_le _ _ (proj2 HP).
have /Rabs_le_inv E : Rabs (fsub x (IZR P) - (x - IZR P)) <= / 2 ^ 40 by apply: rnd12; apply: Rabs_le; lra.
by apply: Zceil_glb; rewrite minus_IZR; lra.
Qed.

(** * Logarithms *)
Lemma ln_sub1 y : 0 < y -> ln y <= y - 1.
Proof. by move=> y0; have := exp_ineq1_le (ln y); rewrite exp_ln //; lra. Qed.

(** [a < b] for integers: the logarithms differ by at least [1/b]. *)
Lemma ln_gap a b : (0 < a < b)%Z -> ln (IZR a) + / IZR b <= ln (IZR b).
Proof.
move=> [a0 ab]; have A := IZR_lt _ _ a0; have B := IZR_lt _ _ ab.
have D : IZR a + 1 <= IZR b by rewrite -plus_IZR; apply: IZR_le; lia.
have b0 : 0 < / IZR b by apply: Rinv_0_lt_compat; lra.
have := @ln_sub1 (IZR a * / IZR b) (Rmult_lt_0_compat _ _ A b0).
rewrite ln_mult // ln_Rinv; last by lra.
have : IZR a * / IZR b - 1 <= - / IZR b.
  apply: (Rmult_le_reg_r (IZR b)); first by lra.
  have -> : (IZR a * / IZR b - 1) * IZR b = IZR a - IZR b by field; lra.
  have -> : - / IZR b * IZR b = -1 by field; lra.
  by lra.
by lra.
Qed.

Lemma div_mul x y : 0 < y -> x / y * y = x.
Proof. by move=> y0; field; lra. Qed.
Lemma div_bound x y c : 0 < y -> (x / y <= c <-> x <= c * y).
Proof.
move=> y0; have E : x / y * y = x by field; lra.
split=> H; first by rewrite -E; apply: Rmult_le_compat_r; lra.
by apply: (Rmult_le_reg_r y) => //; rewrite E.
Qed.
Lemma div_bound' x y c : 0 < y -> (c <= x / y <-> c * y <= x).
Proof.
move=> y0; have E : x / y * y = x by field; lra.
split=> H; first by rewrite -E; apply: Rmult_le_compat_r; lra.
by apply: (Rmult_le_reg_r y) => //; rewrite E.
Qed.

Section Agree.
Variables (lm : libm) (M : N) (t : nat) (p : Z) (e : N) (limbs : nat) (allow : bool).
Hypothesis acc : accurate lm.
Hypothesis accl : accurate_ln lm.
Hypothesis t500 : (2 <= t <= 500)%N.
Hypothesis e32 : (3 <= e < 2 ^ 32)%num.
Hypothesis M256 : (M <= 256)%num.
Hypothesis eM : ((Z.of_N e - 1) ^ 2 <= 2 ^ Z.of_N M)%Z.
Hypothesis pM : (2 ^ (Z.of_N M + 1) <= p < 2 ^ 1023)%Z.
Hypothesis t_e : forall k : Z, (2 <= k)%Z -> Z.of_nat t <> (Z.of_N e ^ k)%Z.

Local Notation tz := (Z.of_nat t).
Local Notation ez := (Z.of_N e).
Local Notation Mz := (Z.of_N M).

Lemma tz_range : (2 <= tz <= 500)%Z.
Proof. by case/andP: t500 => /leP H1 /leP H2; lia. Qed.
Lemma M2 : (2 <= Mz)%Z.
Proof.
have : (0 <= Mz)%Z by lia.
case: (Z.lt_ge_cases Mz 2) => // H _.
have : (2 ^ Mz <= 2 ^ 1)%Z by apply: Z.pow_le_mono_r; lia.
by move: eM; have : (4 <= (ez - 1) ^ 2)%Z by [nia]; lia.
Qed.

Lemma MR : 2 <= IZR Mz <= 256.
Proof. by split; apply: IZR_le; [exact: M2 | lia]. Qed.
Lemma tR : 2 <= IZR tz <= 500.
Proof. by split; apply: IZR_le; have := tz_range; lia. Qed.

Lemma ln2_pos : 0 < ln 2. Proof. exact: (@ln_gt0 2). Qed.
Lemma ln2_le1 : ln 2 <= 1. Proof. by have := @ln_sub1 2; lra. Qed.

Lemma lne_range : 0 < ln (IZR ez) <= 32.
Proof.
split; first by apply: ln_gt0; lia.
have := @ln_leZ ez (2 ^ 32) ltac:(lia) ltac:(lia); rewrite ln_IZR_pow //.
by have := ln2_le1; lra.
Qed.

Lemma lne_gt : ln 2 < ln (IZR ez).
Proof. by apply: ln_increasing; [lra | apply: IZR_lt; lia]. Qed.

Local Notation L := (py_log lm 2 ez).
Local Notation T := (py_log lm tz ez).

(** [log(a, b)] of small integers *)
Lemma py_log_range a b : (2 <= a < 2 ^ 32)%Z -> (2 <= b < 2 ^ 32)%Z ->
  Rabs (py_log lm a b - ln (IZR a) / ln (IZR b)) <= / 2 ^ 30.
Proof.
move=> Ha Hb; rewrite /py_log /fdiv !f64_of_int_small; try lia.
have [A _ _] := acc; have la := @ln_gt0 a ltac:(lia); have lb := @ln_gt0 b ltac:(lia).
have Q := quot_err (Rlt_le _ _ la) lb (A a ltac:(lia)) (A b ltac:(lia)).
have V : 0 <= ln (IZR a) / ln (IZR b) <= 32.
  split; first by apply: Rmult_le_pos; [lra | apply: Rlt_le; apply: Rinv_0_lt_compat].
  apply/div_bound => //; apply: (Rle_trans _ (32 * ln 2)).
    by have := @ln_leZ a (2 ^ 32) ltac:(lia) ltac:(lia); rewrite ln_IZR_pow.
  by apply: Rmult_le_compat_l; [lra | apply: (@ln_leZ 2); lia].
move: V Q; move: (ln (IZR a) / ln (IZR b)) (f64_ln lm (IZR a) / f64_ln lm (IZR b)) => v w V Q.
have [Q1 Q2] : v - / 2 ^ 33 <= w <= v + / 2 ^ 33 by split; [have := proj1 Q | have := proj2 Q]; lra.
have /Rabs_le_inv R : Rabs (f64_rnd w - w) <= / 2 ^ 40 by apply: rnd12; apply: Rabs_le; lra.
by apply: Rabs_le; lra.
Qed.

Lemma L_range : / 64 <= L <= 1.
Proof.
have [l1 l2] := lne_range; have l3 := lne_gt; have l4 := ln2_pos.
have /Rabs_le_inv H := @py_log_range 2 ez ltac:(lia) ltac:(lia).
have A : ln 2 / ln (IZR ez) <= 7 / 10.
  apply/div_bound => //; have := @ln_leZ (2 ^ 10) (3 ^ 7) ltac:(lia) ltac:(lia).
  rewrite !ln_IZR_pow // => h; have := @ln_leZ 3 ez ltac:(lia) ltac:(lia); lra.
have B : / 32 <= ln 2 / ln (IZR ez).
  apply/div_bound' => //; have := @ln_leZ ez (2 ^ 32) ltac:(lia) ltac:(lia); rewrite ln_IZR_pow //; lra.
by lra.
Qed.

(** The logarithm of the width is not close to an integer, unless it is 1. *)
Lemma T_range : exists2 B : Z, (1 <= B <= 10)%Z &
  [/\ T = 1, B = 1%Z & tz = ez] \/ IZR B - 1 + / 2 ^ 16 <= T <= IZR B - / 2 ^ 16.
Proof.
have [t1 t2] := tz_range; have [l1 l2] := lne_range.
case: (Z.eq_dec tz ez) => [E|NE].
  exists 1%Z => //; left; split=> //; rewrite /py_log [in LHS]E /fdiv /Rdiv Rinv_r; first exact: (rnd_fmt (@fmt_int 1 ltac:(lia))).
  rewrite f64_of_int_small; last by lia.
  have [A _ _] := acc; have /Rabs_le_inv := A ez ltac:(lia); lra.
set v := ln (IZR tz) / ln (IZR ez).
have /Rabs_le_inv H : Rabs (T - v) <= / 2 ^ 30 by apply: py_log_range; lia.
have lt0 := ln_gt0 t1.
have v0 : 0 < v by apply: Rmult_lt_0_compat => //; apply: Rinv_0_lt_compat.
have v9 : v <= 9.
  apply/div_bound => //; have := @ln_leZ tz (3 ^ 9) ltac:(lia) ltac:(lia).
  rewrite ln_IZR_pow // => h; have := @ln_leZ 3 ez ltac:(lia) ltac:(lia); lra.
have Ev : ln (IZR tz) = v * ln (IZR ez) by rewrite /v; field; lra.
have B1 : (1 <= Zceil v)%Z by suff : (0 < Zceil v)%Z by [lia]; apply: lt_IZR; have := Zceil_ub v; lra.
have B9 : (Zceil v <= 9)%Z by apply: Zceil_glb.
have U := Zceil_ub v; have D := Zceil_lb v.
exists (Zceil v); first by lia.
right; move: B1 B9 U D; move: (Zceil v) => B B1 B9 U D.
have e1 : (0 < ez ^ B)%Z by apply: Z.pow_pos_nonneg; lia.
have e2 : (0 < ez ^ (B - 1))%Z by apply: Z.pow_pos_nonneg; lia.
have lB : ln (IZR (ez ^ B)) = IZR B * ln (IZR ez) by rewrite ln_IZR_pow //; lia.
have lB1 : ln (IZR (ez ^ (B - 1))) = (IZR B - 1) * ln (IZR ez) by rewrite ln_IZR_pow ?minus_IZR //; lia.
have neq : tz <> (ez ^ B)%Z.
  by case: (Z.eq_dec B 1) => [->|b1]; [rewrite Z.pow_1_r | apply: t_e; lia].
have lt1 : (tz < ez ^ B)%Z.
  apply/Z.nle_gt => h; have := ln_leZ e1 h; rewrite lB Ev => h'.
  have h1 : IZR B <= v by apply: (Rmult_le_reg_r (ln (IZR ez))).
  have Eq : v = IZR B by lra.
  have : (ez ^ B < tz)%Z by lia.
  move=> h2; have := @ln_gap (ez ^ B) tz ltac:(lia); rewrite lB Ev Eq.
  have : 0 < / IZR tz by apply: Rinv_0_lt_compat; apply: IZR_lt; lia.
  by lra.
have lt2 : (ez ^ (B - 1) < tz)%Z.
  apply/Z.nle_gt => h; have := @ln_leZ tz _ ltac:(lia) h; rewrite lB1 Ev => h'.
  have : v <= IZR B - 1 by apply: (Rmult_le_reg_r (ln (IZR ez))).
  by lra.
have g1 := @ln_gap (ez ^ (B - 1)) tz ltac:(lia).
have g2 := @ln_gap tz (tz + 1) ltac:(lia).
have g3 := @ln_leZ (tz + 1) (ez ^ B) ltac:(lia) ltac:(lia).
have T1 : / 501 <= / IZR tz by apply: Rinv_le_contravar; have := IZR_le _ _ t1; have := IZR_le _ _ t2; lra.
have T2 : / 501 <= / IZR (tz + 1).
  by rewrite plus_IZR; apply: Rinv_le_contravar; have := IZR_le _ _ t1; have := IZR_le _ _ t2; lra.
rewrite lB1 Ev in g1; rewrite lB in g3; rewrite Ev in g2.
have K : / 2 ^ 15 * ln (IZR ez) <= / 501.
  apply: (Rle_trans _ (/ 2 ^ 15 * 32)); last by lra.
  by apply: Rmult_le_compat_l; lra.
have H1 : (IZR B - 1 + / 2 ^ 15) * ln (IZR ez) <= v * ln (IZR ez) by lra.
have H2 : (v + / 2 ^ 15) * ln (IZR ez) <= IZR B * ln (IZR ez) by lra.
have := Rmult_le_reg_r _ _ _ l1 H1; have := Rmult_le_reg_r _ _ _ l1 H2; lra.
Qed.

(** * The logarithm of the modulus *)
Lemma log2p : IZR Mz + 1 <= ln (IZR p) / ln 2 <= 1023.
Proof.
have l2 := ln2_pos; have m0 : (0 <= Mz + 1)%Z by lia.
have P0 : (0 < 2 ^ (Mz + 1))%Z by apply: Z.pow_pos_nonneg; lia.
split.
  apply/div_bound' => //; have := ln_leZ P0 (proj1 pM); rewrite ln_IZR_pow //; try lia.
  by rewrite plus_IZR.
apply/div_bound => //; have := @ln_leZ p (2 ^ 1023) ltac:(lia) ltac:(lia); rewrite ln_IZR_pow //.
Qed.

Lemma rust_log : IZR Mz + / 2 <= log2 lm p.
Proof.
have [h1 h2] := log2p; have P0 : (0 < 2 ^ (Mz + 1))%Z by apply: Z.pow_pos_nonneg; lia.
have [A _] := @log2_accuracy lm p acc ltac:(lia).
have B : ln (5 / 4) / ln 2 <= / 3.
  apply/div_bound; first exact: ln2_pos.
  have E : 3 * ln (5 / 4) = ln ((5 / 4) ^ 3) by rewrite ln_pow; [rewrite INR_IZR_INZ | lra].
  have := ln_increasing ((5 / 4) ^ 3) 2 ltac:(lra) ltac:(lra); lra.
by lra.
Qed.

Lemma py_log_p : IZR Mz + / 2 <= py_log lm p 2.
Proof.
have [h1 h2] := log2p; have l2 := ln2_pos.
have P0 : (0 < 2 ^ (Mz + 1))%Z by apply: Z.pow_pos_nonneg; lia.
have P2 : (2 <= p)%Z by have : (2 ^ 1 <= 2 ^ (Mz + 1))%Z by [apply: Z.pow_le_mono_r; lia]; lia.
have A2 := @accl 2%Z ltac:(lia); rewrite f64_of_int_small in A2; last by lia.
have lp := ln_gt0 P2.
have [Q1 Q2] := quot_err (Rlt_le _ _ lp) l2 (@accl p ltac:(lia)) A2.
rewrite /py_log (@f64_of_int_small 2); last by lia.
have E : IZR Mz + / 2 = IZR (2 * Mz + 1) * bpow radix2 (-1) by rewrite plus_IZR mult_IZR /=; lra.
rewrite E; apply: rnd_lb; first by apply: fmt_dyadic; lia.
rewrite -E; apply: Rle_trans _ Q1; have := MR; nra.
Qed.

Lemma floor_ge x : IZR Mz + / 2 <= x -> IZR Mz <= IZR (Zfloor x).
Proof. by move=> H; apply: IZR_le; apply: Zfloor_lub; lra. Qed.

(** * The statistical bound *)
Lemma C_log : ln (IZR (ez - 1)) / ln 2 <= IZR Mz / 2.
Proof.
apply/div_bound; first exact: ln2_pos.
have := @ln_leZ ((ez - 1) ^ 2) (2 ^ Mz) ltac:(nia) eM; rewrite !ln_IZR_pow; lia || lra.
Qed.

Lemma stat_ge (f C : R) : IZR Mz <= f -> C <= IZR (5 * Mz) * bpow radix2 (-3) ->
  IZR Mz <= fmul (fsub f C) (IZR (tz + 1)).
Proof.
move=> Hf HC; have [m1 m2] := MR; have [t1 t2] := tR.
apply: rnd_lb; first by apply: fmt_int; lia.
have A : IZR (3 * Mz) * bpow radix2 (-3) <= fsub f C.
  apply: rnd_lb; first by apply: fmt_dyadic; lia.
  by move: HC; rewrite !mult_IZR /=; lra.
move: A; rewrite plus_IZR mult_IZR /= => A; nra.
Qed.

Let i := input_generate (log2 lm) M t p limbs allow.

Lemma rust_stat : statistical_attack_full_rounds lm i (Exponent e) = 6%N.
Proof.
rewrite /statistical_attack_full_rounds /f64_M /f64_t /= /i /=.
rewrite (@f64_of_int_small (Z.of_N M)); last by lia.
rewrite (@f64_of_int_small tz); last by have := tz_range; lia.
have -> : fadd (IZR tz) 1 = IZR (tz + 1).
  by rewrite /fadd -plus_IZR; apply: rnd_fmt; apply: fmt_int; have := tz_range; lia.
rewrite Rle_bool_true //; apply: stat_ge; first exact: (floor_ge rust_log).
have -> : fsub (f64_exp e) 1 = IZR (ez - 1).
  rewrite /fsub /f64_exp f64_of_int_small; last by lia.
  by rewrite -minus_IZR; apply: rnd_fmt; apply: fmt_int; lia.
have [_ A _] := acc; have /Rabs_le_inv := A (ez - 1)%Z ltac:(lia).
have := C_log; have [m1 m2] := MR; rewrite mult_IZR /=; nra.
Qed.

Lemma py_stat : R_F_1 lm p tz Mz (py_log lm (ez - 1) 2) = 6%Z.
Proof.
rewrite /R_F_1 Rle_bool_true // (@f64_of_int_small (tz + 1)); last by have := tz_range; lia.
apply: stat_ge.
  apply: (rnd_lb (fmt_int _)); first by lia.
  exact: (floor_ge py_log_p).
have /Rabs_le_inv := @py_log_range (ez - 1) 2 ltac:(lia) ltac:(lia).
have := C_log; have [m1 m2] := MR; rewrite mult_IZR /=; nra.
Qed.

(** * The bounds on the total number of rounds *)
Local Notation x := (fmul L (IZR Mz)).
Local Notation A := (Zceil x).
Local Notation B := (Zceil T).
Local Notation m := (fdiv x (IZR (tz + 1))).
Local Notation g1 := (fmul L (fdiv (IZR Mz) 3)).
Local Notation g2 := (fadd (IZR (tz - 1)) m).

Lemma x_range : 0 <= x <= 256 /\ Rabs (x - L * IZR Mz) <= / 2 ^ 40.
Proof.
have [l1 l2] := L_range; have [m1 m2] := MR.
split; last by apply: rnd12; apply: Rabs_le; nra.
split; first by apply: (@rnd_lb _ 0); [exact: (@fmt_int 0) | nra].
by apply: rnd_ub; [exact: fmt_int | nra].
Qed.

Lemma A_range : (0 <= A <= 256)%Z.
Proof.
have [[x0 x1] _] := x_range; split; last exact: Zceil_glb.
by apply: le_IZR; have := Zceil_ub x; lra.
Qed.

Lemma B_range : (1 <= B <= 10)%Z.
Proof.
have [b Hb [[-> _ _]|H]] := T_range; first by rewrite Zceil_IZR.
by rewrite (@Zceil_eq T b) //; lra.
Qed.

(** Rounding the sum does not change the sum of the ceilings. *)
Lemma ceil_AB : Zceil (fadd (IZR A) T) = (A + B)%Z.
Proof.
have [a1 a2] := A_range; have R1 := IZR_le _ _ a1; have R2 := IZR_le _ _ a2.
have [b Hb [[-> _ _]|H]] := T_range.
  rewrite Zceil_IZR /fadd -plus_IZR rnd_fmt ?Zceil_IZR //; apply: fmt_int; lia.
have b1 := IZR_le _ _ (proj1 Hb); have b2 := IZR_le _ _ (proj2 Hb).
rewrite (@Zceil_eq T b); last by lra.
have /Rabs_le_inv E : Rabs (fadd (IZR A) T - (IZR A + T)) <= / 2 ^ 40 by apply: rnd12; apply: Rabs_le; lra.
by apply: Zceil_eq; rewrite plus_IZR; lra.
Qed.

Lemma g1_range : 0 <= g1 <= IZR A.
Proof.
have [l1 l2] := L_range; have [m1 m2] := MR.
have D : 0 <= fdiv (IZR Mz) 3 <= IZR Mz.
  split; first by apply: (@rnd_lb _ 0); [exact: (@fmt_int 0) | lra].
  by apply: rnd_ub; [apply: fmt_int; lia | lra].
split; first by apply: (@rnd_lb _ 0); [exact: (@fmt_int 0) | nra].
by apply: Rle_trans (Zceil_ub x); apply: rnd_le; nra.
Qed.

Lemma m_range : / 2 ^ 15 <= m <= 256 /\ Rabs (m - x / IZR (tz + 1)) <= / 2 ^ 40.
Proof.
have [l1 l2] := L_range; have [m1 m2] := MR; have [t1 t2] := tR.
have [[x0 x1] /Rabs_le_inv X] := x_range.
have T0 : 0 < IZR (tz + 1) by rewrite plus_IZR; lra.
have D : / 2 ^ 15 + / 2 ^ 40 <= x / IZR (tz + 1) <= 256.
  split; [apply/div_bound' => //; rewrite plus_IZR | apply/div_bound => //; rewrite plus_IZR; lra].
  apply: (Rle_trans _ ((/ 2 ^ 15 + / 2 ^ 40) * 501)); first by apply: Rmult_le_compat_l; lra.
  by have : / 32 <= L * IZR Mz by [nra]; lra.
have E : Rabs (m - x / IZR (tz + 1)) <= / 2 ^ 40 by apply: rnd12; apply: Rabs_le; lra.
split=> //; split; last by apply: rnd_ub; [exact: fmt_int | lra].
by move/Rabs_le_inv: E; lra.
Qed.

Lemma g2_range : 0 <= g2 <= 800 /\ Rabs (g2 - (IZR tz - 1 + m)) <= / 2 ^ 40.
Proof.
have [t1 t2] := tR; have [[m1 m2] _] := m_range; rewrite minus_IZR.
have E : Rabs (fadd (IZR tz - 1) m - (IZR tz - 1 + m)) <= / 2 ^ 40 by apply: rnd12; apply: Rabs_le; lra.
by split=> //; move/Rabs_le_inv: E; lra.
Qed.

(** Either the second Groebner bound is implied by the interpolation bound, or it
    is just below the width. *)
Lemma g2_cases : g2 <= IZR (A + B) /\ (tz <= A + B + 1)%Z \/
  (A + B + 1 <= tz)%Z /\ IZR tz - 1 + / 2 ^ 16 <= g2 <= IZR tz - / 2 ^ 10.
Proof.
have [t1 t2] := tR; have [[m1 m2] /Rabs_le_inv Em] := m_range; have [[g0 g7] /Rabs_le_inv Eg] := g2_range.
case: (Rle_or_lt g2 (IZR (A + B))) => H.
  left; split=> //; suff : (tz - 1 < A + B + 1)%Z by lia.
  by apply: lt_IZR; rewrite minus_IZR plus_IZR; lra.
right; have [b1 b2] := B_range; have [[x0 x1] _] := x_range.
have X : x + 1 < g2.
  by move: H; rewrite plus_IZR; have := Zceil_ub x; have := IZR_le _ _ b1; lra.
have T0 : 0 < IZR (tz + 1) by rewrite plus_IZR; lra.
set r := x / IZR (tz + 1) in Em.
have Er : r * (IZR tz + 1) = x by rewrite -plus_IZR; apply: div_mul.
have R1 : r * IZR tz <= IZR tz - 2 + / 2 ^ 30 by lra.
have R2 : r <= 1 - / 2 ^ 9 - / 2 ^ 20.
  apply: (Rmult_le_reg_r (IZR tz)); first by lra.
  by apply: (Rle_trans _ _ _ R1); lra.
have G : IZR tz - 1 + / 2 ^ 16 <= g2 <= IZR tz - / 2 ^ 10 by lra.
split=> //; suff : (A + B < tz)%Z by lia.
by apply: lt_IZR; lra.
Qed.

(** The number of rounds required *)
Definition total_required : nat := Z.to_nat (Z.max (A + B + 1) tz).

Lemma total_range : (total_required <= 500)%N.
Proof. by have := A_range; have := B_range; have := tz_range; rewrite /total_required => *; apply/leP; lia. Qed.

(** ** The generator *)
Lemma f64_M_i : f64_M i = IZR Mz. Proof. by apply: f64_of_int_small; rewrite /i /=; lia. Qed.
Lemma f64_t_i : f64_t i = IZR tz. Proof. by apply: f64_of_int_small; rewrite /i /=; have := tz_range; lia. Qed.
Lemma flog_2 : flog lm 2 (f64_exp e) = L.
Proof. by rewrite /flog /py_log /f64_exp (@f64_of_int_small 2). Qed.
Lemma flog_t : flog lm (IZR tz) (f64_exp e) = T.
Proof. by rewrite /flog /py_log /f64_exp (@f64_of_int_small tz) //; have := tz_range; lia. Qed.
Lemma fadd_t : fadd (IZR tz) 1 = IZR (tz + 1).
Proof. by rewrite /fadd -plus_IZR; apply: rnd_fmt; apply: fmt_int; have := tz_range; lia. Qed.

Lemma rust_interp : algebraic_attack_interpolation lm i (Exponent e) = (A + B)%Z.
Proof.
rewrite /algebraic_attack_interpolation f64_M_i f64_t_i flog_2 flog_t [in_log_2_p i]/(log2 lm p).
have -> : fmin (IZR Mz) (log2 lm p) = IZR Mz by rewrite fminE Rmin_left //; have := rust_log; lra.
rewrite /fceil ceil_AB as_usize_IZR //; have := A_range; have := B_range; lia.
Qed.

(** The minima are the arguments with [M]. *)
Lemma min_1 l : IZR Mz + / 2 <= l -> fmin (fdiv (IZR Mz) 3) (fdiv l 2) = fdiv (IZR Mz) 3.
Proof. by move=> H; rewrite fminE Rmin_left //; apply: rnd_le; have := MR; lra. Qed.

Lemma min_2 l : IZR Mz + / 2 <= l -> fmin m (fdiv (fmul L l) 2) = m.
Proof.
move=> H; have [l1 l2] := L_range; have [t1 t2] := tR; have [[x0 x1] _] := x_range.
rewrite fminE Rmin_left //; apply: rnd_le.
have xl : x <= fmul L l by apply: rnd_le; apply: Rmult_le_compat_l; lra.
have T0 : 0 < IZR (tz + 1) by rewrite plus_IZR; lra.
apply/div_bound => //; rewrite plus_IZR; nra.
Qed.

Lemma rust_grobner : algebraic_attack_grobner_basis_v1 lm i (Exponent e) = Ret (Zfloor (Rmax g1 g2)).
Proof.
have t2 := tz_range; have t1 : (1 <= in_t i)%N by apply/leP; rewrite /i /=; lia.
rewrite /algebraic_attack_grobner_basis_v1 /usub t1 bind_ret f64_M_i f64_t_i flog_2 fadd_t.
rewrite [in_log_2_p i]/(log2 lm p) (min_1 rust_log) (min_2 rust_log) fmaxE.
have -> : Z.of_nat (in_t i - 1) = (tz - 1)%Z by rewrite -[in_t i]/t -minusE; lia.
rewrite f64_of_int_small; last by lia.
congr Ret; have [g0 g1'] := g1_range; have [[h0 h1] _] := g2_range.
rewrite /ffloor as_usize_IZR //; split.
  by apply: Zfloor_lub; have := Rmax_l g1 g2; lra.
apply: (@Z.le_lt_trans _ 1000) => //; apply: le_IZR; apply: (Rle_trans _ _ _ (Zfloor_lb _)).
have [a1 /IZR_le a2] := A_range.
by apply: Rmax_lub; lra.
Qed.

Lemma rust_total : (Z.to_nat (Z.max (A + B) (Zfloor (Rmax g1 g2)))).+1 = total_required.
Proof.
have [a1 a2] := A_range; have [b1 b2] := B_range; have [g0 g1'] := g1_range.
rewrite /total_required; case: g2_cases => -[H1 H2].
  have : (Zfloor (Rmax g1 g2) <= A + B)%Z.
    apply: le_IZR; apply: (Rle_trans _ _ _ (Zfloor_lb _)); apply: Rmax_lub => //.
    by apply: (Rle_trans _ _ _ g1'); apply: IZR_le; lia.
  by lia.
have -> : Zfloor (Rmax g1 g2) = (tz - 1)%Z.
  have H1' : IZR A + IZR B + 1 <= IZR tz by rewrite -!plus_IZR; apply: IZR_le.
  have b1' := IZR_le _ _ b1.
  rewrite Rmax_right; last by lra.
  by move: H2; move: g2 => g H2; apply: Zfloor_imp; rewrite plus_IZR minus_IZR; lra.
by lia.
Qed.

Theorem rust_rounds : v1_rounds lm i (Exponent e) =
  if (total_required <= 498)%N then Ret (margin (select 6 total_required)) else Panic.
Proof.
have t2 := tz_range.
rewrite (@v1_rounds_closed lm i e _ _ (Zfloor (Rmax g1 g2)) M256 rust_grobner); last first.
- by rewrite /small /i /=; lia.
- by rewrite /i /=; apply/leP; lia.
by rewrite rust_interp rust_total rust_stat.
Qed.

(** ** The script *)
Lemma py_secure F P : (1 <= P <= 500)%N ->
  sat_inequiv_alpha lm p tz (Z.of_nat F) (Z.of_nat P) ez Mz =
  Ret ((6 <= F) && (total_required <= F + P))%N.
Proof.
move=> /andP[/leP P1 /leP P5]; rewrite /sat_inequiv_alpha.
have -> : Z.ltb 0 ez by apply/Z.ltb_spec0; lia.
have t2 := tz_range; have [a1 a2] := A_range; have [b1 b2] := B_range.
have HP : (0 <= Z.of_nat P <= 1000)%Z by lia.
rewrite py_stat /R_F_2 /R_F_3 /R_F_4.
have -> : py_min Mz (py_log lm p 2) = IZR Mz.
  by rewrite /py_min Rle_bool_true; [apply: f64_of_int_small; lia | have := py_log_p; lra].
rewrite (@f64_of_int_small Mz); last by lia.
rewrite (@f64_of_int_small (tz - 1)); last by lia.
rewrite (@f64_of_int_small (tz + 1)); last by lia.
rewrite (min_1 py_log_p) (min_2 py_log_p).
have [g0 g1'] := g1_range; have [[h0 h1] _] := g2_range.
have /Rabs_le_inv E1 : Rabs (fadd 1 g1 - (1 + g1)) <= / 2 ^ 40.
  by apply: rnd12; apply: Rabs_le; have := IZR_le _ _ a2; lra.
have C1 : (Zceil (fsub (fadd 1 g1) (f64_of_int (Z.of_nat P))) <= (A + B + 1) - Z.of_nat P)%Z.
  have := IZR_le _ _ a2; have := IZR_le _ _ b1 => ? ?.
  by apply: ceil_sub_le => //; rewrite ?plus_IZR; lra.
have C2 : (Z.max (A + B + 1 - Z.of_nat P) (Zceil (fsub g2 (f64_of_int (Z.of_nat P)))) = Z.of_nat total_required - Z.of_nat P)%Z.
  rewrite /total_required Z2Nat.id; last by lia.
  case: g2_cases => -[H1 H2].
    have : (Zceil (fsub g2 (f64_of_int (Z.of_nat P))) <= (A + B + 1) - Z.of_nat P)%Z.
      by move: H1 h0 h1; move: g2 => g *; apply: ceil_sub_le => //; [lra | rewrite plus_IZR; lra].
    by lia.
  rewrite (@ceil_sub g2 tz) //; [by lia | by lra | by lra].
congr Ret; apply/Z.leb_spec0/andP.
  by move=> H; split; apply/leP; rewrite -?plusE; lia.
by case=> /leP H1 /leP; rewrite -plusE => H2; lia.
Qed.

(** * The numbers of rounds *)
Local Notation best := (RoundNumbers (Nat.max 1 (total_required - 6)) 6).

Lemma py_search sm : find_FD_round_numbers lm p tz ez Mz get_sbox_cost sm =
  Ret (r_F (finish sm best), r_P (finish sm best)).
Proof.
have /andP[t2 _] := t500; have r := total_range.
have t1 : (1 <= t)%N by apply: leq_trans t2.
have e0 : (0 < ez)%Z \/ ez = (-1)%Z by left; lia.
apply: (proj2 (@script_search lm p t ez Mz sm (r_F (finish sm best)) (r_P (finish sm best)) t1 e0)).
left; exists best.
have r' : (total_required <= 6 + 499)%N by apply: leq_trans r _.
have := @script_select t 6 total_required sm t2 isT isT r'.
set f := finish sm best; have -> : RoundNumbers (r_P f) (r_F f) = f by case: (f).
apply: script_best_ext => c [P1 P2 _ _ _].
rewrite /script_secure py_secure ?P1 ?(ltnW P2) // /enough /rounds_total addnC.
by split=> [[-> ->]|[/andP]].
Qed.

Theorem py_rounds sm (n := Zceil (py_log lm p 2)) : let r := finish sm best in
  calc_final_numbers_fixed lm p tz ez Mz sm =
  Ret (r_F r, r_P r, Z.of_nat (sboxes t r), get_size_cost (Z.of_nat (r_F r)) (Z.of_nat (r_P r)) (n * tz) tz).
Proof.
move=> r; rewrite /calc_final_numbers_fixed py_search bind_ret -/n -/r; congr Ret; congr (_, _, _, _).
by rewrite /get_sbox_cost /sboxes -plusE -multE; lia.
Qed.

(** * The required number of rounds in integer arithmetic *)
Lemma A_eq (a : Z) : (0 <= a)%Z -> (ez ^ a * 2 ^ 12 <= 2 ^ Mz * (2 ^ 12 - 1))%Z ->
  (2 ^ Mz * 2 ^ 12 <= ez ^ (a + 1) * (2 ^ 12 - 1))%Z -> A = (a + 1)%Z.
Proof.
move=> a0 H1 H2; have [l1 l2] := lne_range; have lg := ln2_pos; have [m1 m2] := MR.
have pe b : (0 <= b)%Z -> (0 < ez ^ b)%Z by move=> ?; apply: Z.pow_pos_nonneg; lia.
have p2 : (0 < 2 ^ Mz)%Z by apply: Z.pow_pos_nonneg; lia.
have mulP u v : (0 < u)%Z -> (0 < v)%Z -> ln (IZR (u * v)) = ln (IZR u) + ln (IZR v).
  by move=> u0 v0; rewrite mult_IZR ln_mult //; apply: IZR_lt.
have G : ln (IZR (2 ^ 12 - 1)) + / IZR (2 ^ 12) <= ln (IZR (2 ^ 12)) by apply: ln_gap.
have I12 : / IZR (2 ^ 12) = / 2 ^ 12 by congr (/ _); rewrite /=; lra.
have q1 : (0 < ez ^ a * 2 ^ 12)%Z by have := pe a a0; lia.
have q2 : (0 < 2 ^ Mz * 2 ^ 12)%Z by lia.
have E1 := ln_leZ q1 H1; have E2 := ln_leZ q2 H2.
have a1 : (0 <= a + 1)%Z by lia.
have d0 : (0 < 2 ^ 12)%Z by []; have d1 : (0 < 2 ^ 12 - 1)%Z by [].
rewrite (mulP _ _ (pe _ a0) d0) (mulP _ _ p2 d1) in E1.
rewrite (mulP _ _ p2 d0) (mulP _ _ (pe _ a1) d1) in E2.
move: E1 E2 G; rewrite I12; move: (ln (IZR (2 ^ 12))) (ln (IZR (2 ^ 12 - 1))) => u w.
rewrite !ln_IZR_pow ?plus_IZR; try lia; move=> E1 E2 G.
have [_ /Rabs_le_inv X] := x_range.
have /Rabs_le_inv EL := @py_log_range 2 ez ltac:(lia) ltac:(lia).
set v := ln 2 / ln (IZR ez) in EL.
have Ev : v * ln (IZR ez) = ln 2 by apply: div_mul.
have K : / 2 ^ 17 * ln (IZR ez) <= / 2 ^ 12 by apply: (Rle_trans _ (/ 2 ^ 17 * 32)); [apply: Rmult_le_compat_l; lra | lra].
have V1 : (IZR a + / 2 ^ 17) * ln (IZR ez) <= (v * IZR Mz) * ln (IZR ez).
  by rewrite (_ : v * _ * _ = IZR Mz * ln 2); [lra | rewrite -Ev; ring].
have V2 : (v * IZR Mz + / 2 ^ 17) * ln (IZR ez) <= (IZR a + 1) * ln (IZR ez).
  by rewrite Rmult_plus_distr_r (_ : v * _ * _ = IZR Mz * ln 2); [lra | rewrite -Ev; ring].
have W1 := Rmult_le_reg_r _ _ _ l1 V1; have W2 := Rmult_le_reg_r _ _ _ l1 V2.
have LM : Rabs (L * IZR Mz - v * IZR Mz) <= / 2 ^ 22.
  by rewrite -Rmult_minus_distr_r; apply: Rabs_le; nra.
move/Rabs_le_inv: LM => LM; move: X LM; move: x => y X LM.
by apply: Zceil_eq; rewrite plus_IZR; lra.
Qed.

Lemma B_eq (b : Z) : (1 <= b)%Z -> (ez ^ (b - 1) < tz <= ez ^ b)%Z -> B = b.
Proof.
move=> b1 [H1 H2]; have [l1 l2] := lne_range; have [t1 t2] := tz_range.
have /Rabs_le_inv ET := @py_log_range tz ez ltac:(lia) ltac:(lia).
set v := ln (IZR tz) / ln (IZR ez) in ET.
have Ev : v * ln (IZR ez) = ln (IZR tz) by apply: div_mul.
have pe : (0 < ez ^ (b - 1))%Z by apply: Z.pow_pos_nonneg; lia.
have G1 := @ln_gap (ez ^ (b - 1)) tz ltac:(lia).
have G2 := @ln_leZ tz (ez ^ b) ltac:(lia) H2.
rewrite ln_IZR_pow ?minus_IZR in G1; try lia.
rewrite ln_IZR_pow in G2; try lia.
have i0 : 0 < / IZR tz by apply: Rinv_0_lt_compat; apply: IZR_lt; lia.
have V1 : (IZR b - 1) * ln (IZR ez) < v * ln (IZR ez) by lra.
have V2 : v * ln (IZR ez) <= IZR b * ln (IZR ez) by lra.
have W1 := Rmult_lt_reg_r _ _ _ l1 V1; have W2 := Rmult_le_reg_r _ _ _ l1 V2.
have [c Hc [[-> _ E]|H]] := T_range.
  rewrite Zceil_IZR; case: (Z.lt_ge_cases 1 b) => h; last by lia.
  have : (ez ^ 1 <= ez ^ (b - 1))%Z by apply: Z.pow_le_mono_r; lia.
  by rewrite Z.pow_1_r; lia.
rewrite (@Zceil_eq T c); last by lra.
have C1 : (c - 1 < b)%Z by apply: lt_IZR; rewrite minus_IZR; lra.
have C2 : (b - 1 < c)%Z by apply: lt_IZR; rewrite minus_IZR; lra.
by lia.
Qed.
End Agree.
