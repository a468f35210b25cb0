(** The tables of the reference script: moduli of a given number of bits. *)
From Coq Require Import ZArith NArith Reals Lia Lra.
From Flocq Require Import Core.
From mathcomp Require Import all_ssreflect.
From Verif Require Import Base Params Transcript V1 Rounds RoundsSpec F64Proofs RoundsSearch RoundsClosed.
From Verif Require Import RoundsEval RoundsProps CalcRounds CalcSpec CalcSearch CalcProofs CalcProps Slia.
Set Implicit Arguments.
Unset Strict Implicit.
Unset Printing Implicit Defensive.

Section Row.
Local Open Scope R_scope.
Variables (lm : libm) (M : Z) (t : nat) (p n e : Z).
Hypothesis acc : accurate lm.
Hypothesis accl : accurate_ln lm.
Hypothesis t16 : (2 <= t <= 16)%N.
Hypothesis e5 : (3 <= e <= 5)%Z.
Hypothesis M256 : (128 <= M <= 256)%Z.
Hypothesis n96 : (96 <= n <= 1023)%Z.
Hypothesis stat : (M <= (n - 5) * (Z.of_nat t + 1))%Z.
Hypothesis pn : (2 ^ (n - 1) <= p < 2 ^ n)%Z.
Hypothesis t_e : forall k : Z, (2 <= k)%Z -> Z.of_nat t <> (e ^ k)%Z.
Local Notation tz := (Z.of_nat t).
Local Notation L := (py_log lm 2 e).
Local Notation l := (py_log lm p 2).
Local Notation x := (fmul L (py_min M l)).
Local Notation X := (Zceil x).
Local Notation B := (Zceil (py_log lm tz e)).

Lemma tzr : (2 <= tz <= 16)%Z. Proof. by case/andP: t16 => /leP ? /leP ?; lia. Qed.
Lemma tzR : 2 <= IZR tz <= 16. Proof. by have [h1 h2] := tzr; split; apply: IZR_le. Qed.
Lemma MzR : 128 <= IZR M <= 256. Proof. by split; apply: IZR_le; lia. Qed.
Lemma nR : 96 <= IZR n <= 1023. Proof. by split; apply: IZR_le; lia. Qed.

Lemma p_rng : (2 <= p < 2 ^ 1023)%Z.
Proof.
clear -n96 pn.
have h : (2 ^ 1 <= 2 ^ (n - 1))%Z by apply: Z.pow_le_mono_r; lia.
have h' : (2 ^ n <= 2 ^ 1023)%Z by apply: Z.pow_le_mono_r; lia.
by lia.
Qed.

Lemma lnp : IZR n - 1 <= ln (IZR p) / ln 2 <= IZR n.
Proof.
clear -n96 pn.
have l2 := ln2_pos; have [h1 h2] := pn; have [p2 _] := p_rng.
have q : (0 < 2 ^ (n - 1))%Z by apply: Z.pow_pos_nonneg; lia.
have A := ln_leZ q h1; have C := @ln_leZ p (2 ^ n) ltac:(lia) ltac:(lia).
rewrite ln_IZR_pow ?minus_IZR in A; try lia.
rewrite ln_IZR_pow in C; try lia.
by split; [apply/div_bound' | apply/div_bound].
Qed.

Lemma l_rng : IZR n - 1 - / 2 ^ 27 <= l <= IZR n + / 2 ^ 27.
Proof. by clear -accl n96 pn; have /Rabs_le_inv := bits_bounds accl p_rng; have := lnp; lra. Qed.

Lemma L_rng : 42 / 100 <= L <= 64 / 100 /\ Rabs (L - ln 2 / ln (IZR e)) <= / 2 ^ 30.
Proof.
have l2 := ln2_pos; have l3 : 0 < ln (IZR e) by apply: ln_gt0; lia.
have /Rabs_le_inv H := @py_log_range lm 0 3 acc ltac:(lia) ltac:(lia) 2 e ltac:(lia) ltac:(lia).
have := @ln_leZ (5 ^ 43) (2 ^ 100) ltac:(lia) ltac:(lia); rewrite !ln_IZR_pow // => h1.
have := @ln_leZ (2 ^ 200) (3 ^ 127) ltac:(lia) ltac:(lia); rewrite !ln_IZR_pow // => h2.
have := @ln_leZ e 5 ltac:(lia) ltac:(lia) => h3.
have := @ln_leZ 3 e ltac:(lia) ltac:(lia) => h4.
have a1 : 43 / 100 <= ln 2 / ln (IZR e) by apply/div_bound' => //; lra.
have a2 : ln 2 / ln (IZR e) <= 127 / 200 by apply/div_bound => //; lra.
by split; [lra | apply: Rabs_le].
Qed.

(** The smaller of the security level and the size of the modulus *)
Lemma py_minE : py_min M l = Rmin (IZR M) l.
Proof.
clear -M256.
rewrite /py_min; case: Rle_bool_spec => H; last by rewrite Rmin_right //; lra.
by rewrite Rmin_left // f64_of_int_small //; lia.
Qed.

Lemma min_rng : 95 - / 2 ^ 27 <= py_min M l <= 256.
Proof.
rewrite py_minE; have := l_rng; have := MzR; have := nR => H1 H2 H3.
by split; [apply: Rmin_glb; lra | apply: Rle_trans (Rmin_l _ _) _; lra].
Qed.

Lemma x_rng : 39 <= x <= 164 /\ Rabs (x - L * py_min M l) <= / 2 ^ 40.
Proof.
have [[l1 l2] _] := L_rng; have [m1 m2] := min_rng.
split; last by apply: rnd12; apply: Rabs_le; nra.
split; first by apply: (@rnd_lb _ 39); [exact: (@fmt_int 39) | nra].
by apply: rnd_ub; [exact: (@fmt_int 164) | nra].
Qed.

Lemma X_rng : (39 <= X <= 164)%Z.
Proof.
have [[x0 x1] _] := x_rng; split; last exact: Zceil_glb.
by apply: le_IZR; have := Zceil_ub x; lra.
Qed.

Lemma stat_6 : R_F_1 lm p tz M (py_log lm (e - 1) 2) = 6%Z.
Proof.
rewrite /R_F_1; have := l_rng; have [l3 l4] := tzR; have [l5 l6] := nR => -[l1 l2].
have /Rabs_le_inv H := @py_log_range lm 0 3 acc ltac:(lia) ltac:(lia) (e - 1) 2 ltac:(lia) ltac:(lia).
have F : (n - 2 <= Zfloor l)%Z by apply: Zfloor_lub; rewrite minus_IZR; lra.
have F' : (Zfloor l <= 1024)%Z by apply: le_IZR; have := Zfloor_lb l; lra.
have C : ln (IZR (e - 1)) / ln 2 <= 2.
  apply/div_bound; first exact: ln2_pos.
  by have := @ln_leZ (e - 1) (2 ^ 2) ltac:(lia) ltac:(lia); rewrite ln_IZR_pow.
rewrite (@f64_of_int_small (Zfloor l)); last by lia.
rewrite (@f64_of_int_small (tz + 1)); last by have := tzr; lia.
rewrite Rle_bool_true //.
apply: rnd_lb; first by apply: fmt_int; lia.
have D : IZR (n - 5) <= fsub (IZR (Zfloor l)) (py_log lm (e - 1) 2).
  apply: rnd_lb; first by apply: fmt_int; lia.
  by have := IZR_le _ _ F; rewrite !minus_IZR; lra.
apply: (Rle_trans _ (IZR ((n - 5) * (tz + 1)))); first exact: IZR_le.
by rewrite mult_IZR; apply: Rmult_le_compat_r => //; rewrite plus_IZR; lra.
Qed.

Lemma B_rng : (1 <= B <= 10)%Z.
Proof.
have t500 : (2 <= t <= 500)%N by case/andP: t16 => -> h; apply: leq_trans h _.
have := @B_range lm 0 t (Z.to_N e) acc t500 ltac:(lia) ltac:(lia).
by rewrite Z2N.id; last lia; apply.
Qed.

Lemma B_val (b : Z) : (1 <= b)%Z -> (e ^ (b - 1) < tz <= e ^ b)%Z -> B = b.
Proof.
have t500 : (2 <= t <= 500)%N by case/andP: t16 => -> h; apply: leq_trans h _.
have := @B_eq lm 0 t (Z.to_N e) acc t500 ltac:(lia) ltac:(lia).
by rewrite Z2N.id; last lia; apply.
Qed.

Lemma l_fmt : f64_format l.
Proof. exact: generic_format_round. Qed.

Lemma row_secure F P : (1 <= P <= 500)%N ->
  sat_inequiv_alpha lm p tz (Z.of_nat F) (Z.of_nat P) e M =
  Ret ((6 <= F) && (Z.to_nat (X + B + 1) <= F + P))%N.
Proof.
move=> /andP[/leP P1 /leP P5]; rewrite /sat_inequiv_alpha.
have -> : Z.ltb 0 e by apply/Z.ltb_spec0; lia.
have t2 := tzr; have [a1 a2] := X_rng; have [b1 b2] := B_rng.
have HP : (0 <= Z.of_nat P <= 1000)%Z by lia.
have [[L1 L2] _] := L_rng; have [l1 l2] := l_rng; have [m1 m2] := MzR; have [n1 n2] := nR; have [tR1 tR2] := tzR.
have A1 := IZR_le _ _ a1; have A2 := IZR_le _ _ a2; have Xu := Zceil_ub x; have [[x1 x2] _] := x_rng.
have b1' := IZR_le _ _ b1.
rewrite stat_6 /R_F_2 /R_F_3 /R_F_4.
rewrite (@f64_of_int_small M); last by lia.
rewrite (@f64_of_int_small (tz - 1)); last by lia.
rewrite (@f64_of_int_small (tz + 1)); last by lia.
have C1 : (Zceil (fsub (fadd 1 (fmul L (fmin (fdiv (IZR M) 3) (fdiv l 2)))) (f64_of_int (Z.of_nat P)))
    <= (X + B + 1) - Z.of_nat P)%Z.
  have D : 0 <= fmin (fdiv (IZR M) 3) (fdiv l 2) <= py_min M l.
    rewrite fminE py_minE; split.
      by apply: Rmin_glb; apply: (@rnd_lb _ 0); (exact: (@fmt_int 0) || lra).
    apply: Rmin_glb.
      by apply: Rle_trans (Rmin_l _ _) _; apply: rnd_ub; [apply: fmt_int; lia | lra].
    by apply: Rle_trans (Rmin_r _ _) _; apply: rnd_ub; [exact: l_fmt | lra].
  move: D; move: (fmin _ _) => g D.
  have E : 0 <= fmul L g <= IZR X.
    split; first by apply: (@rnd_lb _ 0); [exact: (@fmt_int 0) | nra].
    by apply: Rle_trans Xu; apply: rnd_le; apply: Rmult_le_compat_l; lra.
  have G : 0 <= fadd 1 (fmul L g) <= IZR (X + 1).
    split; first by apply: (@rnd_lb _ 0); [exact: (@fmt_int 0) | lra].
    by apply: rnd_ub; [apply: fmt_int; lia | rewrite plus_IZR; lra].
  by move: G; rewrite plus_IZR => G; apply: ceil_sub_le => //; rewrite ?plus_IZR; lra.
have C2 : (Zceil (fsub (fadd (IZR (tz - 1)) (fmin (fdiv (fmul L (IZR M)) (IZR (tz + 1))) (fdiv (fmul L l) 2)))
    (f64_of_int (Z.of_nat P))) <= (X + B + 1) - Z.of_nat P)%Z.
  have LM0 : 0 <= fmul L (IZR M) by apply: (@rnd_lb _ 0); [exact: (@fmt_int 0) | nra].
  have Ll0 : 0 <= fmul L l by apply: (@rnd_lb _ 0); [exact: (@fmt_int 0) | nra].
  have T0 : 0 < IZR (tz + 1) by rewrite plus_IZR; lra.
  have D : 0 <= fmin (fdiv (fmul L (IZR M)) (IZR (tz + 1))) (fdiv (fmul L l) 2) <= IZR (X - 19).
    rewrite fminE; split.
      apply: Rmin_glb; apply: (@rnd_lb _ 0); (try exact: (@fmt_int 0)); try lra.
      by apply/div_bound' => //; lra.
    case: (Rle_or_lt (IZR M) l) => H.
      apply: Rle_trans (Rmin_l _ _) _; apply: rnd_ub; first by apply: fmt_int; lia.
      move: Xu x1; rewrite py_minE Rmin_left // => Xu x1.
      apply/div_bound => //; rewrite plus_IZR minus_IZR; nra.
    apply: Rle_trans (Rmin_r _ _) _; apply: rnd_ub; first by apply: fmt_int; lia.
    move: Xu x1; rewrite py_minE Rmin_right; last by lra.
    by move=> Xu x1; rewrite minus_IZR; lra.
  move: D; move: (fmin _ _) => g; rewrite minus_IZR => D.
  have G : 0 <= fadd (IZR (tz - 1)) g <= IZR (X - 2).
    rewrite minus_IZR; split; first by apply: (@rnd_lb _ 0); [exact: (@fmt_int 0) | lra].
    by apply: rnd_ub; [apply: fmt_int; lia | rewrite minus_IZR; lra].
  by move: G; move: (fadd _ g) => h; rewrite minus_IZR => G; apply: ceil_sub_le => //; rewrite ?plus_IZR; lra.
congr Ret; apply/Z.leb_spec0/andP.
  by move=> H; split; apply/leP; rewrite -?plusE; lia.
by case=> /leP H1 /leP; rewrite -plusE => H2; lia.
Qed.

(** The size of the modulus that counts, in integers *)
Local Notation m := (Z.min (2 ^ M) p).

Lemma m_pos : (0 < m)%Z.
Proof. by have := p_rng; have : (0 < 2 ^ M)%Z by [apply: Z.pow_pos_nonneg; lia]; lia. Qed.

Lemma x_log : Rabs (x - ln (IZR m) / ln (IZR e)) <= / 2 ^ 20.
Proof.
have l2 := ln2_pos; have l3 : 0 < ln (IZR e) by apply: ln_gt0; lia.
have [[L1 L2] /Rabs_le_inv EL] := L_rng; have [m1 m2] := min_rng.
have [_ /Rabs_le_inv Ex] := x_rng.
have /Rabs_le_inv El := bits_bounds accl p_rng.
have Em : ln (IZR m) / ln 2 = Rmin (IZR M) (ln (IZR p) / ln 2).
  have p2 : (0 < 2 ^ M)%Z by apply: Z.pow_pos_nonneg; lia.
  have LM : ln (IZR (2 ^ M)) / ln 2 = IZR M by rewrite ln_IZR_pow; [field; lra | lia | lia].
  have [pp _] := p_rng.
  case: (Z.le_ge_cases (2 ^ M) p) => H.
    rewrite Z.min_l // LM Rmin_left //; rewrite -LM; apply/div_bound' => //.
    by rewrite div_mul //; apply: ln_leZ.
  rewrite Z.min_r // Rmin_right //; rewrite -LM; apply/div_bound => //.
  by rewrite div_mul //; apply: ln_leZ => //; lia.
have D : Rabs (py_min M l - ln (IZR m) / ln 2) <= / 2 ^ 27.
  rewrite Em py_minE; move: El; move: (ln (IZR p) / ln 2) l => u v El; apply: Rabs_le.
  by rewrite /Rmin; do 2 case: Rle_dec => ?; lra.
have Ev : ln (IZR m) / ln (IZR e) = ln 2 / ln (IZR e) * (ln (IZR m) / ln 2).
  by move: (ln (IZR m)) => y; field; lra.
rewrite Ev; move/Rabs_le_inv: D.
move: EL Ex m1 m2 L1 L2; move: (ln 2 / ln (IZR e)) (ln (IZR m) / ln 2) => a b.
move: L (py_min M l) (x) => A C Y EL Ex m1 m2 L1 L2 D.
have : Rabs (A * C - a * b) <= / 2 ^ 21.
  have -> : A * C - a * b = (A - a) * C + a * (C - b) by ring.
  by apply: Rabs_le; nra.
by move/Rabs_le_inv => K; apply: Rabs_le; lra.
Qed.

Lemma gap12 u v : (0 < u)%Z -> (0 < v)%Z -> (u * 2 ^ 12 <= v * (2 ^ 12 - 1))%Z -> ln (IZR u) + / 2 ^ 12 <= ln (IZR v).
Proof.
move=> u0 v0 H.
have mulP a b : (0 < a)%Z -> (0 < b)%Z -> ln (IZR (a * b)) = ln (IZR a) + ln (IZR b).
  by move=> ? ?; rewrite mult_IZR ln_mult //; apply: IZR_lt.
have G : ln (IZR (2 ^ 12 - 1)) + / IZR (2 ^ 12) <= ln (IZR (2 ^ 12)) by apply: ln_gap.
have I12 : / IZR (2 ^ 12) = / 2 ^ 12 by congr (/ _); rewrite /=; lra.
have d0 : (0 < 2 ^ 12)%Z by []; have d1 : (0 < 2 ^ 12 - 1)%Z by [].
have E := ln_leZ (Z.mul_pos_pos _ _ u0 d0) H.
by rewrite (mulP _ _ u0 d0) (mulP _ _ v0 d1) in E; rewrite I12 in G; lra.
Qed.

Lemma lne2 : 0 < ln (IZR e) <= 3.
Proof.
split; first by apply: ln_gt0; lia.
have := @ln_leZ e (2 ^ 3) ltac:(lia) ltac:(lia); rewrite ln_IZR_pow // => h; have := ln2_le1; lra.
Qed.

Lemma X_lb (a : Z) : (0 <= a)%Z -> (e ^ a * 2 ^ 12 <= m * (2 ^ 12 - 1))%Z -> (a + 1 <= X)%Z.
Proof.
move=> a0 H; have [l1 l2] := lne2; have pe : (0 < e ^ a)%Z by apply: Z.pow_pos_nonneg; lia.
have := gap12 pe m_pos H; rewrite ln_IZR_pow; try lia; move=> G.
have /Rabs_le_inv E := x_log.
have : IZR a + / 2 ^ 14 <= ln (IZR m) / ln (IZR e) by apply/div_bound' => //; nra.
move=> K; suff : (a < X)%Z by lia.
by apply: lt_IZR; have := Zceil_ub x; lra.
Qed.

Lemma X_ub (a : Z) : (0 <= a)%Z -> (m * 2 ^ 12 <= e ^ a * (2 ^ 12 - 1))%Z -> (X <= a)%Z.
Proof.
move=> a0 H; have [l1 l2] := lne2; have pe : (0 < e ^ a)%Z by apply: Z.pow_pos_nonneg; lia.
have := gap12 m_pos pe H; rewrite ln_IZR_pow; try lia; move=> G.
have /Rabs_le_inv E := x_log.
have K : ln (IZR m) / ln (IZR e) <= IZR a - / 2 ^ 14 by apply/div_bound => //; nra.
by apply: Zceil_glb; lra.
Qed.

Local Notation best := (RoundNumbers (Z.to_nat (X + B - 5)) 6).

Lemma row_search sm : find_FD_round_numbers lm p tz e M get_sbox_cost sm =
  Ret (r_F (finish sm best), r_P (finish sm best)).
Proof.
have /andP[t2 _] := t16; have [a1 a2] := X_rng; have [b1 b2] := B_rng.
have t1 : (1 <= t)%N by apply: leq_trans t2.
have e0 : (0 < e)%Z \/ e = (-1)%Z by left; lia.
apply: (proj2 (@script_search lm p t e M sm (r_F (finish sm best)) (r_P (finish sm best)) t1 e0)).
left; exists best.
have r' : (Z.to_nat (X + B + 1) <= 6 + 499)%N by apply/leP; rewrite -plusE; lia.
have Eb : Nat.max 1 (Z.to_nat (X + B + 1) - 6)%N = Z.to_nat (X + B - 5) by rewrite -minusE; lia.
have := @script_select t 6 (Z.to_nat (X + B + 1)) sm t2 isT isT r'; rewrite Eb.
set f := finish sm best; have -> : RoundNumbers (r_P f) (r_F f) = f by case: (f).
apply: script_best_ext => c [P1 P2 _ _ _].
rewrite /script_secure row_secure ?P1 ?(ltnW P2) // /enough /rounds_total addnC.
by split=> [[-> ->]|[/andP]].
Qed.

Theorem row_rounds sm : let r := finish sm best in
  calc_final_numbers_fixed lm p tz e M sm =
  Ret (r_F r, r_P r, Z.of_nat (sboxes t r), (Zceil l * Z.of_nat (sboxes t r))%Z).
Proof.
move=> r; rewrite /calc_final_numbers_fixed row_search bind_ret -/r; congr Ret; congr (_, _, _, _).
  by rewrite /get_sbox_cost /sboxes -plusE -multE; lia.
have [n1 n2] := bits_range accl p_rng; have t2 := tzr.
rewrite size_cost; [|lia|by apply/leP; lia|lia].
by rewrite /sboxes -plusE -multE; congr (_ * _)%Z; lia.
Qed.
End Row.

(** * The inverse S-box *)
Section Select.
(** The number of rounds saved by full rounds *)
Variables (t K g f6 : nat) (fl : nat -> nat).
Hypothesis t2 : 2 <= t.
Hypothesis gt : 43 * g + 20 < 40 * t.
Hypothesis fl6 : fl 6 = f6.
Hypothesis fl_le : forall k, fl (6 + k) <= f6 + g * k.
Hypothesis K1 : f6 < K < f6 + 500.

Lemma select_inverse sm : script_best (fun c => 6 <= r_F c /\ K <= r_P c + fl (r_F c)) t sm
  (RoundNumbers (K - f6) 6) (finish sm (RoundNumbers (K - f6) 6)).
Proof.
have Rp c : reported sm c (finish sm c) by rewrite /reported /finish; case: sm => //; exact: margin_with.
have Er c r : reported sm c r -> r = finish sm c.
  by rewrite /reported /finish; case: (sm) => //; exact: with_marginE.
have [p Hp] : exists p, p = K - f6 by exists (K - f6).
case/andP: K1 => K2 K3.
rewrite -Hp; split=> //.
- have [P1 P2] : 1 <= p /\ p < 500 by rewrite Hp; clear -K2 K3; split; slia.
  by split.
- have P1 : K <= p + f6 by rewrite Hp; clear -K2; slia.
  by split=> //; rewrite -[r_F _]/6 fl6.
move=> c' r' [A1 A2 A3 A4 A5] [A6 A7] /Er -> N.
have [k Hk] : exists k, r_F c' = 6 + k by exists (r_F c' - 6); clear -A6; slia.
have H := fl_le k; rewrite Hk in A7.
have Hp' : p <= r_P c' + g * k by rewrite Hp; move: A7 H; move: (fl _) (g * k) => a b; clear; slia.
have k2 : k <> 0 -> 2 <= k.
  by move=> k0; case: k Hk {H Hp' A7} k0 => [|[|k]] // Hk; rewrite Hk in A5.
have Hp0 : k = 0 -> p < r_P c'.
  move=> k0; rewrite k0 muln0 addn0 in Hp'; rewrite ltn_neqAle Hp' andbT; apply/eqP => E.
  by apply: N; apply: rounds_eq => //=; rewrite Hk k0.
have X2 : 40 * r_P (finish sm (RoundNumbers p 6)) <= 40 * r_P (finish sm c') + 43 * g * k + 39 /\
          (k = 0 -> r_P (finish sm (RoundNumbers p 6)) < r_P (finish sm c')).
  rewrite /finish; case: (sm); last first.
    by split=> [|k0] /=; [rewrite -mulnA; move: (g * k) Hp'; clear => ? ?; slia | exact: Hp0].
  case: (margin_with (RoundNumbers p 6)) => _ P1 P2; case: (margin_with c') => _ P3 P4.
  move: P1 P2; rewrite [r_P (RoundNumbers p 6)]/= => P1 P2.
  move: (r_P (margin _)) (r_P (margin _)) P1 P2 P3 P4 => a b P1 P2 P3 P4.
  split=> [|k0]; last by have := Hp0 k0; clear -P2 P3; slia.
  by rewrite -mulnA; move: (g * k) Hp' => y Hp'; clear -P2 P3 Hp'; slia.
have F1 : r_F (finish sm c') = r_F (finish sm (RoundNumbers p 6)) + k.
  by rewrite /finish; case: (sm) => /=; rewrite Hk // addnAC.
rewrite /sboxes F1; case: X2 => X2 X3; left.
move: (r_P (finish sm c')) (r_F (finish sm _)) (r_P (finish sm _)) X2 X3 => b f a X2 X3.
case: (k =P 0) => [k0|k0]; first by have := X3 k0; rewrite k0 addn0; move: (t * f); clear => ?; slia.
have kk := k2 k0.
have T2 : (43 * g + 21) * k <= 40 * t * k by move: gt; rewrite -addnS leq_mul2r => ->; rewrite orbT.
rewrite mulnDr; rewrite -!mulnA mulnDl -!mulnA in T2; rewrite -mulnA in X2.
by move: T2 X2; move: (t * f) (t * k) (g * k) => x y z; clear -kk; slia.
Qed.
End Select.

Section Inverse.
Local Open Scope R_scope.
Variables (lm : libm) (M : Z) (t : nat) (p n : Z).
Hypothesis acc : accurate lm.
Hypothesis accl : accurate_ln lm.
Hypothesis t16 : (2 <= t <= 16)%N.
Hypothesis M256 : (128 <= M <= 256)%Z.
Hypothesis n96 : (96 <= n <= 1023)%Z.
Hypothesis even : Z.even M /\ Z.even n.
Hypothesis stat : (M <= (n - 4) * (Z.of_nat t + 1))%Z.
Hypothesis pn : (2 ^ (n - 1) * 2 ^ 12 <= p * (2 ^ 12 - 1))%Z /\ (p * 2 ^ 12 <= 2 ^ n * (2 ^ 12 - 1))%Z.
Local Notation tz := (Z.of_nat t).
Local Notation l := (py_log lm p 2).
Local Notation lt := (py_log lm tz 2).
Variable k : Z.
Hypothesis kM : ((k - 1) * (tz + 1) < M < k * (tz + 1))%Z.
Variables (c f6 g : nat).
Hypothesis c6 : Zceil lt = Z.of_nat c.
Hypothesis fl6 : Zfloor (fmul 6 lt) = Z.of_nat f6.
Hypothesis fl_le : forall i, (i <= 100)%N -> (0 <= Zfloor (fmul (IZR (Z.of_nat (6 + i))) lt) <= Z.of_nat (f6 + g * i))%Z.
Hypothesis gt : (43 * g + 20 < 40 * t)%N.

Lemma n_bits : (2 ^ (n - 1) <= p < 2 ^ n)%Z.
Proof.
have q : (0 < 2 ^ (n - 1))%Z by apply: Z.pow_pos_nonneg; lia.
have q' : (0 < 2 ^ n)%Z by apply: Z.pow_pos_nonneg; lia.
by case: pn; move: q q'; move: (2 ^ n)%Z (2 ^ (n - 1))%Z => a b; lia.
Qed.

Lemma l_le : l <= IZR n.
Proof.
have <- : Zceil l = n; last exact: Zceil_ub.
have pr := p_rng n96 n_bits.
have := @bits_eq lm p (n - 1) accl pr ltac:(lia); rewrite Z.sub_add; apply; by case: pn.
Qed.

Lemma half (w : R) (a : Z) : Z.even a -> (0 <= a <= 2000)%Z -> IZR a - 3 / 2 <= w <= IZR a -> Zceil (fmul (1 / 2) w) = (a / 2)%Z.
Proof.
move=> Ha Hr Hw.
have Ea : (a = 2 * (a / 2))%Z by rewrite {1}(Z_div_exact_full_2 a 2) // Zmod_even Ha.
move: Ea; move: (a / 2)%Z => b Ea; rewrite {}Ea mult_IZR in Hr Hw *.
apply: Zceil_eq; split.
  apply: (Rlt_le_trans _ (IZR (4 * b - 3) * bpow radix2 (-2))).
    by rewrite minus_IZR mult_IZR /=; lra.
  apply: rnd_lb; first by apply: fmt_dyadic; lia.
  by rewrite minus_IZR mult_IZR /=; lra.
by apply: rnd_ub; [apply: fmt_int; lia | lra].
Qed.

Lemma half_min : Zceil (fmul (1 / 2) (py_min M l)) = (Z.min M n / 2)%Z.
Proof.
have [l1 l2] := l_rng accl n96 n_bits; have l3 := l_le; case: even => E1 E2.
apply: half; [by case: (Z.min_spec M n) => -[_ ->] | lia |].
rewrite (@py_minE lm M p) //.
have -> : IZR (Z.min M n) = Rmin (IZR M) (IZR n).
  case: (Z.min_spec M n) => -[H ->]; [rewrite Rmin_left // | rewrite Rmin_right //]; apply: IZR_le; lia.
by rewrite /Rmin; do 2 case: Rle_dec => ?; lra.
Qed.

Lemma half_l : Zceil (fmul (1 / 2) l) = (n / 2)%Z.
Proof.
have [l1 l2] := l_rng accl n96 n_bits; have l3 := l_le; case: even => E1 E2.
by apply: half => //; [lia | lra].
Qed.

Lemma third : Zceil (fdiv (f64_of_int M) (f64_of_int (tz + 1))) = k.
Proof.
have [t1 t2] : (2 <= tz <= 16)%Z by case/andP: t16 => /leP ? /leP ?; lia.
have k0 : (1 <= k <= 256)%Z by nia.
rewrite !f64_of_int_small; try lia.
have T0 : 0 < IZR (tz + 1) by apply: IZR_lt; lia.
have [A1 A2] : (IZR k - 1) + / 32 <= IZR M / IZR (tz + 1) <= IZR k.
  have t17 : IZR (tz + 1) <= 17 by apply: IZR_le; lia.
  split; [apply/div_bound' => // | apply/div_bound => //; rewrite -mult_IZR; apply: IZR_le; lia].
  have : IZR ((k - 1) * (tz + 1) + 1) <= IZR M by apply: IZR_le; lia.
  by rewrite plus_IZR mult_IZR minus_IZR; lra.
apply: Zceil_eq; split; last by apply: rnd_ub => //; apply: fmt_int; lia.
apply: (Rlt_le_trans _ (IZR (32 * k - 31) * bpow radix2 (-5))).
  by rewrite minus_IZR mult_IZR /=; lra.
apply: rnd_lb; first by apply: fmt_dyadic; lia.
by rewrite minus_IZR mult_IZR /=; lra.
Qed.

(** The number of rounds that full and partial rounds together make up for *)
Definition inv_required : Z := (Z.max (1 + Z.min M n / 2) (tz - 1 + Z.min k (n / 2)) + Z.of_nat c)%Z.
Local Notation K := inv_required.

Lemma inv_secure F P : (6 <= F <= 100)%N ->
  sat_inequiv_alpha lm p tz (Z.of_nat F) (Z.of_nat P) (-1) M =
  Ret (Z.leb K (Z.of_nat P + Zfloor (fmul (IZR (Z.of_nat F)) lt))).
Proof.
case/andP => /leP F6 /leP F100; rewrite /sat_inequiv_alpha /=.
have [l1 l2] := l_rng accl n96 n_bits.
have Fl : (n - 2 <= Zfloor l)%Z by apply: Zfloor_lub; rewrite minus_IZR; lra.
have -> : Z.leb M ((Zfloor l - 2) * (tz + 1)).
  by apply/Z.leb_spec0; case/andP: t16 => /leP ? /leP ?; nia.
have -> : Z.leb 6 (Z.of_nat F) by apply/Z.leb_spec0; lia.
rewrite /R_P_1 /R_P_3 half_min half_l third c6 f64_of_int_small; last by lia.
rewrite /K andTb; move: (Zfloor _) (_ / 2)%Z (_ / 2)%Z => a b d.
congr Ret; apply/Z.leb_spec0/Z.leb_spec0; lia.
Qed.

Lemma inv_low F P : (F < 6)%N -> sat_inequiv_alpha lm p tz (Z.of_nat F) (Z.of_nat P) (-1) M = Ret false.
Proof.
move=> /ltP F6; rewrite /sat_inequiv_alpha /=.
case: ifP => _; (rewrite (_ : Z.leb _ (Z.of_nat F) = false) //); apply/Z.leb_gt; lia.
Qed.

Hypothesis K500 : (Z.of_nat f6 < K < Z.of_nat f6 + 500)%Z.
Local Notation best := (RoundNumbers (Z.to_nat (K - Z.of_nat f6)) 6).

Lemma inv_search sm : find_FD_round_numbers lm p tz (-1) M get_sbox_cost sm =
  Ret (r_F (finish sm best), r_P (finish sm best)).
Proof.
have /andP[t2 _] := t16.
have t1 : (1 <= t)%N by apply: leq_trans t2.
have e0 : (0 < -1)%Z \/ (-1)%Z = (-1)%Z by right.
apply: (proj2 (@script_search lm p t (-1) M sm (r_F (finish sm best)) (r_P (finish sm best)) t1 e0)).
left; exists best.
pose fl (F : nat) := (if F <= 106 then Z.to_nat (Zfloor (fmul (IZR (Z.of_nat F)) lt)) else 0)%N.
have h1 : fl 6%N = f6 by rewrite /fl -[Z.of_nat 6]/6%Z fl6 Nat2Z.id.
have h2 i : (fl (6 + i) <= f6 + g * i)%N.
  rewrite /fl; case: ifP => // Hi.
  have i100 : (i <= 100)%N by move: Hi; rewrite -[106%N]/(6 + 100)%N leq_add2l.
  by have := fl_le i100; move: (Zfloor _) => a Ha; apply/leP; lia.
have h3 : (f6 < Z.to_nat K < f6 + 500)%N by apply/andP; split; apply/leP; rewrite -?plusE; lia.
have := @select_inverse t (Z.to_nat K) g f6 fl gt h1 h2 h3 sm.
have Eb : (Z.to_nat K - f6)%N = Z.to_nat (K - Z.of_nat f6) by rewrite -minusE; lia.
rewrite Eb.
set f := finish sm best; have -> : RoundNumbers (r_P f) (r_F f) = f by case: (f).
apply: script_best_ext => cc [P1 P2 F4 F100 _].
rewrite /script_secure; case: (leqP 6 (r_F cc)) => F6; last by rewrite inv_low //; split=> // -[].
rewrite inv_secure ?F6 ?(ltnW F100) // /fl (leq_trans (ltnW F100)) //.
have [i Hi] : exists i, (r_F cc = 6 + i)%N by exists (r_F cc - 6)%N; rewrite subnKC.
have i100 : (i <= 100)%N by move: F100; rewrite Hi => h; apply: leq_trans (ltnW h); apply: leq_addl.
have := fl_le i100; rewrite -Hi; move: (Zfloor _) => a [a0 _].
split=> [[_ /leP]|[]]; first by rewrite -plusE => H; congr Ret; apply/Z.leb_spec0; lia.
by move=> /Z.leb_spec0 H; split=> //; apply/leP; rewrite -plusE; lia.
Qed.

Theorem inv_rounds sm : let r := finish sm best in
  calc_final_numbers_fixed lm p tz (-1) M sm =
  Ret (r_F r, r_P r, Z.of_nat (sboxes t r), (n * Z.of_nat (sboxes t r))%Z).
Proof.
move=> r; rewrite /calc_final_numbers_fixed inv_search bind_ret -/r; congr Ret; congr (_, _, _, _).
  by rewrite /get_sbox_cost /sboxes -plusE -multE; lia.
have pr := p_rng n96 n_bits; have [n1 n2] := bits_range accl pr.
have [t1 t2] : (2 <= tz <= 16)%Z by case/andP: t16 => /leP ? /leP ?; lia.
rewrite size_cost; [|lia|by apply/leP; lia|lia].
have -> : Zceil l = n.
  have := @bits_eq lm p (n - 1) accl pr ltac:(lia); rewrite Z.sub_add; apply; by case: pn.
by rewrite /sboxes -plusE -multE; congr (_ * _)%Z; lia.
Qed.
End Inverse.
