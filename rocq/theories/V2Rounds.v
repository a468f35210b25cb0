(** The additional Groebner-basis check of Poseidon2 in integers, and the round numbers
    of Poseidon2 for the modulus [q]. *)
From Coq Require Import ZArith NArith Reals Lia Lra.
From Flocq Require Import Core.
From mathcomp Require Import all_ssreflect all_algebra.
From Verif Require Import Base Params Fq Transcript V1 Rounds RoundsSpec F64Proofs RoundsClosed RoundsProps V2Spec Slia.
Set Implicit Arguments.
Unset Strict Implicit.
Unset Printing Implicit Defensive.
Delimit Scope Z_scope with Z.
Delimit Scope R_scope with R.
Local Open Scope rust_scope.
Local Open Scope nat_scope.

Lemma third t : (Z.of_nat t < 2 ^ 40)%Z -> Z.to_nat (as_usize (ffloor (fdiv (f64_of_int (Z.of_nat t)) 3))) = t %/ 3.
Proof.
move=> Ht; rewrite f64_of_int_small; last by lia.
have E : Z.of_nat t = (3 * Z.of_nat (t %/ 3) + Z.of_nat (t %% 3))%Z.
  by have := divn_eq t 3; move: (t %/ 3) (t %% 3) => x y; clear; slia.
have Hm : (t %% 3 < 3) by rewrite ltn_mod.
set a := Z.of_nat (t %/ 3) in E *; set b := Z.of_nat (t %% 3) in E.
have b2 : (0 <= b <= 2)%Z by rewrite /b; slia.
have a0 : (0 <= a)%Z by rewrite /a; lia.
rewrite -[t %/ 3]Nat2Z.id -/a; congr Z.to_nat.
rewrite /ffloor (_ : Zfloor _ = a); first by apply: as_usize_IZR; lia.
apply: Zfloor_eq; rewrite E /fdiv.
have f1 : f64_format (IZR a) by apply: fmt_int; lia.
have f2 : f64_format (IZR (4 * a + 3) * bpow radix2 (-2)) by apply: fmt_dyadic; lia.
have R2 : bpow radix2 (-2) = (1 / 4)%R by rewrite /= /Z.pow_pos /=; field.
have bR : (0 <= IZR b <= 2)%R by split; apply: IZR_le; lia.
split.
- apply: rnd_lb => //; rewrite plus_IZR mult_IZR; lra.
- apply: (Rle_lt_trans _ (IZR (4 * a + 3) * bpow radix2 (-2))).
    apply: rnd_ub => //; rewrite R2 !plus_IZR !(mult_IZR _ a); lra.
  by rewrite R2 plus_IZR mult_IZR; lra.
Qed.

Lemma twice b : (0 <= b < 2 ^ 50)%Z -> as_usize (fceil (fmul 2 (f64_of_int b))) = (2 * b)%Z.
Proof.
move=> Hb; rewrite f64_of_int_small; last by lia.
rewrite /fmul -(mult_IZR 2) rnd_fmt; last by apply: fmt_int; lia.
by rewrite /fceil Zceil_IZR as_usize_IZR //; lia.
Qed.

Lemma bits_reached M n : (0 < n) ->
  (Z.of_N M <=? 2 * (Z.log2 (Z.abs (Z.of_nat n)) + 1))%Z = reached M n.
Proof.
move=> n0; rewrite /reached Z.abs_eq; last by lia.
have n0' : (0 < Z.of_nat n)%Z by slia.
have [H1 H2] := Z.log2_spec _ n0'; set l := Z.log2 _ in H1 H2 *.
have l0 : (0 <= l)%Z by apply: Z.log2_nonneg.
set h := Z.of_N ((M + 1) / 2)%num.
have hE : (2 * h <= Z.of_N M + 1 < 2 * h + 2)%Z.
  rewrite /h N2Z.inj_div; have := Z.div_mod (Z.of_N (M + 1)) 2 ltac:(lia).
  by have := Z.mod_pos_bound (Z.of_N (M + 1)) 2 ltac:(lia); rewrite -[Z.of_N 2]/2%Z; lia.
have h0 : (0 <= h)%Z by rewrite /h; lia.
apply/Z.leb_spec0/Z.leb_spec0 => H.
- have hl : (h <= l + 1)%Z by lia.
  apply: (Z.le_trans _ (2 ^ (l + 1))); first by apply: Z.pow_le_mono_r; lia.
  by rewrite Z.pow_add_r //; lia.
- apply: Znot_gt_le => H3.
  have hl : (l + 2 <= h)%Z by lia.
  have : (2 ^ (l + 2) <= 2 ^ h)%Z by apply: Z.pow_le_mono_r; lia.
  rewrite Z.pow_add_r //; move: H2; rewrite Z.pow_succ_r //; lia.
Qed.

Lemma bin_le2 n k : 'C(n, k) <= 2 ^ n.
Proof.
elim: n k => [|n IH] [|k] //; first by rewrite bin0 expn_gt0.
by rewrite binS expnS mul2n -addnn; apply: leq_add.
Qed.

Lemma bin_bits n k : (0 < 'C(n, k)) -> (0 <= Z.log2 (Z.of_nat 'C(n, k)) <= Z.of_nat n)%Z.
Proof.
move=> b0; split; first exact: Z.log2_nonneg.
rewrite -[X in (_ <= X)%Z]Z.log2_pow2; last by lia.
apply: Z.log2_le_mono; have := bin_le2 n k.
have <- : Z.of_nat (2 ^ n) = (2 ^ Z.of_nat n)%Z.
  by elim: n {b0} => // n IH; rewrite expnS Nat2Z.inj_mul IH (Nat2Z.inj_succ n) Z.pow_succ_r //; lia.
by move: (2 ^ n) => x; clear; slia.
Qed.

Lemma v2_stepE M upper k : (k < upper) -> (Z.of_nat upper < 2 ^ 49)%Z ->
  grobner_basis_v2_step M upper k (Some (Z.of_nat 'C(upper, k))) =
  Ret (if reached M 'C(upper, k.+1) then None else Some (Z.of_nat 'C(upper, k.+1))).
Proof.
move=> ku Hu; rewrite /grobner_basis_v2_step /usub (ltnW ku) bind_ret.
have b0 : 0 < 'C(upper, k.+1) by rewrite bin_gt0.
have -> : (Z.of_nat 'C(upper, k) * Z.of_nat (upper - k) / Z.of_nat (k + 1))%Z = Z.of_nat 'C(upper, k.+1).
  rewrite -Nat2Z.inj_mul -[('C(upper, k) * _)%coq_nat]/('C(upper, k) * (upper - k)) mulnC -mul_bin_left.
  rewrite Nat2Z.inj_mul Z.mul_comm addn1 Z.div_mul //; lia.
have -> : (Z.of_nat 'C(upper, k.+1) =? 0)%Z = false by apply/Z.eqb_spec; move: ('C(upper, k.+1)) b0 => x; clear; slia.
rewrite twice; last by rewrite Z.abs_eq; [have := bin_bits b0; lia | lia].
by rewrite bits_reached //; case: ifP.
Qed.

Lemma v2_loopE M upper n k : (k + n <= upper) -> (Z.of_nat upper < 2 ^ 49)%Z ->
  for_in (iota k n) (grobner_basis_v2_step M upper) (Some (Z.of_nat 'C(upper, k))) =
  Ret (if has (fun m => reached M 'C(upper, m.+1)) (iota k n) then None else Some (Z.of_nat 'C(upper, k + n))).
Proof.
move=> H Hu; elim: n k H => [|n IH] k H; first by rewrite addn0.
rewrite -[iota k n.+1]/(k :: iota k.+1 n) -[has _ (k :: _)]/(reached M 'C(upper, k.+1) || has (fun m => reached M 'C(upper, m.+1)) (iota k.+1 n)).
rewrite -[for_in (k :: _) _ _]/(bind (grobner_basis_v2_step M upper k (Some (Z.of_nat 'C(upper, k)))) (for_in (iota k.+1 n) (grobner_basis_v2_step M upper))).
rewrite v2_stepE //; last first.
  by apply: leq_trans H; rewrite -[X in X < _]addn0 ltn_add2l.
rewrite bind_ret; case: ifP => _; last by rewrite IH ?addSnnS.
by elim: n {IH H} (k.+1) => //= n IH k'; rewrite IH.
Qed.

Lemma v2_possibleE (i : input f64) e c : 1 <= r_F c -> (Z.of_nat (in_t i) < 2 ^ 40)%Z ->
  (Z.of_nat (v2_upper (in_t i) e c) < 2 ^ 49)%Z ->
  algebraic_attack_grobner_basis_v2_possible i (Exponent e) c =
  Ret (~~ has (fun k => reached (in_M i) 'C(v2_upper (in_t i) e c, k)) (iota 1 (v2_lower (in_t i) e c))).
Proof.
move=> F1 Ht Hu; rewrite /algebraic_attack_grobner_basis_v2_possible /usub F1 bind_ret third // subn1.
rewrite -/(v2_upper (in_t i) e c) -/(v2_lower (in_t i) e c) /range subn0.
rewrite -[1%Z]/(Z.of_nat 1) -{1}(bin0 (v2_upper (in_t i) e c)) v2_loopE //; last first.
  by rewrite add0n /v2_lower /v2_upper -!addnA; do 3! (apply: leq_trans (leq_addl _ _)).
rewrite bind_ret -[1](addn0 1) iotaDl has_map; congr Ret.
by rewrite (eq_has (a2 := fun m => reached (in_M i) 'C(v2_upper (in_t i) e c, m.+1))) //; case: has.
Qed.

(** * The round numbers for [q] *)
Fixpoint zbin (u k : nat) : Z :=
  if k is k'.+1 then (zbin u k' * Z.of_nat (u - k') / Z.of_nat k)%Z else 1%Z.

Lemma zbinP u k : Z.of_nat 'C(u, k) = zbin u k.
Proof.
elim: k => [|k IH]; first by rewrite bin0.
rewrite -[zbin _ _]/(zbin u k * Z.of_nat (u - k) / Z.of_nat k.+1)%Z -IH.
rewrite -Nat2Z.inj_mul -[('C(u, k) * _)%coq_nat]/('C(u, k) * (u - k)) mulnC -mul_bin_left.
by rewrite Nat2Z.inj_mul Z.mul_comm Z.div_mul //; lia.
Qed.

Lemma margin_31 c : with_margin c (RoundNumbers 31 8) -> c = RoundNumbers 28 6.
Proof.
case: c => P F []; rewrite -[r_F _]/8 -[r_F (RoundNumbers P F)]/F -[r_P (RoundNumbers P F)]/P -[r_P _]/31 => H1 H2 H3.
have -> : F = 6 by clear -H1; slia.
by have -> : P = 28 by clear -H2 H3; slia.
Qed.

Theorem q_rounds2 lm t limbs allow : accurate lm -> 2 <= t <= 8 ->
  v2_rounds lm (input_generate (log2 lm) 128 t q limbs allow) (Exponent 17) = Ret (RoundNumbers 31 8).
Proof.
move=> acc Ht; set i := input_generate _ _ _ _ _ _.
have t1 : 1 <= in_t i by rewrite -[in_t i]/t; case/andP: Ht => H _; clear -H; slia.
have ts : (N.of_nat (in_t i) < 2 ^ 56)%num by rewrite -[in_t i]/t; case/andP: Ht => _ H; clear -H; slia.
have := @q_rounds lm t limbs allow acc Ht; rewrite -/i => /(@v1_search lm i _ _ t1 ts) [_ [c Hc]].
apply: (v2_agrees t1 ts Hc); case: Hc => _ H /margin_31 E _; rewrite {}E in H *.
move: H; rewrite /is_secure_v1 /is_secure_v2; case: ifP => // _; case: ifP => // _.
case: (algebraic_attack_grobner_basis_v1 _ _ _) => // G; rewrite !bind_ret; case: ifP => // _ _.
have small : (Z.of_nat (v2_upper t 17 (RoundNumbers 28 6)) <? 2 ^ 49)%Z &&
    (2 ^ 64 <=? 2 * zbin (v2_upper t 17 (RoundNumbers 28 6)) (v2_lower t 17 (RoundNumbers 28 6)))%Z.
  have : t \in iota 2 7 by rewrite mem_iota.
  by rewrite !inE; do ![case/orP => [/eqP -> //|]]; move/eqP->.
case/andP: small => /Z.ltb_spec0 s1 s2.
rewrite v2_possibleE //; last by rewrite -[in_t i]/t; case/andP: Ht => _ H; clear -H; slia.
rewrite bind_ret negbK -[in_t i]/t -[in_M i]/128%num; congr Ret.
apply/hasP; exists (v2_lower t 17 (RoundNumbers 28 6)); last by rewrite /reached zbinP.
by rewrite mem_iota add1n ltnS leqnn andbT /v2_lower addn_gt0 orbT.
Qed.
