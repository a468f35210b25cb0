(** What the statistical check of rounds.rs:161-183 means for differences. *)
From Coq Require Import ZArith NArith Reals Lia Lra.
From Flocq Require Import Core.
From mathcomp Require Import all_ssreflect all_algebra.
From Verif Require Import Base Fq Matrix MatrixSpec Params PrimeField Alpha AlphaProofs Transcript Mds MdsCauchy MdsProofs V1 V1Proofs.
From Verif Require Import Rounds RoundsSpec F64Proofs RoundsProps Cauchy ActiveSpec StatSpec ActiveProofs ActiveShipped.
Set Implicit Arguments.
Unset Strict Implicit.
Unset Printing Implicit Defensive.
Delimit Scope Z_scope with Z.
Delimit Scope R_scope with Re.
Local Open Scope R_scope.
Local Open Scope nat_scope.

(** * Rounding errors *)
Lemma rnd_abs x (k : Z) : (-900 <= k)%Z -> (Rabs x <= bpow radix2 k)%Re ->
  (Rabs (f64_rnd x - x) <= bpow radix2 (k - 53))%Re.
Proof.
move=> k0 H; case: (Rle_or_lt (bpow radix2 (-1022)) (Rabs x)) => Hx.
  apply: Rle_trans (rnd_err Hx) _; rewrite (_ : k - 53 = -53 + k)%Z; last lia.
  by rewrite bpow_plus; apply: Rmult_le_compat_l => //; apply: bpow_ge_0.
have E : f64_format (bpow radix2 (-1022)) by rewrite -[bpow _ _]Rmult_1_l; apply: (@fmt_dyadic 1).
have E' : f64_format (- bpow radix2 (-1022)) by apply: generic_format_opp.
have [h1 h2] := Rabs_def2 _ _ Hx.
have u := rnd_ub E (Rlt_le _ _ h1); have l := rnd_lb E' (Rlt_le _ _ h2).
have B : (bpow radix2 (-1021) <= bpow radix2 (k - 53))%Re by apply: bpow_le; lia.
have D : (bpow radix2 (-1021) = 2 * bpow radix2 (-1022))%Re by rewrite (bpow_plus radix2 1 (-1022)).
by apply: Rabs_le; lra.
Qed.

Lemma ln2_gt0 : (0 < ln 2)%Re.
Proof. by rewrite -ln_1; apply: ln_increasing; lra. Qed.
Lemma log_2_le x y : (0 < x)%Re -> (x <= y)%Re -> (log_2 x <= log_2 y)%Re.
Proof.
move=> x0 [h | ->]; last by apply: Rle_refl.
rewrite /log_2; apply: Rmult_le_compat_r; first by apply: Rlt_le; apply: Rinv_0_lt_compat ln2_gt0.
by apply: Rlt_le; apply: ln_increasing.
Qed.
Lemma log_2_pow k : log_2 (2 ^ k) = INR k.
Proof. by rewrite /log_2 -Rpower_pow; [rewrite /Rpower ln_exp; field; have := ln2_gt0; lra | lra]. Qed.

Lemma log_2_range z k : (1 <= z <= 2 ^ Z.of_nat k)%Z -> (0 <= log_2 (IZR z) <= INR k)%Re.
Proof.
move=> [z1 z2]; split.
  by rewrite (_ : 0 = log_2 1)%Re; [apply: log_2_le; [lra | apply: IZR_le] | rewrite /log_2 ln_1 /Rdiv Rmult_0_l].
by rewrite -log_2_pow; apply: log_2_le; [apply: IZR_lt; lia | rewrite pow_IZR; apply: IZR_le].
Qed.

(** * The check *)
Section Check.
Variables (lm : libm) (i : input f64) (p : Z) (a : alpha).
Hypothesis acc : accurate lm.
Hypothesis p_range : (0 < p < 2 ^ 1024)%Z.
Hypothesis log_p : in_log_2_p i = log2 lm p.
Hypothesis t_range : in_t i < 1024.
Hypothesis M_range : (in_M i < 2 ^ 32)%num.
Hypothesis e_range : exponent_ok a.

Lemma check_6 : statistical_attack_full_rounds lm i a = 6 ->
  (IZR (Z.of_N (in_M i)) <= (log_2 (IZR p) - log_2 (IZR (uniformity_of a))) * (INR (in_t i) + 1) + / 2 ^ 20)%Re.
Proof.
rewrite /statistical_attack_full_rounds; set C := match a with Inverse => _ | _ => _ end.
case: Rle_bool_spec => // H _; rewrite /f64_M f64_of_int_small in H; last by lia.
rewrite /f64_t f64_of_int_small in H; last by move/ltP: t_range; lia.
rewrite -INR_IZR_INZ in H.
have T : (0 <= INR (in_t i) <= 1023)%Re.
  split; first exact: pos_INR.
  by rewrite -[X in (_ <= X)%Re]/(IZR (Z.of_nat 1023)) -INR_IZR_INZ; apply: le_INR; apply/leP.
have t1 : fadd (INR (in_t i)) 1 = (INR (in_t i) + 1)%Re.
  rewrite /fadd INR_IZR_INZ -plus_IZR; apply: rnd_fmt; apply: fmt_int; move/ltP: t_range; lia.
rewrite t1 in H.
have u12 : (1 <= uniformity_of a <= 2 ^ Z.of_nat 32)%Z by move: e_range; rewrite /exponent_ok /uniformity_of; case: a => //; lia.
have D0 : (0 <= log_2 (IZR (uniformity_of a)) <= 32)%Re.
  by have := log_2_range u12; rewrite INR_IZR_INZ.
have HC : (Rabs (C - log_2 (IZR (uniformity_of a))) <= / 2 ^ 35)%Re.
  move: D0 u12; rewrite /C; case: a e_range => [e|] /= er D0 u12; last first.
    rewrite (_ : 4 = 2 ^ 2)%Re; last by lra.
    rewrite log_2_pow /= (_ : 2 - (1 + 1) = 0)%Re ?Rabs_R0; last by lra.
    by apply: Rlt_le; apply: Rinv_0_lt_compat; lra.
  have -> : fsub (f64_exp e) 1 = IZR (Z.of_N e - 1).
    rewrite /fsub /f64_exp f64_of_int_small; last by lia.
    by rewrite -minus_IZR; apply: rnd_fmt; apply: fmt_int; lia.
  have [_ A _] := acc; have := A (Z.of_N e - 1)%Z; rewrite -/(log_2 (IZR (Z.of_N e - 1))) => B.
  have {}B : (Rabs (f64_log2 lm (IZR (Z.of_N e - 1)) - log_2 (IZR (Z.of_N e - 1))) <= log_2 (IZR (Z.of_N e - 1)) / 2 ^ 40)%Re.
    by apply: B; lia.
  by move: B D0; move: (log_2 _) => l B D0; lra.
have [l1 l2] := log2_accuracy acc p_range; rewrite -log_p -/(log_2 (IZR p)) in l1 l2.
have P0 : (0 <= log_2 (IZR p) <= 1024)%Re.
  have -> : (1024 = INR 1024)%Re by rewrite INR_IZR_INZ.
  by apply: log_2_range; lia.
have L45 : (ln (5 / 4) / ln 2 <= 1)%Re.
  rewrite -/(log_2 _) (_ : 1 = log_2 2)%Re; last by rewrite /log_2; field; have := ln2_gt0; lra.
  by apply: log_2_le; lra.
have F1 : (ffloor (in_log_2_p i) <= in_log_2_p i)%Re := Zfloor_lb _.
have F2 : (in_log_2_p i < ffloor (in_log_2_p i) + 1)%Re := Zfloor_ub _.
move: D0 HC l1 l2 P0 F1 F2 L45 T H {t1 u12}.
move: C (in_log_2_p i) (ffloor (in_log_2_p i)) (log_2 (IZR p)) (log_2 (IZR (uniformity_of a)))
  (INR (in_t i)) (IZR (Z.of_N (in_M i))) => C l f lp d t M.
move=> D0 HC l1 l2 P0 F1 F2 L45 T H.
move/Rabs_le_inv: HC => HC.
have [x1 x2] : (-1024 <= f - C <= 1026)%Re by lra.
have /Rabs_le_inv E1 : (Rabs (fsub f C - (f - C)) <= bpow radix2 (11 - 53))%Re.
  by apply: rnd_abs => //; apply: Rabs_le; rewrite /=; lra.
have B1 : (bpow radix2 (11 - 53) <= / 2 ^ 42)%Re by rewrite /=; lra.
have G : (- 1025 <= fsub f C <= 1027)%Re by lra.
have /Rabs_le_inv E2 : (Rabs (fmul (fsub f C) (t + 1) - (fsub f C) * (t + 1)) <= bpow radix2 (21 - 53))%Re.
  apply: rnd_abs => //; apply: Rabs_le; rewrite -[bpow radix2 21]/2097152%Re; nra.
have B2 : (bpow radix2 (21 - 53) <= / 2 ^ 32)%Re by rewrite /=; lra.
apply: Rle_trans H _.
have K : (fsub f C <= lp - d + / 2 ^ 33)%Re by lra.
have K' : (fsub f C * (t + 1) <= (lp - d + / 2 ^ 33) * (t + 1))%Re by apply: Rmult_le_compat_r; lra.
have K2 : (/ 2 ^ 33 * (t + 1) <= / 2 ^ 23)%Re.
  by apply: Rle_trans (_ : / 2 ^ 33 * 1024 <= _)%Re; [apply: Rmult_le_compat_l; lra | lra].
lra.
Qed.
End Check.

(** * Characteristics over two full rounds *)
Section Characteristic.
Variables (PF : prime_field) (lm : libm) (i : input f64) (a : alpha).
Local Notation p := (pf_p PF).
Local Notation t := (in_t i).
Local Notation S := (@sbox_of PF a).
Hypothesis acc : accurate lm.
Hypothesis p_range : (2 ^ 127 <= p < 2 ^ 1024)%Z.
Hypothesis log_p : in_log_2_p i = log2 lm p.
Hypothesis t_range : t < 1024.
Hypothesis M_range : (in_M i < 2 ^ 32)%num.
Hypothesis e_range : exponent_ok a.

Lemma uniformity_range : (0 < uniformity_of a < 2 ^ 32)%Z.
Proof. by move: e_range; rewrite /exponent_ok /uniformity_of; case: a => //; lia. Qed.

Lemma sbox_uniformity : uniformity S (Z.to_nat (uniformity_of a)).
Proof.
move: e_range; rewrite /sbox_of /exponent_ok /uniformity_of; case: a => [e er|_]; last exact: inverse_uniformity.
have -> : Z.to_nat (Z.of_N e - 1) = (N.to_nat e).-1 by lia.
apply: power_uniformity; first by apply/ltP; lia.
by apply: pf_nat_neq0; [apply/ltP; lia | lia].
Qed.

Variable M : 'M[PF]_t.
Hypothesis Mb : branch M t.+1.
Hypothesis S_inj : injective S.
Hypothesis six : statistical_attack_full_rounds lm i a = 6.

Lemma characteristic (a0 b0 b1 : 'cV[PF]_t) xs0 xs1 : a0 != 0%R ->
  uniq xs0 -> all (follows S a0 b0) xs0 -> uniq xs1 -> all (follows S (M *m b0)%R b1) xs1 ->
  (INR (size xs0) * INR (size xs1) <= IZR p ^ (2 * t) * Rpower 2 (/ 2 ^ 20 - IZR (Z.of_N (in_M i))))%Re.
Proof.
move=> a00 u0 H0 u1 H1.
have t0 : 0 < t.
  rewrite lt0n; apply/eqP => Z; case/eqP: a00; apply/colP => j.
  by case: j => j jt; exfalso; move: jt; rewrite Z.
have ur := uniformity_range.
have dN : 0 < Z.to_nat (uniformity_of a) <= Z.to_nat p by apply/andP; split; apply/leP; lia.
have := two_layers sbox_uniformity (@pf_card PF) S_inj dN Mb _ a00 u0 H0 u1 H1.
have -> : t < 2 * t by rewrite mul2n -addnn -{1}[t]addn0 ltn_add2l.
have INRM n k : INR (n * k) = (INR n * INR k)%Re by rewrite -multE mult_INR.
have INRx n k : INR (n ^ k) = (INR n ^ k)%Re by elim: k => // k IH; rewrite expnS INRM IH.
move=> /(_ isT) /leP /le_INR; rewrite !INRM !INRx => L; apply: Rle_trans L _.
have -> : INR (Z.to_nat p) = IZR p by rewrite INR_IZR_INZ Z2Nat.id //; lia.
have -> : INR (Z.to_nat (uniformity_of a)) = IZR (uniformity_of a) by rewrite INR_IZR_INZ Z2Nat.id //; lia.
have -> : (IZR p ^ (2 * t) = IZR p ^ t.+1 * IZR p ^ (2 * t - t.+1))%Re.
  by rewrite -pow_add plusE subnKC // mul2n -addnn -{1}[t]addn0 ltn_add2l.
have p0 : (0 < IZR p)%Re by apply: IZR_lt; lia.
have d0 : (0 < IZR (uniformity_of a))%Re by apply: IZR_lt; lia.
have pl x k : (0 < x)%Re -> (x ^ k = Rpower 2 (log_2 x * INR k))%Re.
  move=> x0; rewrite -Rpower_mult -Rpower_pow //.
  congr Rpower; rewrite /Rpower /log_2 /Rdiv Rmult_assoc Rinv_l ?Rmult_1_r ?exp_ln //.
  by have := ln2_gt0; lra.
rewrite (Rmult_comm (IZR p ^ t.+1)) Rmult_assoc Rmult_comm; apply: Rmult_le_compat_l.
  by apply: pow_le; lra.
rewrite (pl _ _ d0) (pl _ _ p0) -Rpower_plus; apply: Rle_Rpower; first by lra.
have pr : (0 < p < 2 ^ 1024)%Z by lia.
by have := @check_6 lm i p a acc pr log_p t_range M_range e_range six; rewrite S_INR; lra.
Qed.
End Characteristic.

(** ** The generator *)
Lemma generated_characteristic (PF : prime_field) (lm : libm) (M : N) (n limbs : nat) (allow : bool) (a : alpha) (m : rmat PF) :
  let i := input_generate (log2 lm) M n (pf_p PF) limbs allow in
  accurate lm -> (pf_p PF < 2 ^ 1024)%Z -> (M < 2 ^ 32)%num ->
  alpha_generate PF (pf_p PF) allow = Ret a -> v1_generate_mds PF i = Ret m ->
  statistical_attack_full_rounds lm i a = 6 ->
  forall (a0 b0 b1 : 'cV[PF]_n) (xs0 xs1 : seq 'cV[PF]_n), a0 != 0%R ->
  uniq xs0 -> all (follows (sbox_of a) a0 b0) xs0 ->
  uniq xs1 -> all (follows (sbox_of a) (toM n n m *m b0)%R b1) xs1 ->
  (INR (size xs0) * INR (size xs1) <= IZR (pf_p PF) ^ (2 * n) * Rpower 2 (/ 2 ^ 20 - IZR (Z.of_N M)))%Re.
Proof.
move=> i acc p1024 M32 ha hm h6 a0 b0 b1 xs0 xs1 a00 u0 H0 u1 H1.
have [n8 p127] : n <= 8 /\ (2 ^ 127 <= pf_p PF)%Z.
  move: (hm); rewrite v1_generate_mdsE //; case: ifP => // /andP [/andP [_ ->] /Z.leb_le h].
  by [].
have Mb : branch (toM n n m) n.+1 := @generated_branch PF f64 i m erefl hm.
have er : exponent_ok a.
  case: a ha {h6 H0 H1} => // e he.
  have p128 : (128 < pf_p PF)%Z by lia.
  have [pre [post [E _ _]]] := (generate_exponent allow e p128).1 he.
  have /allP/(_ (N.to_nat e)) : all (fun e => 1 < e < 129) odd_exponents by [].
  by rewrite /exponent_ok E mem_cat mem_head orbT => /(_ isT) /andP [/ltP h1 /ltP h2]; lia.
have Si : injective (@sbox_of PF a).
  case: a ha {h6 H0 H1 er} => [e he|_]; first exact: bij_inj (generate_bijective he).
  exact: GRing.invr_inj.
have pr : (2 ^ 127 <= pf_p PF < 2 ^ 1024)%Z by lia.
have t8 : in_t i < 1024 by exact: leq_ltn_trans n8 _.
exact: (@characteristic PF lm i a acc pr erefl t8 M32 er (toM n n m) Mb Si h6 a0 b0 b1 xs0 xs1 a00 u0 H0 u1 H1).
Qed.
