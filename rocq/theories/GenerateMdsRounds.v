(** Proofs about vendor/generate_mds.sage: the numbers of rounds, the constants and the sponge. *)
From Coq Require Import ZArith Reals Lia Lra String.
From Flocq Require Import Core.
From mathcomp Require Import all_ssreflect all_algebra.
From Verif Require Import Base Params Fq Transcript V1 Rounds RoundsSpec F64Proofs RoundsProps Slia GenerateMds GenerateMdsSpec.
Set Implicit Arguments.
Unset Strict Implicit.
Unset Printing Implicit Defensive.
Import GRing.Theory.
Delimit Scope Z_scope with Z.
Delimit Scope R_scope with Re.
Local Open Scope R_scope.

(** * Logarithms *)
Lemma INR_Z n : INR n = IZR (Z.of_nat n). Proof. exact: INR_IZR_INZ. Qed.

Lemma ln_posZ a : (2 <= a)%Z -> 0 < ln (IZR a).
Proof. by move=> H; rewrite -ln_1; apply: ln_increasing; [lra | apply: (IZR_lt 1); lia]. Qed.

Lemma ln_powZ a u : (1 <= a)%Z -> ln (IZR (a ^ Z.of_nat u)) = INR u * ln (IZR a).
Proof. by move=> H; rewrite -pow_IZR ln_pow //; apply: (IZR_lt 0); lia. Qed.

Lemma pow_ltR a b u v : (1 <= a)%Z -> (1 <= b)%Z -> (a ^ Z.of_nat u < b ^ Z.of_nat v)%Z ->
  INR u * ln (IZR a) < INR v * ln (IZR b).
Proof.
move=> ha hb H; rewrite -!ln_powZ //; apply: ln_increasing; last exact: IZR_lt.
by apply: (IZR_lt 0); apply: Z.pow_pos_nonneg; lia.
Qed.
Lemma pow_leR a b u v : (1 <= a)%Z -> (1 <= b)%Z -> (a ^ Z.of_nat u <= b ^ Z.of_nat v)%Z ->
  INR u * ln (IZR a) <= INR v * ln (IZR b).
Proof.
move=> ha hb /Zle_lt_or_eq [H|H]; first exact: Rlt_le (pow_ltR ha hb H).
by rewrite -!ln_powZ // H; apply: Rle_refl.
Qed.

Lemma INR_1 : INR 1 = 1. Proof. by []. Qed.
Lemma Rdiv_1 x : x / 1 = x. Proof. by field. Qed.

(** Bounds of a quotient of logarithms from comparisons of powers *)
Lemma log_gt x b u v : (2 <= x)%Z -> (2 <= b)%Z -> (0 < v)%N -> (b ^ Z.of_nat u < x ^ Z.of_nat v)%Z ->
  INR u / INR v < log (IZR x) (IZR b).
Proof.
move=> hx hb /ltP v0 H; have := @pow_ltR b x u v ltac:(lia) ltac:(lia) H.
have lb := ln_posZ hb; have V := lt_0_INR _ v0 => {}H.
rewrite /log; apply: (Rmult_lt_reg_r (ln (IZR b) * INR v)); first exact: Rmult_lt_0_compat.
by field_simplify; lra.
Qed.
Lemma log_le x b u v : (2 <= x)%Z -> (2 <= b)%Z -> (0 < v)%N -> (x ^ Z.of_nat v <= b ^ Z.of_nat u)%Z ->
  log (IZR x) (IZR b) <= INR u / INR v.
Proof.
move=> hx hb /ltP v0 H; have := @pow_leR x b v u ltac:(lia) ltac:(lia) H.
have lb := ln_posZ hb; have V := lt_0_INR _ v0 => {}H.
rewrite /log; apply: (Rmult_le_reg_r (ln (IZR b) * INR v)); first exact: Rmult_lt_0_compat.
by field_simplify; lra.
Qed.

Lemma ceil_log x b n : (2 <= x)%Z -> (2 <= b)%Z -> (b ^ Z.of_nat n < x <= b ^ Z.of_nat n.+1)%Z ->
  Zceil (log (IZR x) (IZR b)) = Z.of_nat n.+1.
Proof.
move=> hx hb [H1 H2]; apply: Zceil_eq.
have := @log_gt x b n 1 hx hb isT; rewrite Z.pow_1_r => /(_ H1).
have := @log_le x b n.+1 1 hx hb isT; rewrite Z.pow_1_r => /(_ H2).
by rewrite -INR_Z S_INR INR_1 !Rdiv_1; split; lra.
Qed.

(** * The numbers of rounds *)
Lemma Rmin_sec sec t p : (2 <= t)%N -> (2 <= p)%Z -> (Z.of_nat t ^ Z.of_nat sec <= p)%Z -> Rmin (INR sec) (log (IZR p) (INR t)) = INR sec.
Proof.
move=> /leP ht hp H; apply: Rmin_left; rewrite (INR_Z t).
have := @pow_leR (Z.of_nat t) p sec 1 ltac:(lia) ltac:(lia); rewrite Z.pow_1_r => /(_ H) {}H.
have lt := @ln_posZ (Z.of_nat t) ltac:(lia).
rewrite /log; apply: (Rmult_le_reg_r (ln (IZR (Z.of_nat t)))) => //; field_simplify; last by lra.
by rewrite INR_1 in H; lra.
Qed.

Lemma margin_rounds k : (0 <= k < 2 ^ 40)%Z ->
  Zceil (fmul (f64_of_int k) (f64_rnd (1075 / 1000))) = ((43 * k + 39) / 40)%Z.
Proof. by move=> H; rewrite -(ceil_1075 H) /fmul Rmult_comm. Qed.

Lemma bin_lengthE n nb : (2 ^ (nb - 1) <= n < 2 ^ nb)%Z -> (1 <= nb)%Z -> bin_length n = nb.
Proof.
move=> [h1 h2] nb1; rewrite /bin_length.
have := Z.pow_pos_nonneg 2 (nb - 1) ltac:(lia) ltac:(lia) => P.
case: Z.leb_spec => [|_]; first by lia.
have h2' : (n < 2 ^ Z.succ (nb - 1))%Z by have -> : Z.succ (nb - 1) = nb by lia.
by rewrite (Z.log2_unique n (nb - 1)) //; lia.
Qed.

(** The assertion fails: the capacity is too small for the level. *)
Theorem rounds_capacity order nb sec alpha cap t p : (2 ^ (nb - 1) <= order < 2 ^ nb)%Z -> (1 <= nb)%Z ->
  (Z.of_nat cap * nb <= Z.of_nat sec)%Z -> calculate_num_poseidon_rounds order sec alpha cap t p = Panic.
Proof.
move=> hn nb1 H; rewrite /calculate_num_poseidon_rounds (bin_lengthE hn) //.
by case: Z.ltb_spec => // ?; lia.
Qed.

Theorem rounds_formula order nb sec alpha cap t p a b :
  (2 <= alpha)%N -> (2 <= t)%N -> (0 < sec)%N -> (Z.of_nat t ^ Z.of_nat sec <= p)%Z ->
  (2 ^ (nb - 1) <= order < 2 ^ nb)%Z -> (1 <= nb)%Z -> (Z.of_nat sec < Z.of_nat cap * nb)%Z ->
  (Z.of_nat alpha ^ Z.of_nat a < 2 ^ Z.of_nat sec <= Z.of_nat alpha ^ Z.of_nat a.+1)%Z ->
  (2 ^ Z.of_nat b < Z.of_nat t <= 2 ^ Z.of_nat b.+1)%Z ->
  (6 <= a.+1 + b.+1)%N -> (Z.of_nat (a.+1 + b.+1) < 2 ^ 40)%Z ->
  calculate_num_poseidon_rounds order sec alpha cap t p = Ret (8 + (43 * (Z.of_nat a.+1 + Z.of_nat b.+1 - 6) + 39) / 40)%Z.
Proof.
move=> /leP ha ht s0 tp hn nb1 /Z.ltb_spec0; rewrite -(bin_lengthE hn nb1) => assert_ [a1 a2] tb /leP k6 k40.
have ht' := elimT leP ht.
have hp : (2 <= p)%Z.
  have s1 : (1 <= Z.of_nat sec)%Z by move/ltP: s0; lia.
  have A := Z.pow_le_mono_r 2 1 (Z.of_nat sec) ltac:(lia) s1.
  have B := Z.pow_le_mono_l 2 (Z.of_nat t) (Z.of_nat sec) ltac:(lia).
  by rewrite Z.pow_1_r in A; lia.
rewrite -plusE in k6 k40.
rewrite /calculate_num_poseidon_rounds assert_ /py_assert bind_ret Rmin_sec //.
rewrite [INR t]INR_Z (ceil_log _ _ tb); [|lia|lia].
have -> : Zceil (log 2 (INR alpha) * INR sec) = Z.of_nat a.+1.
  rewrite [INR alpha]INR_Z; apply: Zceil_eq; rewrite -INR_Z S_INR.
  have := @log_gt 2 (Z.of_nat alpha) a sec ltac:(lia) ltac:(lia) s0 a1.
  have := @log_le 2 (Z.of_nat alpha) a.+1 sec ltac:(lia) ltac:(lia) s0 a2.
  have V := lt_0_INR _ (elimT ltP s0); rewrite S_INR => L G.
  have {}L := Rmult_le_compat_r (INR sec) _ _ (Rlt_le _ _ V) L.
  have {}G := Rmult_lt_compat_r (INR sec) _ _ V G.
  have e z : z / INR sec * INR sec = z by field; lra.
  by rewrite !e in L G; split; lra.
cbv zeta; rewrite margin_rounds; last by lia.
by congr Ret; lia.
Qed.

Lemma bin_length_p : bin_length script_p = 253%Z. Proof. by []. Qed.
Lemma script_p_q : script_p = q. Proof. by []. Qed.

Lemma script_small t L H c d (n : nat) :
  (2 <= t)%N -> (script_p <= Z.of_nat t ^ 128)%Z ->
  (Z.of_nat t ^ Z.of_nat L < script_p ^ 10 <= Z.of_nat t ^ Z.of_nat H)%Z ->
  (c - 1 < IZR (489 * Z.of_nat L) / 20000 )%Re -> (IZR (490 * Z.of_nat H) / 20000 <= c)%Re -> c = IZR d ->
  (2 ^ Z.of_nat n < Z.of_nat t <= 2 ^ Z.of_nat n.+1)%Z ->
  (6 <= d + Z.of_nat n.+1 < 2 ^ 40)%Z ->
  calculate_num_poseidon_rounds script_p 128 17 1 t script_p = Ret (8 + (43 * (d + Z.of_nat n.+1 - 6) + 39) / 40)%Z.
Proof.
move=> ht tp [hL hH] cL cH cd tb k6; have ht' := elimT leP ht.
have p2 : (2 <= script_p)%Z by [].
rewrite /calculate_num_poseidon_rounds -[py_assert _]/(Ret tt) bind_ret.
rewrite [INR t]INR_Z (ceil_log _ _ tb); [|lia|lia].
have -> : Rmin (INR 128) (log (IZR script_p) (IZR (Z.of_nat t))) = log (IZR script_p) (IZR (Z.of_nat t)).
  apply: Rmin_right.
  have := @log_le script_p (Z.of_nat t) 128 1 p2 ltac:(lia) isT; rewrite Z.pow_1_r => /(_ tp).
  by rewrite INR_1 Rdiv_1.
have g1 := @log_gt 2 17 489 2000 ltac:(lia) ltac:(lia) isT.
have l1 := @log_le 2 17 490 2000 ltac:(lia) ltac:(lia) isT.
have {}g1 := g1 ltac:(by []); have {}l1 := l1 ltac:(by []).
have g2 := @log_gt script_p (Z.of_nat t) L 10 p2 ltac:(lia) isT hL.
have l2 := @log_le script_p (Z.of_nat t) H 10 p2 ltac:(lia) isT hH.
rewrite !INR_Z in g1 l1 g2 l2; rewrite [INR 17]INR_Z.
rewrite !mult_IZR in cL cH.
have -> : Zceil (log 2 17 * log (IZR script_p) (IZR (Z.of_nat t))) = d.
  apply: Zceil_eq; rewrite -cd.
  move: (log 2 17) (log (IZR script_p) (IZR (Z.of_nat t))) g1 l1 g2 l2 => u v.
  rewrite -[Z.of_nat 489]/489%Z -[Z.of_nat 490]/490%Z -[Z.of_nat 2000]/2000%Z -[Z.of_nat 10]/10%Z => g1 l1 g2 l2.
  have [L0 H0] : 0 <= IZR (Z.of_nat L) /\ 0 <= IZR (Z.of_nat H) by split; apply: (IZR_le 0); lia.
  split.
    apply: (Rlt_le_trans _ _ _ cL); apply: (Rle_trans _ (489 / 2000 * (IZR (Z.of_nat L) / 10))); first by lra.
    by apply: Rmult_le_compat; lra.
  apply: (Rle_trans _ _ _ _ cH); apply: (Rle_trans _ (490 / 2000 * (IZR (Z.of_nat H) / 10))); last by lra.
  by apply: Rmult_le_compat; lra.
cbv zeta; rewrite margin_rounds; last by lia.
by congr Ret; lia.
Qed.

Ltac zz := repeat split; vm_compute; first [reflexivity | let h := fresh in intro h; discriminate h].

Lemma rounds_1 : script_rounds 1 = Ret 38%Z.
Proof.
apply: (etrans (@rounds_formula script_p 253 128 17 1 2 script_p 31 0 isT isT isT _ _ _ _ _ _ isT _)); [zz|zz|zz|zz|zz|zz|zz|].
by vm_compute.
Qed.
Lemma rounds_2 : script_rounds 2 = Ret 39%Z.
Proof.
apply: (etrans (@rounds_formula script_p 253 128 17 1 3 script_p 31 1 isT isT isT _ _ _ _ _ _ isT _)); [zz|zz|zz|zz|zz|zz|zz|].
by vm_compute.
Qed.
Lemma rounds_3 : script_rounds 3 = Ret 38%Z.
Proof.
apply: (etrans (@script_small 4 1261 1262 31 31 1 isT _ _ _ _ erefl _ _)); [zz|zz| | |zz|zz|by vm_compute].
  by rewrite (_ : (489 * Z.of_nat 1261)%Z = 616629%Z) //; lra.
by rewrite (_ : (490 * Z.of_nat 1262)%Z = 618380%Z) //; lra.
Qed.
Lemma rounds_4 : script_rounds 4 = Ret 34%Z.
Proof.
apply: (etrans (@script_small 5 1086 1087 27 27 2 isT _ _ _ _ erefl _ _)); [zz|zz| | |zz|zz|by vm_compute].
  by rewrite (_ : (489 * Z.of_nat 1086)%Z = 531054%Z) //; lra.
by rewrite (_ : (490 * Z.of_nat 1087)%Z = 532630%Z) //; lra.
Qed.
Lemma rounds_5 : script_rounds 5 = Ret 31%Z.
Proof.
apply: (etrans (@script_small 6 975 976 24 24 2 isT _ _ _ _ erefl _ _)); [zz|zz| | |zz|zz|by vm_compute].
  by rewrite (_ : (489 * Z.of_nat 975)%Z = 476775%Z) //; lra.
by rewrite (_ : (490 * Z.of_nat 976)%Z = 478240%Z) //; lra.
Qed.

Theorem script_rounds_values : [seq script_rounds arity | arity <- iota 1 5] = [seq Ret n | n <- [:: 38; 39; 38; 34; 31]%Z].
Proof. by rewrite -[LHS]/[:: _; _; _; _; _] rounds_1 rounds_2 rounds_3 rounds_4 rounds_5. Qed.

(** No numbers whose margin gives those of the script pass the test of the library. *)
Theorem library_rejects lm limbs allow arity n c :
  accurate lm -> List.In arity [:: 1; 3; 4; 5]%N -> script_rounds arity = Ret n ->
  with_margin c (RoundNumbers (Z.to_nat (n - 8)) 8) ->
  is_secure_v1 lm (input_generate (log2 lm) 128 arity.+1 q limbs allow) (Exponent 17) c = Ret false.
Proof.
move=> acc Ha En Wc.
have t28 : (2 <= arity.+1 <= 8)%N by case: Ha => [<-|[<-|[<-|[<-|[]]]]].
have P31 : (Z.to_nat (n - 8) <= 30)%N /\ (22 <= Z.to_nat (n - 8))%N.
  case: Ha En => [<-|[<-|[<-|[<-|[]]]]]; rewrite ?rounds_1 ?rounds_3 ?rounds_4 ?rounds_5 => -[<-]; by split.
set i := input_generate _ _ _ _ _ _.
have ti : in_t i = arity.+1 by [].
have H := @q_rounds lm arity.+1 limbs allow acc t28.
have t1 : (1 <= in_t i)%N by rewrite ti.
have ts : (N.of_nat (in_t i) < 2 ^ 56)%num by rewrite ti; clear -t28; move: t28 => /andP [_ /leP]; lia.
have [_ [c0 [C0 S0 W0 M0]]] := iffLR (@v1_search lm i (Exponent 17) _ t1 ts) H.
case E: (is_secure_v1 _ _ _ _) => [b|]; last by case: (is_secure_v1_ret t1 E).
congr Ret; apply: negbTE; apply/negP => /= hb; rewrite {}hb in E.
have Cc : candidate c.
  case: Wc P31 => /= F6 A B [P1 P2]; split; clear -F6 A B P1 P2; slia.
have cc0 : c <> c0.
  by move=> ?; subst c0; case: W0 => /= _ A B; case: Wc => /= _ A' B'; case: P31 => P1 P2; clear -A B A' B' P1 P2; slia.
case: (M0 c _ Cc E Wc cc0); rewrite /sboxes /= ?ti => h; case: P31 => P1 P2; clear -h P1; slia.
Qed.

Theorem library_accepts lm limbs allow :
  accurate lm -> with_margin (RoundNumbers 28 6) (RoundNumbers 31 8) /\
  is_secure_v1 lm (input_generate (log2 lm) 128 3 q limbs allow) (Exponent 17) (RoundNumbers 28 6) = Ret true.
Proof.
move=> acc; split; first by [].
have H := @q_rounds lm 3 limbs allow acc isT.
set i := input_generate _ _ _ _ _ _ in H *.
have [_ [c0 [C0 S0 W0 M0]]] := iffLR (@v1_search lm i (Exponent 17) _ isT erefl) H.
suff <- : c0 = RoundNumbers 28 6 by [].
case: c0 W0 {C0 S0 M0} => rP rF [/= F A B]; congr RoundNumbers; clear -F A B; slia.
Qed.
