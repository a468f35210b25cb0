(** Instances of C58 and C59, and what fails without the hypotheses. *)
From Coq Require Import ZArith NArith Reals Lra.
From mathcomp Require Import all_ssreflect all_algebra.
From Verif Require Import Base Fq Matrix MatrixSpec Params Permutation Spec PrimeField Cauchy SBox Rate1 RateChecks Shipped.
From Verif Require Import TrailsSpec ActiveSpec ActiveProofs ActiveShipped.
From Verif Require Import Transcript V1 Rounds RoundsSpec RoundsProps RoundsClosed RoundsExamples StatSpec StatProofs.
Set Implicit Arguments.
Unset Strict Implicit.
Unset Printing Implicit Defensive.
Import GRing.Theory.
Local Open Scope ring_scope.
Delimit Scope Z_scope with Z.
Delimit Scope R_scope with Re.

(** With the identity for a matrix, a difference of one word outside word 0 stays
    there: one S-box in every full round and none in the partial rounds. *)
Section Identity.
Variables (F : fieldType) (S : F -> F).
Hypothesis S_inj : injective S.
Let x : 'cV[F]_2 := 0.
Let y : 'cV[F]_2 := \col_i (i != 0)%:R.
Local Notation before r := (before S 1%:M (fun _ => 0) 4 31 r).
Lemma identity_before r : before r x 0 0 = before r y 0 0 /\ before r x (lift 0 0) 0 != before r y (lift 0 0) 0.
Proof.
elim: r => [|r [E N]] /=; first by rewrite !addr0 !mxE /= eq_sym oner_eq0.
rewrite !addr0 !mul1mx !mxE E !eqxx orbT; split=> //.
by case: ifP => // _; rewrite (inj_eq S_inj).
Qed.
Example identity_active : active_total S 1%:M (fun _ => 0) 4 31 x y = 8%N.
Proof.
transitivity (\sum_(r < 4 + 31 + 4) is_full 4 31 r)%N; last by rewrite -[LHS]/(\sum_(r < 39) is_full 4 31 r)%N !big_ord_recl big_ord0.
apply: eq_bigr => r _; rewrite /active; have [E N] := identity_before r; case: ifP => _; last by rewrite E eqxx.
rewrite (@eq_card1 _ (lift 0 0)) // => i; rewrite !inE.
by case: i => -[|[|[]]] // h; [have -> : Ordinal h = 0 by apply/val_inj | have -> : Ordinal h = lift 0 0 by apply/val_inj]; rewrite ?E ?N ?eqxx.
Qed.
End Identity.

(** Rate 1 (width 2): at least 27 of the 47 S-boxes; rate 2 (width 3): 26 of 55. *)
Example rate_1_active (x y : 'cV[Fq]_(1 + p_t1 RATE_1_PARAMS)) : x != y ->
  (27 <= active_total (fun x : Fq => x ^+ 17) (toM _ _ (p_mds RATE_1_PARAMS))
    (fun r => \col_i nth 0%R (elements (p_arc RATE_1_PARAMS)) (r * (1 + p_t1 RATE_1_PARAMS) + i)) 4 31 x y)%N.
Proof. exact: (@shipped_active RATE_1_PARAMS (or_introl erefl) x y). Qed.

(** Two inputs of x^e, e odd, with one pair of differences: 0 and -a. *)
Example odd_not_1 (F : fieldType) e : odd e -> ~ uniformity (fun x : F => x ^+ e) 1.
Proof.
move=> e1 /(_ 1 1 (oner_neq0 _) [:: 0; -1]); rewrite /= !inE.
rewrite addNr add0r expr1n expr0n -signr_odd e1 expr1; case: e e1 => // e _.
by rewrite subr0 sub0r opprK eqxx eq_sym oppr_eq0 oner_eq0 => /(_ isT isT).
Qed.
Example pow17_not_1 : ~ uniformity (fun x : Fq => x ^+ 17) 1.
Proof. exact: (@odd_not_1 Fq_fieldType 17 isT). Qed.

(** Squaring in a field of odd characteristic: at most one input. *)
Example square_uniformity : uniformity (fun x : Fq => x ^+ 2) 1.
Proof. by apply: (@power_uniformity _ 2) => //; apply: small_Fq. Qed.

(** Over the field of two elements, where 2 = 0, every input of x^2 has the output difference of the input difference. *)
Example square_char2 : ~ uniformity (fun x : 'F_2 => x ^+ 2) 1.
Proof. by move=> /(_ 1 1 (oner_neq0 _) [:: 0; 1] isT isT). Qed.

(** The inverse over the field of 7 elements: two inputs have the differences (2, 4). *)
Example inverse_2_of_7 : all (fun x : 'F_7 => (x + 2%:R)^-1 - x^-1 == 4%:R) [:: 1; 4%:R].
Proof. by []. Qed.

(** C61: zero follows (1, 0, 0) -> (1, 0, 0) through a layer of S-boxes. *)
Example zero_follows : follows (fun x : Fq => x ^+ 17) (delta_mx 0 0) (delta_mx 0 0) (0 : 'cV[Fq]_3).
Proof.
rewrite /follows add0r; apply/eqP/colP => i; rewrite !mxE expr0n subr0.
by case: eqP => _; rewrite ?expr1n ?expr0n.
Qed.

(** Level 1024 is out of reach of the check for width 2 and this modulus. *)
Example level_1024 (lm : libm) : accurate lm ->
  statistical_attack_full_rounds lm (input_generate (log2 lm) 1024 2 q 4 false) (Exponent 17) = 10%N.
Proof.
move=> acc; set i := input_generate _ _ _ _ _ _.
have [E|//] := s_610 lm i (Exponent 17).
have q1024 : (0 < q < 2 ^ 1024)%Z by [].
have ok : exponent_ok (Exponent 17) by [].
have := @check_6 lm i q (Exponent 17) acc q1024 erefl isT erefl ok E.
have qr : (1 <= q <= 2 ^ Z.of_nat 253)%Z by [].
have [_ h] := log_2_range qr.
have ur : (1 <= uniformity_of (Exponent 17) <= 2 ^ Z.of_nat 4)%Z by [].
have [h' _] := log_2_range ur.
rewrite INR_IZR_INZ /= in h; rewrite -[IZR (Z.of_N (in_M i))]/1024%Re -[INR (in_t i)]/(1 + 1)%Re.
by move: (log_2 (IZR q)) (log_2 _) h h' => x y h h'; lra.
Qed.
