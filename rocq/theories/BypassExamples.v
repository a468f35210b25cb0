(** Lines through two rounds modulo 7, with x^5. *)
From mathcomp Require Import all_ssreflect all_algebra.
From Verif Require Import Cauchy SymmetrySpec SymmetryExamples BypassSpec Bypass.
Set Implicit Arguments.
Unset Strict Implicit.
Unset Printing Implicit Defensive.
Import GRing.Theory.
Local Open Scope ring_scope.

Local Notation M := (cauchy_mx [fieldType of 'F_7] 2).
Definition inverse_7 : 'M['F_7]_2 := \matrix_(i, j) (if (i == 1) && (j == 1) then 1 else 4%:R).
Lemma inverse_7E : M *m inverse_7 = 1%:M.
Proof.
by apply/matrixP; apply: o2; apply: o2; rewrite !mxE !big_ord_recl !big_ord0 !mxE; apply/eqP; vm_compute.
Qed.
Lemma M_unit : M \in unitmx. Proof. exact: (proj1 (mulmx1_unit inverse_7E)). Qed.
(** The inverse of the matrix applied to the constants 3 and 1 gives 2 and 6. *)
Definition offsets_7 : 'cV['F_7]_2 := \col_i (if i == 0 then 2%:R else 6%:R).
Lemma offsets_7E : invmx M *m const_7 = offsets_7.
Proof.
rewrite -[RHS](mulKmx M_unit); congr (_ *m _).
by apply/colP; apply: o2; rewrite !mxE !big_ord_recl !big_ord0 !mxE; apply/eqP; vm_compute.
Qed.
Lemma pow5_bij : bijective (fun z : 'F_7 => z ^+ 5).
Proof.
have h (z : 'F_7) : z ^+ 5 ^+ 5 = z.
  by case: z => [[|[|[|[|[|[|[|m]]]]]]] hz] //; apply: val_inj; vm_compute.
by exists (fun z : 'F_7 => z ^+ 5) => z; rewrite h.
Qed.
Definition points_7 : seq 'F_7 := [seq i%:R | i <- iota 0 6].
Lemma points_7_uniq : uniq points_7. Proof. by vm_compute. Qed.
Lemma column_7 (j i : 'I_2) : M i j != 0.
Proof. by move: i j; apply: o2; apply: o2; rewrite mxE; vm_compute. Qed.

(** Along word 1 exactly the line on which word 0 is 0 *)
Example line_7 (x : 'cV['F_7]_2) :
  straight (fun z => full 5 M const_7 (full 5 M const_7 z)) x (delta_mx 1 0) <-> x 0 0 = 0.
Proof.
rewrite (@two_round_line _ 5 points_7 isT isT points_7_uniq erefl _ pow5_bij _ _ _ M_unit _ _ (column_7 1)) offsets_7E.
have E k : k != 1 :> 'I_2 -> k = 0 by move: k; apply: o2.
have A : (0 + const_7 0 0) ^+ 5 = - offsets_7 0 0 by rewrite !mxE; apply/eqP; vm_compute.
split=> [H|H k /E ->]; last by rewrite H.
have := H 0 isT; rewrite -A => B.
by have /addIr := bij_inj pow5_bij B.
Qed.
Example on_line_7 u : full 5 M const_7 (full 5 M const_7 (0 + u *: delta_mx 1 0)) =
  ((0 + 1 + u) ^+ 5 + 6%:R) ^+ 5 *: (M *m powers 5 (M *m delta_mx 1 0)).
Proof.
rewrite (@two_round_state _ 5 _ _ _ _ M_unit); first by rewrite offsets_7E !mxE.
move=> k; rewrite offsets_7E; move: k; apply: o2 => // _; rewrite !mxE; apply/eqP; vm_compute; reflexivity.
Qed.
(** One round: the line through (0, 1) along (1, 1) does not stay a line, that through (1, 1) does. *)
Example one_round_7 : ~ straight (powers 5) (\col_(i < 2) (i%:R : 'F_7)) (\col_i 1) /\ straight (powers 5) (\col_(i < 2) (1 : 'F_7)) (\col_i 1).
Proof.
split; rewrite (@power_line _ 5 points_7 isT isT points_7_uniq erefl).
  case=> u0 H; have := H 0; have := H 1; rewrite !mxE !mulr1 => /(_ isT) H1 /(_ isT) H0.
  by move: H0; rewrite -H1 => /addIr.
by exists (-1) => i _; rewrite !mxE mulr1 subrr.
Qed.
