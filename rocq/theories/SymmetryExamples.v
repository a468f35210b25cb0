(** Symmetries that do exist. *)
From mathcomp Require Import all_ssreflect all_algebra.
From Verif Require Import Cauchy SymmetrySpec Symmetry.
Set Implicit Arguments.
Unset Strict Implicit.
Unset Printing Implicit Defensive.
Import GRing.Theory.
Local Open Scope ring_scope.

(** One round alone carries every multiple with a suitable offset. *)
Example one_round (F : fieldType) t e (M : 'M[F]_t) c (l : F) :
  carries (full e M c) l%:M (l *: c - c) (l ^+ e)%:M 0.
Proof.
move=> x; rewrite /full addr0 !mul_scalar_mx -addrA subrK -scalerDr scalemxAr; congr (_ *m _).
by apply/colP => i; rewrite !mxE exprMn.
Qed.
(** With constants 0 in the second round it passes through both. *)
Example zero_constants (F : fieldType) t e (M : 'M[F]_t) c (l : F) :
  carries (full e M c) l%:M (l *: c - c) (l ^+ e)%:M 0 /\ carries (full e M 0) (l ^+ e)%:M 0 (l ^+ e ^+ e)%:M 0.
Proof.
split; first exact: one_round.
have := one_round e M 0 (l ^+ e); rewrite scaler0 subr0; exact.
Qed.

(** A partial round carries the translations that leave the first word; where the image leaves
    it too, they pass through two partial rounds. *)
Example partial_translation (F : fieldType) n e (M : 'M[F]_n.+1) c (v : 'cV[F]_n.+1) :
  v 0 0 = 0 -> carries (partial e M c) 1%:M v 1%:M (M *m v).
Proof.
move=> v0 x; rewrite /partial !mul1mx -mulmxDr; congr (_ *m _); apply/colP => i; rewrite !mxE.
by case: eqP => [->|_]; [rewrite v0 !addr0 | rewrite addrAC].
Qed.
Example two_partial (F : fieldType) n e (M : 'M[F]_n.+1) c c' (v : 'cV[F]_n.+1) :
  v 0 0 = 0 -> (M *m v) 0 0 = 0 ->
  carries (partial e M c) 1%:M v 1%:M (M *m v) /\ carries (partial e M c') 1%:M (M *m v) 1%:M (M *m (M *m v)).
Proof. by move=> v0 Mv0; split; apply: partial_translation. Qed.

(** At width 2 with constants whose squares have quotient 2, here 3 and 1 modulo 7, exchanging
    the words with factors 3 and 5 passes through any number of rounds with x^5. *)
Definition swap_7 : 'M['F_7]_2 := \matrix_(i, j) (if i == j then 0 else if i == 0 then 3%:R else 5%:R).
Definition const_7 : 'cV['F_7]_2 := \col_i (if i == 0 then 3%:R else 1).
Lemma o2 (P : 'I_2 -> Prop) : P 0 -> P 1 -> forall i, P i.
Proof.
move=> p0 p1 i; have [->|->] // : i = 0 \/ i = 1.
by case: i => [[|[|m]] h] //; [left | right]; apply: val_inj.
Qed.
Example swap_symmetry : carries (full 5 (cauchy_mx _ 2) const_7) swap_7 0 swap_7 0.
Proof.
pose d (i : 'I_2) : 'F_7 := if i == 0 then 3%:R else 5%:R.
pose f (i : 'I_2) : 'I_2 := if i == 0 then 1 else 0.
have AE : swap_7 = mono f d.
  by apply/matrixP; apply: o2; apply: o2; rewrite !mxE.
have fixed : swap_7 *m const_7 = const_7.
  by apply/colP; rewrite AE; apply: o2; rewrite mono_col !mxE; apply/eqP; vm_compute.
have E : cauchy_mx _ 2 *m mono f (fun i => d i ^+ 5) = swap_7 *m cauchy_mx _ 2.
  by apply/matrixP; apply: o2; apply: o2; rewrite !mxE !big_ord_recl !big_ord0 !mxE; apply/eqP; vm_compute.
move=> x; rewrite /full !addr0 -{1}fixed -mulmxDr mulmxA -E -mulmxA; congr (_ *m _).
by apply/colP => i; rewrite powersE AE !mono_col exprMn powersE.
Qed.
Example swap_constants : (const_7 0 0 ^+ 2 == 2%:R * const_7 1 0 ^+ 2) && (swap_7 != 1%:M).
Proof. by apply/andP; split; [rewrite !mxE | apply/eqP => /matrixP /(_ 0 0); rewrite !mxE]. Qed.
