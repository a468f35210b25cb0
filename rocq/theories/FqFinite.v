(** The field of the project as a finite field. *)
From Coq Require Import ZArith Lia.
From mathcomp Require Import all_ssreflect all_algebra.
From Verif Require Import Fq.
Set Implicit Arguments.
Unset Strict Implicit.
Unset Printing Implicit Defensive.
Delimit Scope Z_scope with Z.

(** The order less one; opaque *)
Lemma order_pred : {n | Z.of_nat n.+1 = q}.
Proof.
exists (Z.to_nat (q - 1)); have := (isT : (1 <? q)%Z) => /Z.ltb_lt q1.
by move: q q1 => n n1; rewrite Nat2Z.inj_succ Z2Nat.id; lia.
Qed.
Definition Nq : nat := sval order_pred.
Lemma NqE : Z.of_nat Nq.+1 = q. Proof. exact: (svalP order_pred). Qed.
Definition Fq_code (x : Fq) : 'I_Nq.+1 := inord (Z.to_nat (fval x)).
Definition Fq_decode (i : 'I_Nq.+1) : Fq := Fq_of_Z (Z.of_nat i).
Lemma Fq_codeK : cancel Fq_code Fq_decode.
Proof.
move=> x; rewrite /Fq_decode /Fq_code inordK.
  by rewrite Z2Nat.id ?Fq_of_Z_val //; exact: (fvalP x).1.
have := fvalP x; rewrite -NqE => R; apply/ltP; lia.
Qed.
Definition Fq_countMixin := CanCountMixin Fq_codeK.
Canonical Fq_countType := CountType Fq Fq_countMixin.
Definition Fq_finMixin := CanFinMixin Fq_codeK.
Canonical Fq_finType := FinType Fq Fq_finMixin.
Canonical Fq_finFieldType := Eval hnf in [finFieldType of Fq].

Lemma Fq_card : Z.of_nat #|[finType of Fq]| = q.
Proof.
rewrite -NqE; congr Z.of_nat; rewrite -[RHS]card_ord.
apply: (bij_eq_card (f := Fq_code)); exists Fq_decode; first exact: Fq_codeK.
move=> i; apply: val_inj; rewrite /Fq_code /Fq_decode /=.
rewrite Z.mod_small ?Nat2Z.id ?inordK //.
split; first exact: Nat2Z.is_nonneg.
by rewrite -NqE; apply/Nat2Z.inj_lt/ltP.
Qed.
