(** [lia] for goals and hypotheses in the vocabulary of ssrnat. *)
From Coq Require Import ZArith Lia.
From mathcomp Require Import all_ssreflect.
Set Implicit Arguments.
Unset Strict Implicit.
Unset Printing Implicit Defensive.

Ltac slia :=
  intros;
  repeat match goal with
  | H : is_true (andb _ _) |- _ => case/andP: H => ? ?
  | H : is_true (leq _ _) |- _ => apply (elimT leP) in H
  | H : is_true (negb (leq _ _)) |- _ => rewrite -ltnNge in H
  | H : is_true (@eq_op _ _ _) |- _ => apply (elimT eqP) in H
  | H : is_true (negb (@eq_op _ _ _)) |- _ => move/eqP: H => H
  | H : leq _ _ = false |- _ => apply negbT in H; rewrite -ltnNge in H
  | H : context [?a == ?b] |- _ => move: H; case: (a =P b) => ? H
  | |- is_true (andb _ _) => apply/andP; split
  | |- is_true (leq _ _) => apply (introT leP)
  | |- is_true (negb (leq _ _)) => rewrite -ltnNge
  | |- is_true (@eq_op _ _ _) => apply (introT eqP)
  | |- is_true (negb (@eq_op _ _ _)) => apply/eqP
  | |- @eq bool _ _ => apply/idP/idP; intros
  end;
  rewrite -?plusE -?minusE -?multE;
  repeat match goal with
  | H : context [addn] |- _ => rewrite -plusE in H
  | H : context [subn] |- _ => rewrite -minusE in H
  | H : context [muln] |- _ => rewrite -multE in H
  end;
  lia.

Example slia_works (a b c : nat) : a + b < c -> c <= 5 -> b == 3 -> 2 * a <= 2.
Proof. slia. Qed.
