(** Instances of C78. *)
From Coq Require Import ZArith.
From mathcomp Require Import all_ssreflect all_algebra.
From Verif Require Import Fq V2Spec V2Proofs TrailsSpec TrailsShipped IrreducibleSpec Irreducible Properties_Irreducible.
Set Implicit Arguments.
Unset Strict Implicit.
Unset Printing Implicit Defensive.
Import GRing.Theory.
Local Open Scope ring_scope.

(** The matrix ((0, 1), (3, 1)) over the field with eleven elements meets the condition
    for all periods up to 8 = 4 t. *)
Local Notation F11 := [fieldType of 'F_11].
Definition powers : seq (seq (seq nat)) :=
  [:: [:: [:: 1; 0]; [:: 0; 1]]; [:: [:: 0; 1]; [:: 3; 1]]; [:: [:: 3; 1]; [:: 3; 4]]; [:: [:: 3; 4]; [:: 1; 7]];
      [:: [:: 1; 7]; [:: 10; 8]]; [:: [:: 10; 8]; [:: 2; 7]]; [:: [:: 2; 7]; [:: 10; 9]];
      [:: [:: 10; 9]; [:: 5; 8]]; [:: [:: 5; 8]; [:: 2; 2]]]%N.
Definition entry r i j : nat := nth 0%N (nth [::] (nth [::] powers r) i) j.
Definition power_mx r : 'M[F11]_2 := \matrix_(i, j) (entry r i j)%:R.

Lemma ord2 (i : 'I_2) : i = 0 \/ i = 1.
Proof. by case: i => -[|[|i]] // H; [left | right]; apply: val_inj. Qed.
Lemma power_mxS r : (r < 8)%N -> power_mx r.+1 = power_mx 1 *m power_mx r.
Proof.
move=> r8; apply/matrixP => i j; rewrite !mxE !big_ord_recl big_ord0 !mxE.
by case: (ord2 i) => ->; case: (ord2 j) => ->; case: r r8 => [|[|[|[|[|[|[|[|r]]]]]]]] // _; apply: val_inj; vm_compute.
Qed.
Lemma power_mxE r : (r <= 8)%N -> power_mx 1 ^+ r = power_mx r.
Proof.
elim: r => [_|r IH r8]; last by rewrite exprS IH ?(ltnW r8) // (power_mxS r8).
by rewrite expr0; apply/matrixP => i j; rewrite !mxE; case: (ord2 i) => ->; case: (ord2 j) => ->; apply: val_inj; vm_compute.
Qed.
Lemma power_irreducible r : (0 < r <= 8)%N -> minpoly_irreducible (power_mx 1 ^+ r).
Proof.
move=> /andP [r0 r8]; rewrite power_mxE //; apply/C78_characteristic_polynomial; apply: cubic_irreducible => [|a].
  by rewrite size_char_poly.
rewrite -eigenvalue_root_char /eigenvalue /eigenspace kermx_eq0 row_free_unit unitmxE unitfE negbK.
have -> : power_mx r - a%:M = \matrix_(i < 2, j < 2) ((entry r i j)%:R - (if (i == j :> nat) then a else 0)).
  by apply/matrixP => i j; rewrite !mxE; case: (ord2 i) => ->; case: (ord2 j) => ->; rewrite ?mulr1n ?mulr0n.
rewrite (ldetP 2 (fun i j => (entry r i j)%:R - (if i == j then a else 0))).
case: r r0 r8 => [|[|[|[|[|[|[|[|[|r]]]]]]]]] // _ _;
  by case: a => -[|[|[|[|[|[|[|[|[|[|[|a]]]]]]]]]]] // H; vm_compute.
Qed.
Example irreducible_11 : trail_free (power_mx 1) 8.
Proof. exact: (@C78_trails F11 1 _ 8 power_irreducible). Qed.

(** The condition is not necessary: the internal matrix of width 2 over the project's field
    has no trails and does not meet it. *)
Example sufficient_only : trail_free (internal_mx Fq_fieldType 2) 8 /\ ~ minpoly_irreducible (internal_mx Fq_fieldType 2).
Proof.
split; first (have H := @internal_trail_free 1%N isT; exact H).
by rewrite -[X in minpoly_irreducible X]expr1; have H := @C78_internal 1%N 1%N isT; exact H.
Qed.
