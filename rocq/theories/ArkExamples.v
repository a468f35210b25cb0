(** Instances of C79. *)
From Coq Require Import String ZArith.
From mathcomp Require Import all_ssreflect all_algebra.
From Verif Require Import Base Fq PrimeField Cauchy PoseidonProps ArkSpec GenerateArk Properties_Ark.
Set Implicit Arguments.
Unset Strict Implicit.
Unset Printing Implicit Defensive.
Import GRing.Theory.
Local Open Scope ring_scope.
Local Open Scope rust_scope.

Local Notation F11 := [fieldType of 'F_11].

(** Ten rounds of two words over the field with eleven elements, constants 1, 2, 3, ...,
    matrix ((0, 1), (1, 0)): the constants of the two partial rounds are (9, 10) and (0, 1),
    the linear constants printed are (0, 10 + 0), the list of the others is 0, 1. *)
Definition count_rc (_ : string) (k : nat) : F11 := k.+1%:R.
Definition swap : 'M[F11]_2 := \matrix_(i, j) (i != j)%:R.
Lemma ord2 (i : 'I_2) : i = 0 \/ i = 1.
Proof. by case: i => -[|[|i]] // H; [left | right]; apply: val_inj. Qed.
Lemma swap_swap : swap *m swap = 1%:M.
Proof.
apply/matrixP => i j; rewrite !mxE !big_ord_recl big_ord0 !mxE.
by case: (ord2 i) => ->; case: (ord2 j) => ->; apply: val_inj; vm_compute.
Qed.
Lemma swap_unit : swap \in unitmx.
Proof. by case/mulmx1_unit: swap_swap. Qed.
Lemma swap_inv : invmx swap = swap.
Proof. by rewrite -[RHS](mulKmx swap_unit) swap_swap mulmx1. Qed.

Example ark_10 : exists out, [/\ generate_ark count_rc 10 true 2 (Some swap) = Ret out,
  exists l, [/\ a_linear out = Some l, l 0 0 = 0 & l 1 0 = 10%:R] &
  a_words out = [:: 0; 1]].
Proof.
rewrite C79_values swap_unit /=; eexists; split; [by []| |].
  eexists; split; [by []| |]; rewrite !big_ord_recl big_ord0 expr0 mul1mx expr1 swap_inv.
    by rewrite !mxE; apply: val_inj; vm_compute.
  by rewrite !mxE !big_ord_recl big_ord0 !mxE; apply: val_inj; vm_compute.
rewrite [a_words _]/= expr1 swap_inv !mxE !big_ord_recl big_ord0 !mxE; congr (_ :: _ :: _); by apply: val_inj; vm_compute.
Qed.

(** Three partial rounds need eleven rounds *)
Example ark_short : generate_ark count_rc 10 true 3 (Some swap) = Panic.
Proof. by rewrite C79_values andbF. Qed.
Example ark_singular : generate_ark count_rc 12 true 3 (Some (0 : 'M[F11]_2)) = Panic.
Proof. by rewrite C79_values unitmxE det0 unitr0. Qed.

(** The numbers of rounds of the shipped parameters, and their matrix for rate 2 *)
Example shipped_wrong : exists rc out l,
  [/\ generate_ark rc 39 true 31 (Some (cauchy_mx Fq_fieldType 3)) = Ret out, a_linear out = Some l &
    forall w : nat -> Fq, (forall k, (2 < k)%N -> w k = nth 0 (a_words out) k) ->
    ~ forall x, moved_rounds (fun y => y ^+ 17) (cauchy_mx Fq_fieldType 3) l w 31 x =
      partial_rounds (fun y => y ^+ 17) (cauchy_mx Fq_fieldType 3) (fun i => round_constants 2 rc (4 + i)) 31 x].
Proof.
apply: C79_field_refuted => //; apply: cauchy_mds => m Hm.
by apply: Shipped.small_Fq; case/andP: Hm => -> H9; apply: leq_trans H9 _.
Qed.
