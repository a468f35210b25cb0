(** The script's count of S-boxes and the constraints of the gadget. *)
From Coq Require Import ZArith NArith Lia.
From mathcomp Require Import all_ssreflect all_algebra.
From Verif Require Import Base Fq Params Rounds RoundsSpec CalcRounds CalcSpec CalcProps.
From Verif Require Import Hash R1cs R1csSpec R1csHash R1csProps RateChecks PoseidonProps Shipped.
Set Implicit Arguments.
Unset Strict Implicit.
Unset Printing Implicit Defensive.
Local Notation FqVar := (fpvar Fq_fieldType).

Section Cost.
Variables (lm : libm) (es : Fq_fieldType -> outcome FqVar) (p : params Fq_fieldType).
Hypotheses (acc : accurate lm) (accl : accurate_ln lm) (hp : List.In p shipped).
Variables (cs : csys Fq_fieldType) (ws : seq FqVar).
Hypotheses (wcs : wf_csys cs) (wws : all (wf_var cs) ws) (sz : size ws = p_t p) (hv : all (@is_var _) ws).

Theorem script_constraints : exists S,
  calc_final_numbers_fixed lm q (Z.of_nat (p_t p)) 17 128 true =
    Ret (r_F (p_rounds p), r_P (p_rounds p), Z.of_nat S, (253 * Z.of_nat S)%Z) /\
  gadget_cost cs (r1cs_n_to_1_fixed_hash es p cs ws) (5 * S).
Proof.
have [ht /andP[t1 t7] _ _ hr] := shipped_spec hp.
have Ht : 2 <= p_t p <= 8 by rewrite ht add1n !ltnS t1.
exists (8 * p_t p + 31); split; first by rewrite hr; exact: script_17.
have hv' : has (@is_var _) ws.
  by case: (ws) sz hv => [/= h|w l _ /= /andP[-> //]]; rewrite -h in Ht.
have := @shipped_cost _ hp es _ _ wcs wws sz hv'.
have -> : count (@is_var _) ws = p_t p by apply/eqP; rewrite -sz -all_count.
by rewrite -[8]/(1 + 7) mulnDl mul1n.
Qed.
End Cost.
