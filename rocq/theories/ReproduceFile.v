(** The parameter file compiled for Fq, 128 bits and widths 2..8 is a program whose
    functions return the shipped parameter sets. *)
From Coq Require Import ZArith NArith Ascii String.
From mathcomp Require Import all_ssreflect all_algebra.
From Verif Require Import Base Fq Matrix Params Bytes PrimeField Transcript V1 Rounds RoundsSpec.
From Verif Require Import RateChecks Shipped Build BuildSpec BuildProofs BuildFile BuildGen Strobe MerlinShipped Reproduce.
Set Implicit Arguments.
Unset Strict Implicit.
Unset Printing Implicit Defensive.

Theorem reproduced_file lm allow : accurate lm ->
  exists code,
    v1_compile (fun t => v1_generate Fq_pf merlin128 (log2 lm) (v1_rounds lm) 128 t q 4 allow) (iota 2 7) = Ret code /\
    forall p, List.In p shipped -> run_file Fq_pf code (str "rate_" ++ display_usize (p_t1 p)) = Some p.
Proof.
move=> acc.
have [H _] := @generated_file_exists lm Fq_pf merlin128 128 4 allow (iota 2 7).
have [t|code E] := H _.
  rewrite mem_iota => ht; have [p [_ _ E]] := @reproduced_widths lm allow t acc ht.
  by rewrite [X in X <> _]E.
exists code; split; first exact: E.
move=> p hp; have [ht ht1 _ _ _] := shipped_spec hp.
have tin : p_t p \in iota 2 7 by rewrite mem_iota ht; move: ht1 => /andP [h1 h2]; rewrite !ltnS h1 h2.
have [P [E1 E2]] := @generated_file lm Fq_pf merlin128 128 4 allow (iota 2 7) code E isT _ tin.
have E3 := reproduced allow acc hp; rewrite [X in X = _]E1 in E3; case: E3 => E3; subst P.
by rewrite -[X in display_usize X]/(1 + p_t1 p).-1 -ht.
Qed.
