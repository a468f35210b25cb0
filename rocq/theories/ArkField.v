(** The refutation over the field of the project, with x^17 and any MDS matrix. *)
From Coq Require Import ZArith String.
From mathcomp Require Import all_ssreflect all_algebra.
From Verif Require Import Base Fq PrimeField Cauchy SBox PoseidonProps GenerateMdsNear ExternalBranch.
From Verif Require Import ArkSpec GenerateArk GenerateArkProofs.
Set Implicit Arguments.
Unset Strict Implicit.
Unset Printing Implicit Defensive.
Import GRing.Theory.
Local Open Scope ring_scope.
Local Open Scope rust_scope.

Lemma pow17_curved : exists y z : Fq, (y + 1) ^+ 17 - y ^+ 17 <> (z + 1) ^+ 17 - z ^+ 17.
Proof.
exists 0, 1; rewrite add0r expr1n expr0n subr0 -[1 + 1]/(2%:R) => /eqP.
rewrite eq_sym subr_eq -subr_eq0 -natrX -[1 + 1]/(2%:R) -natrB; last by rewrite -{1}(expn1 2) leq_exp2l.
by apply/negP; apply: nonzero_Fq => //; rewrite subn_gt0 -{1}(expn1 2) ltn_exp2l.
Qed.

Theorem ark_wrong_Fq n N R (M : 'M[Fq]_n.+2) : mds_mx M -> (2 < R)%N -> (R + 8 <= N)%N ->
  exists rc out l, [/\ generate_ark rc N true R (Some M) = Ret out, a_linear out = Some l &
    forall w : nat -> Fq, (forall k, (2 < k)%N -> w k = nth 0 (a_words out) k) ->
    ~ forall x, moved_rounds (fun y => y ^+ 17) M l w R x =
      partial_rounds (fun y => y ^+ 17) M (fun i => round_constants n.+1 rc (4 + i)) R x].
Proof.
move=> m R2 RN; have E i j : M i j != 0 by apply/eqP => /zero_not_mds /(_ m).
apply: (@ark_wrong _ _ (fun y : Fq => y ^+ 17) M N R ord_max ord_max (mds_unit m) R2 RN (bij_inj pow17_bij)) => //.
exact: pow17_curved.
Qed.
