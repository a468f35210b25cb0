(** C77: the branch number of the external matrix of Poseidon2.
    Statements only; proofs in [ExternalBranch.v]; instances in [BranchExamples.v].
    [branch_number M b] is defined in [BranchSpec.v] from [wt] of [ActiveSpec.v]. *)
From Coq Require Import ZArith.
From mathcomp Require Import all_ssreflect all_algebra.
From Verif Require Import Base Fq Matrix MatrixSpec ActiveSpec BranchSpec V2 V2Spec ExternalBranch.
Import GRing.Theory.
Local Open Scope ring_scope.

Theorem C77_M4 (F : fieldType) : (forall m, (0 < m <= 64)%N -> m%:R != 0 :> F) -> branch_number (M4 F) 5.
Proof. exact (@M4_branch_number F). Qed.
Print Assumptions C77_M4.

Theorem C77_external (F : fieldType) (d : nat) : (0 < d)%N ->
  (forall m, (0 < m <= maxn 64 d.+1)%N -> m%:R != 0 :> F) -> branch_number (external_mx F d) (minn (d + 4) 10).
Proof. exact (@external_branch_number F d). Qed.
Print Assumptions C77_external.

Theorem C77_generated (F : fieldType) (t : nat) (m : rmat F) :
  (forall k, (0 < k <= maxn 64 (t %/ 4).+1)%N -> k%:R != 0 :> F) ->
  external_generate F t = Ret m -> branch_number (toM t t m) (minn (t %/ 4 + 4) 10).
Proof. exact (@generated_branch F t m). Qed.
Print Assumptions C77_generated.

Theorem C77_Fq (t : nat) : (Z.of_nat t < q)%Z -> (3 < t)%N -> (t %% 4 == 0)%N ->
  exists2 m, external_generate Fq_fieldType t = Ret m & branch_number (toM t t m) (minn (t %/ 4 + 4) 10).
Proof. exact (@Fq_branch t). Qed.
Print Assumptions C77_Fq.

Theorem C77_blocks_and_four (t : nat) : (3 < t)%N -> (t %% 4 == 0)%N ->
  (minn (t %/ 4 + 4) 10 == t %/ 4 + 4)%N = (t <= 24)%N.
Proof. exact (@branch_blocks t). Qed.
Print Assumptions C77_blocks_and_four.
