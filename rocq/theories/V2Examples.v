(** Concrete instances for the properties in [Properties_V2.v]. *)
From Coq Require Import ZArith NArith.
From mathcomp Require Import all_ssreflect all_algebra.
From Verif Require Import Base Fq Matrix MatrixSpec MatrixProofs MatrixExamples Params Permutation Spec PoseidonExamples.
From Verif Require Import PrimeField Alpha Transcript Cauchy Mds V1 V2 V2Spec V2Proofs V2Rounds Rounds GenerateExamples InverseSpec InverseProofs.
Import GRing.Theory.
Local Open Scope ring_scope.
Delimit Scope Z_scope with Z.

(** C45: the matrices of the code, entry by entry *)
Example internal_2 : showm (internal_generate Fq_fieldType 2) = Ret (2%N, 2%N, [:: 2; 1; 1; 3]%Z).
Proof. by vm_compute. Qed.
Example internal_3 : showm (internal_generate Fq_fieldType 3) = Ret (3%N, 3%N, [:: 2; 1; 1; 1; 2; 1; 1; 1; 3]%Z).
Proof. by vm_compute. Qed.
Example internal_4 : internal_generate Fq_fieldType 4 = Panic.
Proof. by []. Qed.
Example external_4 : showm (external_generate Fq_fieldType 4) =
  Ret (4%N, 4%N, [:: 5; 7; 1; 3; 4; 6; 1; 1; 1; 3; 5; 7; 1; 1; 4; 6]%Z).
Proof. by vm_compute. Qed.
Example external_8 : showm (external_generate Fq_fieldType 8) = Ret (8%N, 8%N,
  [:: 10; 14; 2; 6; 5; 7; 1; 3;
      8; 12; 2; 2; 4; 6; 1; 1;
      2; 6; 10; 14; 1; 3; 5; 7;
      2; 2; 8; 12; 1; 1; 4; 6;
      5; 7; 1; 3; 10; 14; 2; 6;
      4; 6; 1; 1; 8; 12; 2; 2;
      1; 3; 5; 7; 2; 6; 10; 14;
      1; 1; 4; 6; 2; 2; 8; 12]%Z).
Proof. by vm_compute. Qed.
Example external_6_3 : external_generate Fq_fieldType 6 = Panic /\ external_generate Fq_fieldType 3 = Panic.
Proof. by []. Qed.
(** In characteristic 5 the internal matrix of width 2 is singular, that of width 3 is not. *)
Example internal_F5 : internal_generate [fieldType of 'F_5] 2 = Panic /\ internal_generate [fieldType of 'F_5] 3 <> Panic.
Proof. by rewrite !internal_generateE. Qed.
(** In characteristic 3 the external matrix of width 4 is invertible, that of width 8 is not. *)
Example external_F3 : M4 [fieldType of 'F_3] \in unitmx /\ external_mx [fieldType of 'F_3] 2 \notin unitmx.
Proof. by rewrite M4_unit external_unit. Qed.

(** C53: the permutation of a two-word state with the S-box 1/x, on a state where it is defined. *)
Example tiny_inverse_runs : exists s, showst (unoptimized_permute (tiny Inverse 1 2) (els [:: 1; 2]%Z)) = Ret s.
Proof. by eexists; vm_compute. Qed.

(** C54: for width 2, (28, 6) and x^17 the binomial coefficients are those of 83 over at most 45;
    they reach 2^63. *)
Example bounds_2 : v2_upper 2 17 (RoundNumbers 28 6) = 83%N /\ v2_lower 2 17 (RoundNumbers 28 6) = 45%N.
Proof. by []. Qed.
Example reached_2 : reached 128 'C(83, 21) /\ ~~ reached 128 'C(83, 20).
Proof. by split; rewrite /reached zbinP; vm_compute. Qed.
