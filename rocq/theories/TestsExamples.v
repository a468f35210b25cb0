(** Instances of C72: the tests can fail, and the hypotheses on the fields can be met. *)
From Coq Require Import ZArith NArith String.
From mathcomp Require Import all_ssreflect all_algebra.
From Verif Require Import Base Fq Matrix Params PrimeField Bytes V2 Tests TestsProofs TestsParamgen TestPrimes GrainPrimes.
Set Implicit Arguments.
Unset Strict Implicit.
Unset Printing Implicit Defensive.
Import GRing.Theory.
Local Open Scope ring_scope.
Delimit Scope Z_scope with Z.

(** A wrong expected value is noticed. *)
Example wrong_entry : (bind (@mnew Fq_fieldType 2 2 4 (map Fq_of_Z [:: 1; 2; 3; 4]%Z))
  (fun m => assert_rows (Fq_of_Z : Z -> Fq_fieldType) m [:: [:: 1; 2]; [:: 3; 5]]%Z)) = Panic.
Proof. by vm_compute. Qed.
Example wrong_det : assert_det 2 (map Fq_of_Z [:: 1; 2; 3; 4]%Z) (Fq_of_Z 2) = Panic.
Proof. by vm_compute. Qed.
(** Two singular matrices that the strategy of [inverse_2x2] draws, and one that is not. *)
Example ones_fail : proptest_inverse_2x2 (nseq 16 255%num) (nseq 16 255%num) (nseq 16 255%num) (nseq 16 255%num) = Panic.
Proof. by rewrite pp_inverse_2x2. Qed.
Example one_two_three_four : proptest_inverse_2x2 [:: 1]%num [:: 2]%num [:: 3]%num [:: 4]%num = Ret tt.
Proof. by rewrite pp_inverse_2x2. Qed.

(** The moduli of the two other curves are prime, so the fields of the tests exist. *)
Lemma field_of (p : Z) : prime (Z.to_nat p) -> exists PF : prime_field, pf_p PF = p.
Proof. by move=> h; exists (Fp_pf h); rewrite /= Z2Nat.id //; case: p h. Qed.
Example fields_exist : (exists PF : prime_field, pf_p PF = p381) /\ (exists PF : prime_field, pf_p PF = p254).
Proof.
split; apply: field_of.
  exact: prime_52435875175126190479447740508185965837690552500527637822603658699938581184513.
exact: prime_21888242871839275222246405745257275088696311157297823662689037894645226208583.
Qed.
Example alpha_tests : exists Fq381 Fq254 : prime_field, [/\ pf_p Fq381 = p381, pf_p Fq254 = p254 & test_check_alpha_5 Fq381 Fq254 = Ret tt].
Proof.
by have [[F1 h1] [F2 h2]] := fields_exist; exists F1, F2; split=> //; apply: t_check_alpha_5.
Qed.
(** Over the field with five elements the internal matrix of width 2 is singular: the hypothesis is needed. *)
Example internal_2_over_5 : test_internal_matrix_t_equals_2 (@Fp_pf 5 isT) = Panic.
Proof. by rewrite /test_internal_matrix_t_equals_2 V2Proofs.internal_generateE. Qed.
