(** Concrete instances of C70. *)
From Coq Require Import ZArith NArith.
From mathcomp Require Import all_ssreflect all_algebra.
From Verif Require Import Base Matrix MatrixSpec Params Permutation Spec PrimeField Mds.
From Verif Require Sage.
From Verif Require Import PermutationProofs GrainTables GrainTheorems VendoredTables VendoredPerm VendoredTheorems.
Set Implicit Arguments.
Unset Strict Implicit.
Unset Printing Implicit Defensive.
Import GRing.Theory.
Delimit Scope Z_scope with Z.
Local Open Scope ring_scope.

(** C70_test_vectors is not empty: the field exists, and the file's words come out. *)
Example bls12_381_vector : exists PF : prime_field,
  pf_p PF = 0x73eda753299d7d483339d80809a1d80553bda402fffe5bfeffffffff00000001%Z /\
  omap (map (@pf_to PF)) (x5_perm 8 57 (v_matrix_field PF x5_255_3 3) (v_constants_field PF x5_255_3) [:: pf_of PF 0; pf_of PF 1; pf_of PF 2]) =
  Ret [:: 0x28ce19420fc246a05553ad1e8c98f5c9d67166be2c18e9e4cb4b4e317dd2a78a%Z;
          0x51f3e312c95343a896cfd8945ea82ba956c1118ce9b9859b6ea56637b4b1ddc4%Z;
          0x3b2b69139b235626a0bfb56c9527ae66a7bf486ad8c11c14d1da0c69bbe0f79a%Z].
Proof.
have VI : List.In x5_255_3 vendored_scripts by do 2 right; left.
have [PF pE] := vendored_fields VI; exists PF; split; first by rewrite pE; vm_cast_no_check (erefl (v_prime x5_255_3)).
have [E1 E2] := @script_vector vector_x5_255_3 PF 2 (or_introl erefl) pE erefl.
exact (etrans (congr1 (omap (map (@pf_to PF))) E1) (congr1 (@Ret _) E2)).
Qed.

(** The closing assertion of the x^3 script (287) on its input (0, 1, ..., 23). *)
Example x3_closing_assertion : exists PF : prime_field, pf_p PF = (2 ^ 64 - 2 ^ 8 - 1)%Z /\
  let M := v_matrix_field PF x3_64_24_optimized (1 + 23) in let rc := v_constants_field PF x3_64_24_optimized in
  let input : 'rV[PF]_(1 + 23) := \row_i i%:R in
  Sage.perm 3 8 42 M rc input = Ret (Sage.perm_original 3 8 42 M rc input).
Proof.
have VI : List.In x3_64_24_optimized vendored_scripts by do 4 right; left.
have [PF pE] := vendored_fields VI; exists PF; split; first by rewrite pE; vm_cast_no_check (erefl (v_prime x3_64_24_optimized)).
by move=> M rc input; exact (x3_assert pE input).
Qed.

(** A case worked by hand: one word, one full, one partial, one full round over any field. *)
Example one_word (F : fieldType) (a b c m x : F) :
  x5_perm 2 1 (m%:M : 'M[F]_1) [:: a; b; c] [:: x] = Ret [:: m * (m * (m * (x + a) ^+ 5 + b) ^+ 5 + c) ^+ 5].
Proof.
have E (y : 'cV[F]_1) : ofV y = [:: y 0 0].
  apply: (@eq_from_nth _ 0) => [|i]; rewrite size_ofV // ltnS leqn0 => /eqP ->.
  by rewrite -[0%N]/(val (0 : 'I_1)) nth_ofV.
rewrite x5_perm_cases // E; congr (Ret [:: _]).
by rewrite /poseidon /= /full_round /partial_round !mul_scalar_mx !mxE.
Qed.
(** With one constant less the script raises ... *)
Example too_few_constants (F : fieldType) (a b m x : F) : x5_perm 2 1 (m%:M : 'M[F]_1) [:: a; b] [:: x] = Panic.
Proof. by rewrite x5_perm_cases. Qed.
(** ... and so it does on an input with too few words. *)
Example too_few_words (F : fieldType) : x5_perm 2 1 (1%:M : 'M[F]_2) [:: 1; 1; 1; 1; 1; 1] [:: 0] = Panic.
Proof. by []. Qed.
