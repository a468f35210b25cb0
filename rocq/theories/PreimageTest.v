(** The constants of the circuit of the tests. *)
From Coq Require Import ZArith.
From mathcomp Require Import all_ssreflect all_algebra.
From Verif Require Import Base Fq R1cs R1csSpec Preimage PreimageSpec PreimageProofs.
Set Implicit Arguments.
Unset Strict Implicit.
Unset Printing Implicit Defensive.

Lemma domain_sep_666 : DOMAIN_SEP = Fq_of_Z 666%Z.
Proof. by apply/val_inj; vm_compute. Qed.
Lemma test_circuit_runs (es : Fq_fieldType -> outcome (fpvar Fq_fieldType)) setup :
  exists cs, generate_constraints es test_circuit (new_cs _ setup) = Ret cs.
Proof. exact: (preimage_runs es setup (c := test_circuit) isT). Qed.
