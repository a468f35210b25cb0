(** Model of /repo/poseidon377/src/r1cs.rs:1-113.  [SynthesisError] is never
    constructed, so the functions return [Ok] of what
    [InstanceVar::n_to_1_fixed_hash] returns; the model leaves the [Ok] out. *)
From mathcomp Require Import all_ssreflect all_algebra.
From Verif Require Import Base Fq Matrix Params R1cs Montgomery.
From Verif Require Import Rate1 Rate2 Rate3 Rate4 Rate5 Rate6 Rate7.
Set Implicit Arguments.
Unset Strict Implicit.
Unset Printing Implicit Defensive.

Section Hash.
(** Behaviour of the external [Sum] of no variable, see [R1cs.v]. *)
Variable empty_sum : Fq_fieldType -> outcome (fpvar Fq_fieldType).
Local Notation FqVar := (fpvar Fq_fieldType).
Local Notation csys := (csys Fq_fieldType).
Local Notation run p cs input := (r1cs_n_to_1_fixed_hash empty_sum p cs input).

(** r1cs.rs:7-17 *)
Definition r1cs_hash_1 (cs : csys) (domain_separator v0 : FqVar) : outcome (FqVar * csys) :=
  run RATE_1_PARAMS cs [:: domain_separator; v0].
(** r1cs.rs:19-29 *)
Definition r1cs_hash_2 (cs : csys) (domain_separator : FqVar) (value : FqVar * FqVar)
    : outcome (FqVar * csys) :=
  let: (v0, v1) := value in
  run RATE_2_PARAMS cs [:: domain_separator; v0; v1].
(** r1cs.rs:31-41 *)
Definition r1cs_hash_3 (cs : csys) (domain_separator : FqVar) (value : FqVar * FqVar * FqVar)
    : outcome (FqVar * csys) :=
  let: (v0, v1, v2) := value in
  run RATE_3_PARAMS cs [:: domain_separator; v0; v1; v2].
(** r1cs.rs:43-53 *)
Definition r1cs_hash_4 (cs : csys) (domain_separator : FqVar) (value : FqVar * FqVar * FqVar * FqVar)
    : outcome (FqVar * csys) :=
  let: (v0, v1, v2, v3) := value in
  run RATE_4_PARAMS cs [:: domain_separator; v0; v1; v2; v3].
(** r1cs.rs:55-72 *)
Definition r1cs_hash_5 (cs : csys) (domain_separator : FqVar)
    (value : FqVar * FqVar * FqVar * FqVar * FqVar) : outcome (FqVar * csys) :=
  let: (v0, v1, v2, v3, v4) := value in
  run RATE_5_PARAMS cs [:: domain_separator; v0; v1; v2; v3; v4].
(** r1cs.rs:74-92 *)
Definition r1cs_hash_6 (cs : csys) (domain_separator : FqVar)
    (value : FqVar * FqVar * FqVar * FqVar * FqVar * FqVar) : outcome (FqVar * csys) :=
  let: (v0, v1, v2, v3, v4, v5) := value in
  run RATE_6_PARAMS cs [:: domain_separator; v0; v1; v2; v3; v4; v5].
(** r1cs.rs:94-113 *)
Definition r1cs_hash_7 (cs : csys) (domain_separator : FqVar)
    (value : FqVar * FqVar * FqVar * FqVar * FqVar * FqVar * FqVar) : outcome (FqVar * csys) :=
  let: (v0, v1, v2, v3, v4, v5, v6) := value in
  run RATE_7_PARAMS cs [:: domain_separator; v0; v1; v2; v3; v4; v5; v6].
End Hash.
