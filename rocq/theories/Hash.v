(** Model of /repo/poseidon377/src/hash.rs:1-75. *)
From mathcomp Require Import all_ssreflect all_algebra.
From Verif Require Import Base Fq Matrix Params Permutation Montgomery.
From Verif Require Import Rate1 Rate2 Rate3 Rate4 Rate5 Rate6 Rate7.
Set Implicit Arguments.
Unset Strict Implicit.
Unset Printing Implicit Defensive.
Local Open Scope rust_scope.

(** [Instance::new(params)] followed by [n_to_1_fixed_hash]. *)
Local Notation run p input :=
  (r <- n_to_1_fixed_hash p input (instance_new p) ;; Ret r.1).

(** hash.rs:4-8 *)
Definition hash_1 (domain_separator v0 : Fq) : outcome Fq :=
  run RATE_1_PARAMS [:: domain_separator; v0].
(** hash.rs:11-15 *)
Definition hash_2 (domain_separator : Fq) (value : Fq * Fq) : outcome Fq :=
  let: (v0, v1) := value in
  run RATE_2_PARAMS [:: domain_separator; v0; v1].
(** hash.rs:18-22 *)
Definition hash_3 (domain_separator : Fq) (value : Fq * Fq * Fq) : outcome Fq :=
  let: (v0, v1, v2) := value in
  run RATE_3_PARAMS [:: domain_separator; v0; v1; v2].
(** hash.rs:25-29 *)
Definition hash_4 (domain_separator : Fq) (value : Fq * Fq * Fq * Fq) : outcome Fq :=
  let: (v0, v1, v2, v3) := value in
  run RATE_4_PARAMS [:: domain_separator; v0; v1; v2; v3].
(** hash.rs:32-43 *)
Definition hash_5 (domain_separator : Fq) (value : Fq * Fq * Fq * Fq * Fq) : outcome Fq :=
  let: (v0, v1, v2, v3, v4) := value in
  run RATE_5_PARAMS [:: domain_separator; v0; v1; v2; v3; v4].
(** hash.rs:46-58 *)
Definition hash_6 (domain_separator : Fq) (value : Fq * Fq * Fq * Fq * Fq * Fq) : outcome Fq :=
  let: (v0, v1, v2, v3, v4, v5) := value in
  run RATE_6_PARAMS [:: domain_separator; v0; v1; v2; v3; v4; v5].
(** hash.rs:61-74 *)
Definition hash_7 (domain_separator : Fq) (value : Fq * Fq * Fq * Fq * Fq * Fq * Fq) : outcome Fq :=
  let: (v0, v1, v2, v3, v4, v5, v6) := value in
  run RATE_7_PARAMS [:: domain_separator; v0; v1; v2; v3; v4; v5; v6].
