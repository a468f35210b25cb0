(** The file that [poseidon_build::v2::compile] writes: only without widths is there one. *)
From Coq Require Import ZArith NArith Ascii String.
From mathcomp Require Import all_ssreflect all_algebra.
From Verif Require Import Base Matrix Params Bytes PrimeField Alpha Transcript Mds V1 V2 Rounds RoundsSpec.
From Verif Require Import Build BuildSpec BuildProofs BuildFile.
Set Implicit Arguments.
Unset Strict Implicit.
Unset Printing Implicit Defensive.

(** What poseidon-parameters/src/v2.rs:1-6 and 19 make public *)
Definition v2_exports : seq bytes :=
  [:: str "Alpha"; str "ArcMatrix"; str "SquareMatrix"; str "RoundNumbers"; str "MatrixOperations";
      str "SquareMatrixOperations"; str "PoseidonParameters"].
Definition v2_names : seq bytes :=
  [:: str "Alpha"; str "ArcMatrix"; str "RoundNumbers"; str "SquareMatrix"; str "Matrix"; str "PoseidonParameters";
      str "MatrixOperations"].

Theorem v2_compile_nothing (PF : prime_field) (gen : nat -> outcome (params2 PF)) : exists code,
  v2_compile gen [::] = Ret code /\
  parse_file code = Some [:: IUse [:: str "ark_ff"] [:: str "PrimeField"];
                             IUse [:: str "poseidon_parameters"; str "v2"] v2_names].
Proof. by exists v2_header; split; [reflexivity | vm_compute]. Qed.

(** One imported name is not there. *)
Theorem v2_unresolved : filter (fun x => x \notin v2_exports) v2_names = [:: str "Matrix"].
Proof. by vm_compute. Qed.
