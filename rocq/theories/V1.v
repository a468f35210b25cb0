(** Model of /repo/poseidon-paramgen/src/input.rs:25-37 and v1.rs:17-57: the
    generation of a Poseidon1 parameter set.

    The floating-point logarithm of input.rs and the search for round numbers are
    parameters here; [Rounds.v] models the latter.  The const generics of the
    result are [t] and [t - 1]. *)
From Coq Require Import ZArith NArith.
From mathcomp Require Import all_ssreflect all_algebra.
From Verif Require Import Base Matrix Params PrimeField Alpha Transcript Mds.
Set Implicit Arguments.
Unset Strict Implicit.
Unset Printing Implicit Defensive.
Local Open Scope rust_scope.

Section V1.
Variables (L : Type) (PF : prime_field) (Me : merlin).
(** utils.rs:6-30 *)
Variable log2 : Z -> L.
(** rounds.rs:18-48 *)
Variable v1_rounds : input L -> alpha -> outcome rounds.

(** input.rs:25-37 *)
Definition input_generate (M : N) (t : nat) (p : Z) (p_limbs : nat) (allow_inverse : bool) : input L :=
  InputParameters allow_inverse M t p p_limbs (log2 p).

(** v1.rs:17-57 *)
Definition v1_generate (M : N) (t : nat) (p : Z) (p_limbs : nat) (allow_inverse : bool)
    : outcome (params PF) :=
  let i := input_generate M t p p_limbs allow_inverse in
  alpha <- alpha_generate PF p allow_inverse ;;
  rounds <- v1_rounds i alpha ;;
  mds <- v1_generate_mds PF i ;;
  arc <- v1_generate_arc PF Me i rounds alpha ;;
  optimized_mds <- mds_generate_optimized mds t rounds ;;
  optimized_arc <- arc_generate_optimized (@row_vector_vec PF) arc mds rounds ;;
  Ret (Params t t.-1 (N.to_nat M) alpha rounds mds arc optimized_arc optimized_mds).
End V1.
