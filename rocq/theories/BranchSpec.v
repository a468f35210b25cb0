(** The branch number of a matrix, specification side: the smallest number of nonzero
    words a nonzero vector and its image have together. *)
From mathcomp Require Import all_ssreflect all_algebra.
From Verif Require Import ActiveSpec.
Set Implicit Arguments.
Unset Strict Implicit.
Unset Printing Implicit Defensive.
Local Open Scope ring_scope.

Definition branch_number (F : fieldType) n (M : 'M[F]_n) (b : nat) : Prop :=
  branch M b /\ exists x : 'cV[F]_n, x != 0 /\ (wt x + wt (M *m x) = b)%N.
