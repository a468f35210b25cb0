(** Specification side of the matrix library: mathematical matrices and the
    row-major array that represents them.  Independent of the model's helpers
    (only the record [rmat] is shared). *)
From mathcomp Require Import all_ssreflect all_algebra.
From Verif Require Import Matrix.
Set Implicit Arguments.
Unset Strict Implicit.
Unset Printing Implicit Defensive.

Section Spec.
Variable F : fieldType.

(** The Rust matrix that stores the mathematical matrix [A] row by row. *)
Definition ofM {r c : nat} (A : 'M[F]_(r, c)) : rmat F :=
  Rmat r c (flatten [seq [seq A i j | j <- enum 'I_c] | i <- enum 'I_r]).

(** The mathematical matrix read off a Rust matrix. *)
Definition toM (r c : nat) (m : rmat F) : 'M[F]_(r, c) :=
  \matrix_(i, j) nth 0%R (elements m) (i * c + j).

(** Column vector as an array. *)
Definition ofV {n : nat} (x : 'cV[F]_n) : seq F := [seq x i 0%R | i <- enum 'I_n].
Definition toV (n : nat) (s : seq F) : 'cV[F]_n := \col_i nth 0%R s i.

(** Row vector as an array. *)
Definition ofR {n : nat} (x : 'rV[F]_n) : seq F := [seq x 0%R i | i <- enum 'I_n].
End Spec.
