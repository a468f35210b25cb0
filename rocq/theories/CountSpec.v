(** What the two permutations cost, independently of the model: the numbers of field
    multiplications, field additions and applications of the S-box for width [t], [2 f]
    full and [r] partial rounds. *)
From mathcomp Require Import all_ssreflect.
Set Implicit Arguments.
Unset Strict Implicit.
Unset Printing Implicit Defensive.

(** Every round with the whole matrix and all constants *)
Definition base_muls (t f r : nat) : nat := (2 * f + r) * (t * t).
Definition base_adds (t f r : nat) : nat := (2 * f + r) * (t * t + t).

(** A sparse matrix has [2 t - 1] entries besides the unit diagonal; one round of constants
    and one whole matrix come before the partial rounds, and one constant between two of
    these. *)
Definition fast_muls (t f r : nat) : nat := (2 * f).+1 * (t * t) + r * (2 * t - 1).
Definition fast_adds (t f r : nat) : nat := (2 * f).+1 * (t * t + t) + r * (2 * t - 1) + (r - 1).

(** S-boxes *)
Definition both_sboxes (t f r : nat) : nat := 2 * f * t + r.
