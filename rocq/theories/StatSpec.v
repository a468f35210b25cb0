(** The statistical check of rounds.rs:161-183, specification side. *)
From Coq Require Import ZArith NArith Reals.
From mathcomp Require Import all_ssreflect all_algebra.
From Verif Require Import Params.
Set Implicit Arguments.
Unset Strict Implicit.
Unset Printing Implicit Defensive.
Delimit Scope R_scope with Re.
Delimit Scope Z_scope with Z.

Definition log_2 (x : R) : R := (ln x / ln 2)%Re.

Local Open Scope ring_scope.
(** The S-box; the code panics for the inverse of zero, which is zero here. *)
Definition sbox_of (F : fieldType) (a : alpha) (x : F) : F :=
  match a with Exponent e => x ^+ N.to_nat e | Inverse => x^-1 end.
(** The bound of the differential uniformity on which the check is based *)
Definition uniformity_of (a : alpha) : Z := match a with Exponent e => (Z.of_N e - 1)%Z | Inverse => 4%Z end.
Definition exponent_ok (a : alpha) : Prop :=
  match a with Exponent e => (2 <= e < 2 ^ 32)%num | Inverse => True end.
