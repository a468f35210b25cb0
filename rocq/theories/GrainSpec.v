(** What the vendored generator of parameters should compute: a linear recurrence over
    two elements, every second bit selecting its successor, numbers of [n] bits. *)
From Coq Require Import ZArith.
From mathcomp Require Import all_ssreflect.
Set Implicit Arguments.
Unset Strict Implicit.
Unset Printing Implicit Defensive.
Delimit Scope Z_scope with Z.

(** The sequence that starts with the eighty bits of [s] *)
Definition recurrence (s : seq bool) (u : nat -> bool) : Prop :=
  (forall j, j < 80 -> u j = nth false s j) /\
  (forall k, u (k + 80) = u (k + 62) (+) u (k + 51) (+) u (k + 38) (+) u (k + 23) (+) u (k + 13) (+) u k).

(** Of the [m] pairs that follow the first eighty bits, the second halves of those
    whose first half is 1 *)
Definition selected (u : nat -> bool) (m : nat) : seq bool :=
  [seq u (81 + 2 * i) | i <- iota 0 m & u (80 + 2 * i)].

(** A number from its binary digits, the highest first *)
Fixpoint number (bs : seq bool) : Z :=
  if bs is b :: bs then ((if b then 2 ^ Z.of_nat (size bs) else 0) + number bs)%Z else 0%Z.

(** The first [k] numbers of [n] digits *)
Definition blocks (n k : nat) (bs : seq bool) : seq Z := [seq number (take n (drop (i * n) bs)) | i <- iota 0 k].
