(** The permutation Keccak-f[1600] of FIPS 202, section 3, on byte strings
    (appendix B.1).  External: merlin 3 uses the crate [keccak] for it. *)
From Coq Require Import NArith.
From mathcomp Require Import all_ssreflect.
From Verif Require Import Bytes.
Set Implicit Arguments.
Unset Strict Implicit.
Unset Printing Implicit Defensive.

(** A state: the bit A[x, y, z], 0 <= x, y < 5, 0 <= z < 64. *)
Definition state := nat -> nat -> nat -> bool.

(** 3.2.1 *)
Definition parity (A : state) (x z : nat) : bool := A x 0 z (+) A x 1 z (+) A x 2 z (+) A x 3 z (+) A x 4 z.
Definition theta (A : state) : state := fun x y z =>
  A x y z (+) (parity A ((x + 4) %% 5) z (+) parity A ((x + 1) %% 5) ((z + 63) %% 64)).

(** 3.2.2: the walk (x, y) -> (y, 2x + 3y) from (1, 0); step t rotates by (t+1)(t+2)/2. *)
Definition walk : seq (nat * nat) := traject (fun v : nat * nat => (v.2, (2 * v.1 + 3 * v.2) %% 5)) (1, 0) 24.
Definition offset (x y : nat) : nat :=
  let t := index (x, y) walk in if (x == 0) && (y == 0) then 0 else ((t + 1) * (t + 2)) %/ 2 %% 64.
Definition rho (A : state) : state := fun x y z => A x y ((z + (64 - offset x y)) %% 64).

(** 3.2.3 *)
Definition pi (A : state) : state := fun x y z => A ((x + 3 * y) %% 5) x z.

(** 3.2.4 *)
Definition chi (A : state) : state := fun x y z =>
  A x y z (+) (~~ A ((x + 1) %% 5) y z && A ((x + 2) %% 5) y z).

(** 3.2.5: the bit rc(t) from an 8-bit shift register. *)
Definition rc_step (R : seq bool) : seq bool :=
  let R := false :: R in
  let f i := nth false R i (+) nth false R 8 in
  [:: f 0; nth false R 1; nth false R 2; nth false R 3; f 4; f 5; f 6; nth false R 7].
Definition rc (t : nat) : bool := head false (iter (t %% 255) rc_step (true :: nseq 7 false)).
Definition RC (ir z : nat) : bool := has (fun j => (z == 2 ^ j - 1) && rc (j + 7 * ir)) (iota 0 7).
Definition iota_map (ir : nat) (A : state) : state := fun x y z =>
  if (x == 0) && (y == 0) then A x y z (+) RC ir z else A x y z.

(** 3.3: 24 rounds *)
Definition rnd (A : state) (ir : nat) : state := iota_map ir (chi (pi (rho (theta A)))).
Definition keccak_p (A : state) : state := foldl rnd A (iota 0 24).

(** 3.1.2 and B.1: bit 64(5y + x) + z of the string is A[x, y, z]; bit 8k + j of
    the string is bit j of byte k. *)
Definition bits_of (s : bytes) : state := fun x y z =>
  N.testbit (nth 0%num s (8 * (5 * y + x) + z %/ 8)) (N.of_nat (z %% 8)).
Definition byte_of (A : state) (k : nat) : N :=
  let x := k %/ 8 %% 5 in let y := k %/ 8 %/ 5 in
  foldr (fun j acc => N.b2n (A x y (8 * (k %% 8) + j)%N) + 2 * acc)%num 0%num (iota 0 8).
Definition keccak_f (s : bytes) : bytes := let A := keccak_p (bits_of s) in mkseq (byte_of A) 200.
