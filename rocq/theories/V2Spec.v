(** Specification side of the Poseidon2 properties: the matrices by their entries, and
    the number of equations and variables of the additional Groebner-basis attack. *)
From Coq Require Import ZArith NArith.
From mathcomp Require Import all_ssreflect all_algebra.
From Verif Require Import Params.
Set Implicit Arguments.
Unset Strict Implicit.
Unset Printing Implicit Defensive.
Local Open Scope ring_scope.
Delimit Scope Z_scope with Z.

(** The 4 by 4 matrix of the paper *)
Definition m4 (i j : nat) : nat :=
  nth 0%N (nth [::] [:: [:: 5; 7; 1; 3]; [:: 4; 6; 1; 1]; [:: 1; 3; 5; 7]; [:: 1; 1; 4; 6]]%N i) j.
(** The internal matrices: ones, and 2, ..., 2, 3 on the diagonal *)
Definition internal_entry (t i j : nat) : nat := (if i == j then (if i.+1 == t then 3 else 2) else 1)%N.

Section Matrices.
Variable F : fieldType.
Definition M4 : 'M[F]_4 := \matrix_(i, j) (m4 i j)%:R.
Definition internal_mx t : 'M[F]_t := \matrix_(i, j) (internal_entry t i j)%:R.
(** [d] by [d] blocks: twice [M4] on the diagonal, [M4] elsewhere *)
Definition external_mx d : 'M[F]_(d * 4) :=
  \matrix_(i, j) (((i %/ 4 == j %/ 4)%N).+1 * m4 (i %% 4) (j %% 4))%:R.
End Matrices.

Local Open Scope nat_scope.
(** [n^2] has about [M] bits: [2 n >= 2^ceil(M/2)] *)
Definition reached (M : N) (n : nat) : bool := (2 ^ (Z.of_N (N.div (M + 1) 2)) <=? 2 * Z.of_nat n)%Z.
(** Section 7.3 of the Poseidon2 paper as coded in rounds.rs:226-241 *)
Definition v2_upper (t : nat) (e : N) (c : rounds) : nat :=
  (r_F c).-1 * t + r_P c + t %/ 3 + t %/ 3 * (r_F c)./2 + r_P c + N.to_nat e.
Definition v2_lower (t : nat) (e : N) (c : rounds) : nat := t %/ 3 * (r_F c)./2 + r_P c + N.to_nat e.
