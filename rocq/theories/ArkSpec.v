(** Partial rounds whose round constants are moved to their beginning, specification side. *)
From Coq Require Import String.
From mathcomp Require Import all_ssreflect all_algebra.
Set Implicit Arguments.
Unset Strict Implicit.
Unset Printing Implicit Defensive.
Import GRing.Theory.
Local Open Scope ring_scope.

Section Spec.
Variables (F : fieldType) (n : nat) (S : F -> F) (M : 'M[F]_n.+1).
Local Notation vec := 'cV[F]_n.+1.

(** The S-box on word 0 *)
Definition sbox_0 (x : vec) : vec := \col_i (if i == 0 then S (x i 0) else x i 0).
(** Word 0 cleared *)
Definition clear_0 (x : vec) : vec := \col_i (if i == 0 then 0 else x i 0).
Definition e_0 : vec := delta_mx 0 0.

(** The constants of round [i] *)
Definition round_constants (rc : string -> nat -> F) (i : nat) : vec := \col_(j < n.+1) rc "Hades"%string (n.+1 * i + j)%N.

(** [r] partial rounds with the constants [c 0, c 1, ...] *)
Definition partial_rounds (c : nat -> vec) (r : nat) (x : vec) : vec :=
  foldl (fun y i => M *m sbox_0 (y + c i)) x (iota 0 r).

(** The same number with one vector added at the beginning and one word in each round: [w 0]
    before the first S-box, [w i] after the S-box of round [i - 1]. *)
Definition moved_rounds (l : vec) (w : nat -> F) (r : nat) (x : vec) : vec :=
  foldl (fun y i => M *m (sbox_0 y + (if (i.+1 < r)%N then w i.+1 else 0) *: e_0)) (x + l + w 0%N *: e_0) (iota 0 r).
End Spec.
