(** Polynomial degrees, specification side. *)
From mathcomp Require Import all_ssreflect all_algebra.
Set Implicit Arguments.
Unset Strict Implicit.
Unset Printing Implicit Defensive.
Local Open Scope ring_scope.

(** [f] is a polynomial function of degree exactly (at most) [d]. *)
Definition exact_degree (F : fieldType) (f : F -> F) (d : nat) : Prop :=
  exists2 p : {poly F}, size p = d.+1 & forall x, f x = p.[x].
Definition degree_le (F : fieldType) (f : F -> F) (d : nat) : Prop :=
  exists2 p : {poly F}, (size p <= d.+1)%N & forall x, f x = p.[x].

(** The state [s] with word [j] replaced by [x] *)
Definition with_word (F : fieldType) n (s : 'cV[F]_n) (j : 'I_n) (x : F) : 'cV[F]_n :=
  \col_i (if i == j then x else s i 0).
