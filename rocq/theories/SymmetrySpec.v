(** Affine symmetries of rounds. *)
From mathcomp Require Import all_ssreflect all_algebra.
Set Implicit Arguments.
Unset Strict Implicit.
Unset Printing Implicit Defensive.
Import GRing.Theory.
Local Open Scope ring_scope.

Section Spec.
Variables (F : fieldType) (t : nat).
(** The power map on every word *)
Definition powers (e : nat) (x : 'cV[F]_t) : 'cV[F]_t := \col_i x i 0 ^+ e.
(** A full round: constants, power maps, matrix *)
Definition full (e : nat) (M : 'M[F]_t) (c x : 'cV[F]_t) : 'cV[F]_t := M *m powers e (x + c).
(** [f] turns the affine map with [A] and [a] into the one with [B] and [b]. *)
Definition carries (f : 'cV[F]_t -> 'cV[F]_t) (A : 'M[F]_t) (a : 'cV[F]_t) (B : 'M[F]_t) (b : 'cV[F]_t) : Prop :=
  forall x, f (A *m x + a) = B *m f x + b.
End Spec.

Section Partial.
Variables (F : fieldType) (n : nat).
(** The power map on the first word, and a partial round *)
Definition first_power (e : nat) (x : 'cV[F]_n.+1) : 'cV[F]_n.+1 := \col_i (if i == 0 then x i 0 ^+ e else x i 0).
Definition partial (e : nat) (M : 'M[F]_n.+1) (c x : 'cV[F]_n.+1) : 'cV[F]_n.+1 := M *m first_power e (x + c).
End Partial.
