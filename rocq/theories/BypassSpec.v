(** Lines of states that rounds map to lines. *)
From mathcomp Require Import all_ssreflect all_algebra.
Set Implicit Arguments.
Unset Strict Implicit.
Unset Printing Implicit Defensive.
Local Open Scope ring_scope.

(** The points [x + u v] are mapped to points of one line. *)
Definition straight (F : fieldType) t (f : 'cV[F]_t -> 'cV[F]_t) (x v : 'cV[F]_t) : Prop :=
  exists y w : 'cV[F]_t, forall u : F, exists s : F, f (x + u *: v) = y + s *: w.
