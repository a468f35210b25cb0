(** Sums of a function over the field and over groups of roots of unity, specification side. *)
From mathcomp Require Import all_ssreflect all_algebra.
Set Implicit Arguments.
Unset Strict Implicit.
Unset Printing Implicit Defensive.
Local Open Scope ring_scope.

(** [xs] lists every element of the field once. *)
Definition enumerates (F : fieldType) (xs : seq F) : Prop := uniq xs /\ forall x, x \in xs.

(** [H] lists the [m] solutions of [x ^ m = 1], once each. *)
Definition roots_of_unity (F : fieldType) (m : nat) (H : seq F) : Prop :=
  [/\ uniq H, size H = m & forall h, (h \in H) = (h ^+ m == 1)].

(** The words [a + x b] *)
Definition on_line (F : fieldType) (a b : seq F) (x : F) : seq F := [seq ab.1 + x * ab.2 | ab <- zip a b].
