(** The condition named in v2/internal.rs:28-33 in place of the three algorithms, and
    what it says about subspaces. *)
From mathcomp Require Import all_ssreflect all_algebra.
From Verif Require Import TrailsSpec.
Set Implicit Arguments.
Unset Strict Implicit.
Unset Printing Implicit Defensive.
Local Open Scope ring_scope.

Section Spec.
Variables (F : fieldType) (n : nat).

(** The minimal polynomial is irreducible and of the largest possible degree. *)
Definition minpoly_irreducible (A : 'M[F]_n.+1) : Prop :=
  irreducible_poly (mxminpoly A) /\ (size (mxminpoly A)).-1 = n.+1.

(** No subspaces are mapped to themselves but zero and the whole space. *)
Definition no_stable_subspace (A : 'M[F]_n.+1) : Prop := forall P, subspace P -> stable A P ->
  (exists2 x, P x & x != 0) -> forall x, P x.
End Spec.
