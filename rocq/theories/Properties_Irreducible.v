(** C78: the condition on minimal polynomials named in v2/internal.rs:28-33.
    Statements only; proofs in [Irreducible.v]; instances in [IrreducibleExamples.v]. *)
From mathcomp Require Import all_ssreflect all_algebra.
From Verif Require Import Fq V2Spec TrailsSpec IrreducibleSpec Irreducible.
Import GRing.Theory.
Local Open Scope ring_scope.

Theorem C78_stable_subspaces (F : fieldType) (n : nat) (A : 'M[F]_n.+1) :
  minpoly_irreducible A <-> no_stable_subspace A.
Proof. exact (@irreducibleP F n A). Qed.
Print Assumptions C78_stable_subspaces.

Theorem C78_trails (F : fieldType) (n : nat) (M : 'M[F]_n.+1) (R : nat) :
  (forall r, (0 < r <= R)%N -> minpoly_irreducible (M ^+ r)) -> trail_free M R.
Proof. exact (@irreducible_trail_free F n M R). Qed.
Print Assumptions C78_trails.

Theorem C78_characteristic_polynomial (F : fieldType) (n : nat) (A : 'M[F]_n.+1) :
  irreducible_poly (char_poly A) <-> minpoly_irreducible A.
Proof. exact (@char_irreducible F n A). Qed.
Print Assumptions C78_characteristic_polynomial.

Theorem C78_internal (n r : nat) : (n == 1%N) || (n == 2%N) ->
  ~ minpoly_irreducible (internal_mx Fq_fieldType n.+1 ^+ r).
Proof. exact (@internal_reducible n r). Qed.
Print Assumptions C78_internal.
