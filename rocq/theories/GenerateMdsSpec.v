(** Specification side of the statements about vendor/generate_mds.sage. *)
From Coq Require Import ZArith String.
From mathcomp Require Import all_ssreflect all_algebra.
Set Implicit Arguments.
Unset Strict Implicit.
Unset Printing Implicit Defensive.
Import GRing.Theory.
Local Open Scope ring_scope.

(** The value [z] is an eigenvalue of [M]. *)
Definition has_eigenvalue (F : fieldType) m (M : 'M[F]_m) (z : F) : Prop :=
  exists2 v : 'cV[F]_m, v != 0 & M *m v = z *: v.

(** The matrix with the entries 1/(x_i - y_j) *)
Definition cauchy_of (F : fieldType) m (x y : nat -> F) : 'M[F]_m := \matrix_(i, j) (x i - y j)^-1.

(** The first [m] values of [x] and of [y] are [2 m] different elements. *)
Definition distinct (F : fieldType) m (x y : nat -> F) : Prop :=
  [/\ forall i j, (i < m)%N -> (j < m)%N -> x i = x j -> i = j,
      forall i j, (i < m)%N -> (j < m)%N -> y i = y j -> i = j &
      forall i j, (i < m)%N -> (j < m)%N -> x i <> y j].

(** The values of an attempt: the next [m] of a sequence *)
Definition attempt_of (F : fieldType) m (s : nat -> F) (a i : nat) : F := s (a * m + i)%N.

(** The matrix is that of attempt [a], the first one without eigenvalues. *)
Definition chosen (F : fieldType) m (x y : nat -> F) (a : nat) (M : 'M[F]_m) : Prop :=
  let mat b := cauchy_of m (attempt_of m x b) (attempt_of m y b) in
  [/\ forall b, (b <= a)%N -> distinct m (attempt_of m x b) (attempt_of m y b),
      forall b, (b < a)%N -> exists z, has_eigenvalue (mat b) z,
      forall z, ~ has_eigenvalue (mat a) z & M = mat a].

(** A linear subspace, the row space of [U], which the matrix maps to itself *)
Definition invariant (F : fieldType) m k (M : 'M[F]_m) (U : 'M[F]_(k, m)) : Prop :=
  forall v : 'cV[F]_m, (v^T <= U)%MS -> ((M *m v)^T <= U)%MS.

(** Absorbing blocks of [r] words into a state, with the permutation [f] after each *)
Fixpoint absorb (F : fieldType) (f : seq F -> seq F) (r : nat) (blocks : seq (seq F)) (state : seq F) : seq F :=
  if blocks is b :: bs then
    absorb f r bs (f (mkseq (fun i => nth 0 state i + (if (i < r)%N then nth 0 b i else 0)) (size state)))
  else state.
