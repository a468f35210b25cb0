(** Subspace trails through partial rounds, specification side: vectors and linear
    subspaces of column vectors only.  [r] is the period of a trail; the S-box acts
    on word 0. *)
From mathcomp Require Import all_ssreflect all_algebra.
Set Implicit Arguments.
Unset Strict Implicit.
Unset Printing Implicit Defensive.
Local Open Scope ring_scope.

Section Trails.
Variables (F : fieldType) (n : nat).
Local Notation t := n.+1.
Implicit Types (M : 'M[F]_t) (P : 'cV[F]_t -> Prop).

Definition subspace P : Prop := P 0 /\ forall (a : F) x y, P x -> P y -> P (a *: x + y).
Definition stable M P : Prop := forall x, P x -> P (M *m x).

(** No nonzero difference leaves word 0 unchanged in [t] rounds, each of which
    multiplies by [M^r]. *)
Definition no_inactive_trail M (r : nat) : Prop := forall x : 'cV[F]_t,
  (forall k, (k < t)%N -> (M ^+ (r * k) *m x) 0 0 = 0) -> x = 0.

(** No stable subspace other than 0 on which the S-box is inactive. *)
Definition no_inactive_subspace M (r : nat) : Prop := forall P, subspace P -> stable (M ^+ r) P ->
  (forall x, P x -> x 0 0 = 0) -> forall x, P x -> x = 0.

(** No stable proper subspace that contains the whole of word 0. *)
Definition no_active_subspace M (r : nat) : Prop := forall P, subspace P -> stable (M ^+ r) P ->
  P (delta_mx 0 0) -> forall x, P x.

(** No trail of either kind, for all periods up to [R]. *)
Definition trail_free M (R : nat) : Prop := forall r, (0 < r <= R)%N ->
  [/\ no_inactive_trail M r, no_inactive_subspace M r & no_active_subspace M r].

(** What algorithm 1 looks for after [i] rounds: *)
(** differences that leave word 0 unchanged in the first [i] rounds, *)
Definition quiet M (i : nat) (x : 'cV[F]_t) : Prop := forall k, (k < i)%N -> (M ^+ k *m x) 0 0 = 0.
(** a power of the matrix that is a multiple of the identity, *)
Definition scalar_power M (i : nat) : Prop := exists c : F, M ^+ i = c%:M.
(** an eigenvector of the power that is such a difference, its eigenvalue among [elements], *)
Definition quiet_eigenvector (elements : seq F) M (i : nat) : Prop :=
  exists (x : 'cV[F]_t) (l : F), [/\ x != 0, quiet M i x, l \in elements & M ^+ i *m x = l *: x].
(** all such differences being permuted by one of the powers. *)
Definition quiet_invariant M (i : nat) : Prop := exists2 j, (0 < j <= i)%N &
  forall x, quiet M i x <-> exists2 y, quiet M i y & x = M ^+ j *m y.
(** The number of the first of the three that is found *)
Definition finding (elements : seq F) M (i k : nat) : Prop :=
  [\/ k = 1%N /\ scalar_power M i,
      k = 2%N /\ ~ scalar_power M i /\ quiet_eigenvector elements M i |
      [/\ k = 3%N, ~ scalar_power M i, ~ quiet_eigenvector elements M i & quiet_invariant M i]].
End Trails.
