(** Differences and active S-boxes, specification side: the states of two runs of the
    permutation are compared before the S-boxes of each round. *)
From mathcomp Require Import all_ssreflect all_algebra.
Set Implicit Arguments.
Unset Strict Implicit.
Unset Printing Implicit Defensive.
Local Open Scope ring_scope.

(** The number of nonzero words *)
Definition wt (F : fieldType) n (x : 'cV[F]_n) : nat := #|[pred i | x i 0 != 0]|.

(** [b] is a lower bound of the branch number of [M]. *)
Definition branch (F : fieldType) n (M : 'M[F]_n) (b : nat) : Prop :=
  forall x : 'cV[F]_n, x != 0 -> (b <= wt x + wt (M *m x))%N.

(** At most [d] inputs of [S] give any one output difference for an input difference. *)
Definition uniformity (F : fieldType) (S : F -> F) (d : nat) : Prop :=
  forall a b : F, a != 0 -> forall xs : seq F, uniq xs -> all (fun x => S (x + a) - S x == b) xs -> (size xs <= d)%N.

(** A type with at most [N] elements *)
Definition card_le (T : eqType) (N : nat) : Prop := forall xs : seq T, uniq xs -> (size xs <= N)%N.
(** [x] and [x + a] are mapped to outputs of difference [b] by a layer of S-boxes. *)
Definition follows (F : fieldType) (S : F -> F) n (a b x : 'cV[F]_n) : bool := map_mx S (x + a) - map_mx S x == b.

(** The layer of S-boxes of a full or of a partial round *)
Definition layer (F : fieldType) (S : F -> F) (full : bool) n (x : 'cV[F]_n.+1) : 'cV[F]_n.+1 :=
  \col_i (if full || (i == 0) then S (x i 0) else x i 0).
Definition follows_round (F : fieldType) (S : F -> F) (full : bool) n (a b x : 'cV[F]_n.+1) : bool :=
  layer S full (x + a) - layer S full x == b.

Section Active.
Variables (F : fieldType) (n : nat) (S : F -> F) (M : 'M[F]_n.+1) (c : nat -> 'cV[F]_n.+1) (Rf Rp : nat).
Local Notation vec := 'cV[F]_n.+1.

Definition is_full (r : nat) : bool := (r < Rf)%N || (Rf + Rp <= r)%N.
(** The words before the S-boxes of round [r], and after the round *)
Fixpoint before (r : nat) (x : vec) : vec :=
  (if r is r'.+1 then M *m (\col_i (if is_full r' || (i == 0) then S (before r' x i 0) else before r' x i 0)) else x) + c r.
Definition after (r : nat) (x : vec) : vec := before r x - c r.

(** The number of S-boxes of round [r] whose inputs differ *)
Definition active (x y : vec) (r : nat) : nat :=
  if is_full r then #|[pred i | before r x i 0 != before r y i 0]| else (before r x 0 0 != before r y 0 0).
Definition active_total (x y : vec) : nat := \sum_(r < Rf + Rp + Rf) active x y r.
End Active.

(** A characteristic: differences [a r] before and [b r] after the S-boxes of each
    round, and for each round inputs [xs r] that follow it. *)
Definition characteristic_inputs (F : fieldType) n (S : F -> F) (M : 'M[F]_n.+1) (Rf Rp : nat)
    (a b : nat -> 'cV[F]_n.+1) (xs : nat -> seq 'cV[F]_n.+1) : Prop :=
  [/\ a 0%N != 0, forall r, (r.+1 < Rf + Rp + Rf)%N -> a r.+1 = M *m b r &
      forall r, (r < Rf + Rp + Rf)%N -> uniq (xs r) /\ all (follows_round S (is_full Rf Rp r) (a r) (b r)) (xs r)].
