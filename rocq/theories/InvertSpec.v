(** Running Poseidon backwards, and counting lists: specification side. *)
From mathcomp Require Import all_ssreflect all_algebra.
Set Implicit Arguments.
Unset Strict Implicit.
Unset Printing Implicit Defensive.
Import GRing.Theory.
Local Open Scope ring_scope.

Section Backwards.
Variables (F : fieldType) (t1 : nat).
Local Notation vec := ('cV[F]_(1 + t1)).

(** Textbook Poseidon from its last round to its first: a round multiplies by the
    inverse matrix, applies the inverse S-box to all words or to word 0, and
    subtracts its constants. *)
Variables (S' : F -> F) (M' : 'M[F]_(1 + t1)) (rc : nat -> vec).
Definition full_back (y c : vec) : vec := (\col_i S' ((M' *m y) i 0)) - c.
Definition partial_back (y c : vec) : vec :=
  (\col_i (if i == 0 then S' ((M' *m y) i 0) else (M' *m y) i 0)) - c.
Definition poseidon_back (Rf Rp : nat) (y : vec) : vec :=
  let y := foldl (fun y r => full_back y (rc r)) y (rev (iota (Rf + Rp) Rf)) in
  let y := foldl (fun y r => partial_back y (rc r)) y (rev (iota Rf Rp)) in
  foldl (fun y r => full_back y (rc r)) y (rev (iota 0 Rf)).
End Backwards.

(** The final state whose word 1 is [h] and whose other words are [w] *)
Definition state_with (F : fieldType) (h : F) (w : seq F) : seq F := head 0 w :: h :: behead w.

(** [L] lists every list of [n] elements once. *)
Definition all_lists (T : eqType) (n : nat) (L : seq (seq T)) : Prop :=
  uniq L /\ forall l, (l \in L) = (size l == n).
