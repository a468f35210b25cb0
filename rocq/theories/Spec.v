(** Specifications of the Poseidon permutation, over mathematical vectors and
    matrices.  Nothing here refers to the model of the code. *)
From mathcomp Require Import all_ssreflect all_algebra.
Set Implicit Arguments.
Unset Strict Implicit.
Unset Printing Implicit Defensive.
Import GRing.Theory.
Local Open Scope ring_scope.

Section Poseidon.
Variable F : fieldType.
Variable t1 : nat.
Local Notation vec := ('cV[F]_(1 + t1)).
Local Notation mat := ('M[F]_(1 + t1)).

(** The textbook Poseidon permutation (Poseidon paper, section 2.2): [Rf] full
    rounds, [Rp] partial rounds, [Rf] full rounds; a round adds its constants,
    applies the S-box to all words (full) or to word 0 (partial) and multiplies
    by the mixing matrix. *)
Section Textbook.
Variables (S : F -> F) (M : mat) (rc : nat -> vec).
Definition full_round (x c : vec) : vec := M *m (\col_i S ((x + c) i 0)).
Definition partial_round (x c : vec) : vec :=
  M *m (\col_i (if i == 0 then S ((x + c) i 0) else (x + c) i 0)).
Definition poseidon (Rf Rp : nat) (x : vec) : vec :=
  let x := foldl (fun x r => full_round x (rc r)) x (iota 0 Rf) in
  let x := foldl (fun x r => partial_round x (rc r)) x (iota Rf Rp) in
  foldl (fun x r => full_round x (rc r)) x (iota (Rf + Rp) Rf).
End Textbook.

(** The matrix [diag(1, N)]. *)
Definition diag1 (N : 'M[F]_t1) : mat := block_mx 1%:M 0 0 N.

(** The sparse matrix [[m00, w], [v, I]] of an optimized partial round. *)
Definition sparse (m00 : F) (w : 'rV[F]_t1) (v : 'cV[F]_t1) : mat :=
  block_mx m00%:M w v 1%:M.

(** Sparse factorization of [Rp] rounds of multiplication by [M]: sparse
    matrices with [Sp_j * diag(1, N_{j+1}) = diag(1, N_j) * M], starting from
    [N_0 = 1], and [Mi = diag(1, N_Rp)]. *)
Definition sparse_factorization (M Mi : mat) (m00 : F) (w : nat -> 'rV[F]_t1)
    (v : nat -> 'cV[F]_t1) (Rp : nat) : Prop :=
  exists N : nat -> 'M[F]_t1,
  [/\ N 0%N = 1%:M, Mi = diag1 (N Rp) &
      forall j, (j < Rp)%N -> sparse m00 (w j) (v j) *m diag1 (N j.+1) = diag1 (N j) *m M].

Definition e0 : vec := delta_mx 0 0.

(** Optimized round constants [d] equivalent to [c]: [d] agrees with [c] on the
    full rounds; [e r] is what has to be added before the S-box of partial
    round [r] so that the part not seen by the S-box can be pushed through the
    linear layer. *)
Definition equivalent_constants (M : mat) (c d : nat -> vec) (Rf Rp : nat) : Prop :=
  [/\ forall r, (r < Rf)%N -> d r = c r,
      forall r, (r < Rf)%N -> d (Rf + Rp + r)%N = c (Rf + Rp + r)%N &
  exists e : nat -> vec,
  [/\ e 0%N = d Rf,
      forall r, (r < Rp)%N -> e r 0 0 = c (Rf + r)%N 0 0,
      forall r, (r.+1 < Rp)%N ->
        e r.+1 = M *m (e r - c (Rf + r)%N + (d (Rf + r.+1)%N 0 0) *: e0) &
      e Rp.-1 = c (Rf + Rp.-1)%N]].
End Poseidon.
