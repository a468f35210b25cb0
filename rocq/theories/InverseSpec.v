(** The textbook permutation with the S-box [1/x], which is defined as long as no S-box
    is applied to zero. *)
From mathcomp Require Import all_ssreflect all_algebra.
From Verif Require Import Spec.
Set Implicit Arguments.
Unset Strict Implicit.
Unset Printing Implicit Defensive.
Import GRing.Theory.
Local Open Scope ring_scope.

Section ZeroFree.
Variables (F : fieldType) (t1 : nat) (M : 'M[F]_(1 + t1)) (rc : nat -> 'cV[F]_(1 + t1)).
Local Notation vec := ('cV[F]_(1 + t1)).
Local Notation full x r := (full_round GRing.inv M x (rc r)).
Local Notation partial x r := (partial_round GRing.inv M x (rc r)).

(** No word of the input of the S-boxes is zero *)
Definition full_ok (x : vec) (r : nat) : bool := [forall i, (x + rc r) i 0 != 0].
Definition partial_ok (x : vec) (r : nat) : bool := (x + rc r) 0 0 != 0.
(** ... in any of the rounds [rs] *)
Fixpoint along (ok : vec -> nat -> bool) (step : vec -> nat -> vec) (x : vec) (rs : seq nat) : bool :=
  if rs is r :: rs' then ok x r && along ok step (step x r) rs' else true.

Definition zero_free (Rf Rp : nat) (x : vec) : bool :=
  let x1 := foldl (fun x r => full x r) x (iota 0 Rf) in
  let x2 := foldl (fun x r => partial x r) x1 (iota Rf Rp) in
  [&& along full_ok (fun x r => full x r) x (iota 0 Rf),
      along partial_ok (fun x r => partial x r) x1 (iota Rf Rp) &
      along full_ok (fun x r => full x r) x2 (iota (Rf + Rp) Rf)].
End ZeroFree.
