(** Model of [generate_ark] of /repo/vendor/generate_mds.sage (220-260), which the script
    defines and does not call.  The conventions are those of [GenerateMds.v]: the round
    constants are an arbitrary function, exceptions are [Panic], of what is printed the
    numbers are kept.  [hash_name] is not used by the code.  Vectors have at least one word. *)
From Coq Require Import String.
From mathcomp Require Import all_ssreflect all_algebra.
From Verif Require Import Base.
Set Implicit Arguments.
Unset Strict Implicit.
Unset Printing Implicit Defensive.
Import GRing.Theory.
Local Open Scope ring_scope.
Local Open Scope rust_scope.

Section Ark.
Variables (F : fieldType) (round_constant : string -> nat -> F) (n : nat).
Local Notation state_size := n.+1.
Local Notation vec := 'cV[F]_state_size.

(** [xs[i]] *)
Definition item (T : Type) (xs : seq T) (i : nat) : outcome T :=
  if ohead (drop i xs) is Some x then Ret x else Panic.
(** [v[0] = field(0)] *)
Definition set_first (v : vec) : vec := \col_i (if i == 0 then 0 else v i 0).

(** 223-229 *)
Definition ark_vectors (num_rounds : nat) : seq vec :=
  [seq \col_(j < state_size) round_constant "Hades" (state_size * i + j)%N | i <- iota 0 num_rounds].

(** The numbers printed at 230-239 and 255-259, and the list of 248-251 that is never printed
    (260 only starts a string) *)
Record ark_out := ArkOut { a_ark : seq vec; a_linear : option vec; a_words : seq F }.

(** The loop at 249-254; [linear] is the same object as [ark[0]], which is not read again *)
Fixpoint ark_loop (ark : seq vec) (mds_inv mds_pow : 'M[F]_state_size) (linear : vec) (words : seq F)
    (i k : nat) : outcome (vec * seq F) :=
  if k is k'.+1 then
    c <- item ark i ;;
    let cur := mds_pow *m c in
    let words := words ++ [:: cur 0 0] in
    let cur := set_first cur in
    ark_loop ark mds_inv (mds_pow *m mds_inv) (linear + cur) words i.+1 k'
  else Ret (linear, words).

(** 220-260; [mds] is [None] unless given *)
Definition generate_ark (num_rounds : nat) (optimize_ark : bool) (R_p : nat) (mds : option 'M[F]_state_size) :
    outcome ark_out :=
  let ark := ark_vectors num_rounds in
  if optimize_ark then
    (* 242: [ark[4:-4]] *)
    let middle := drop 4 (take (size ark - 4) ark) in
    mds <- (if mds is Some M then Ret M else Panic) ;;
    (* 244 *)
    mds_inv <- (if mds \in unitmx then Ret (invmx mds) else Panic) ;;
    first <- item middle 0 ;;
    (* 246-248: [linear_constants] is [ark[0]], so its word 0 is cleared before it is read *)
    let linear := set_first first in
    let words := [:: linear 0 0] in
    r <- ark_loop (linear :: behead middle) mds_inv mds_inv linear words 1 (R_p - 1) ;;
    Ret (ArkOut ark (Some r.1) r.2)
  else Ret (ArkOut ark None [::]).
End Ark.
