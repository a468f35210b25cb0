(** What the circuit of [Preimage.v] is meant to prove. *)
From mathcomp Require Import all_ssreflect all_algebra.
From Verif Require Import Base Fq Hash R1cs R1csSpec Preimage.
Set Implicit Arguments.
Unset Strict Implicit.
Unset Printing Implicit Defensive.
Import GRing.Theory.


(** [h 0], ..., [h 6] are the hashes of [w 0], ..., [w 6] of all seven rates. *)
Definition hashes_of (w h : nat -> Fq) : Prop :=
  hash_1 DOMAIN_SEP (w 0) = Ret (h 0) /\
  hash_2 DOMAIN_SEP (w 0, w 1) = Ret (h 1) /\
  hash_3 DOMAIN_SEP (w 0, w 1, w 2) = Ret (h 2) /\
  hash_4 DOMAIN_SEP (w 0, w 1, w 2, w 3) = Ret (h 3) /\
  hash_5 DOMAIN_SEP (w 0, w 1, w 2, w 3, w 4) = Ret (h 4) /\
  hash_6 DOMAIN_SEP (w 0, w 1, w 2, w 3, w 4, w 5) = Ret (h 5) /\
  hash_7 DOMAIN_SEP (w 0, w 1, w 2, w 3, w 4, w 5, w 6) = Ret (h 6).

Definition seven (c : PreimageCircuit) : bool := (size (preimages c) == 7) && (size (hash_outputs c) == 7).

(** The element of a list of field elements *)
Definition at_ (s : seq Fq) (i : nat) : Fq := nth (0%R : Fq_fieldType) s i.
