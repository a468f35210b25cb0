(** Generated by tools/mkkey.py from the key files
    /repo/poseidon-tests/test_vectors/preimage_vk.param and preimage_pk.bin: which
    points are the point at infinity, and lengths. *)
From mathcomp Require Import all_ssreflect.
Set Implicit Arguments.
Unset Strict Implicit.
Unset Printing Implicit Defensive.
Local Notation x := true.
Local Notation o := false.

Definition gamma_abc_len : nat := 8.
Definition h_query_len : nat := 4095.
(** [a_query] *)
Definition a_query_inf : seq bool := [::
  o; o; o; o; o; o; o; o; o; o; o; o; o; o; o; o; o; o; o; o; o; o; o; o; o; o; o; o; o; o; o; o; o; o; o;
  o; o; o; o; o; o; o; o; o; o; o; o; o; o; o; o; o; o; o; o; o; o; o; o; o; o; o; o; o; o; o; o; o; o; o;
  o; o; o; o; o; o; o; o; o; o; o; o; o; o; o; o; o; o; o; o; o; o; o; o; o; o; o; o; o; o; o; o; o; o; o;
  o; o; o; o; o; o; o; o; o; o; o; o; o; o; o; o; o; o; o; o; o; o; o; o; o; o; o; o; o; o; o; o; o; o; o;
  o; o; o; o; o; o; o; o; o; o; o; o; o; o; o; o; o; o; o; o; o; o; o; o; o; o; o; o; o; o; o; o; o; o; o;
  o; o; o; o; o; o; o; o; o; o; o; o; o; o; o; o; o; o; o; o; o; o; o; o; o; o; o; o; o; o; o; o; o; o; o;
  o; o; o; o; o; o; o; o; o; o; o; o; o; o; o; o; o; o; o; o; o; o; o; o; o; o; o; o; o; o; o; o; o; o; o;
  o; o; o; o; o; o; o; o; o; o; o; o; o; o; o; o; o; o; o; o; o; o; o; o; o; o; o; o; o; o; o; o; o; o; o;
  o; o; o; o; o; o; o; o; o; o; o; o; o; o; o; o; o; o; o; o; o; o; o; o; o; o; o; o; o; o; o; o; o; o; o;
  o; o; o; o; o; o; o; o; o; o; o; o; o; o; o; o; o; o; o; o; o; o; o; o; o; o; o; o; o; o; o; o; o; o; o;
  o; o; o; o; o; o; o; o; o; o; o; o; o; o; o; o; o; o; o; o; o; o; o; o; o; o; o; o; o; o; o; o; o; o; o;
  o; o; o; o; o; o; o; o; o; o; o; o; o; o; o; o; o; o; o; o; o; o; o; o; o; o; o; o; o; o; o; o; o; o; o;
  o; o; o; o; o; o; o; o; o; o; o; o; o; o; o; o; o; o; o; o; o; o; o; o; o; o; o; o; o; o; o; o; o; o; o;
  o; o; o; o; o; o; o; o; o; o; o; o; o; o; o; o; o; o; o; o; o; o; o; o; o; o; o; o; o; o; o; o; o; o; o;
  o; o; o; o; o; o; o; o; o; o; o; o; o; o; o; o; o; o; o; o; o; o; o; o; o; o; o; o; o; o; o; o; o; o; o;
  o; o; o; o; o; o; o; o; o; o; o; o; o; o; o; o; o; o; o; o; o; o; o; o; o; o; o; o; o; o; o; o; o; o; o;
  o; o; o; o; o; o; o; o; o; o; o; o; o; o; o; o; o; o; o; o; o; o; o; o; o; o; o; o; o; o; o; o; o; o; o;
  o; o; o; o; o; o; o; o; o; o; o; o; o; o; o; o; o; o; o; o; o; o; o; o; o; o; o; o; o; o; o; o; o; o; o;
  o; o; o; o; o; o; o; o; o; o; o; o; o; o; o; o; o; o; o; o; o; o; o; o; o; o; o; o; o; o; o; o; o; o; o;
  o; o; o; o; o; o; o; o; o; o; o; o; o; o; o; o; o; o; o; o; o; o; o; o; o; o; o; o; o; o; o; o; o; o; o;
  o; o; o; o; o; o; o; o; o; o; o; o; o; o; o; o; o; o; o; o; o; o; o; o; o; o; o; o; o; o; o; o; o; o; o;
  o; o; o; o; o; o; o; o; o; o; o; o; o; o; o; o; o; o; o; o; o; o; o; o; o; o; o; o; o; o; o; o; o; o; o;
  o; o; o; o; o; o; o; o; o; o; o; o; o; o; o; o; o; o; o; o; o; o; o; o; o; o; o; o; o; o; o; o; o; o; o;
  o; o; o; o; o; o; o; o; o; o; o; o; o; o; o; o; o; o; o; o; o; o; o; o; o; o; o; o; o; o; o; o; o; o; o;
  o; o; o; o; o; o; o; o; o; o; o; o; o; o; o; o; o; o; o; o; o; o; o; o; o; o; o; o; o; o; o; o; o; o; o;
  o; o; o; o; o; o; o; o; o; o; o; o; o; o; o; o; o; o; o; o; o; o; o; o; o; o; o; o; o; o; o; o; o; o; o;
  o; o; o; o; o; o; o; o; o; o; o; o; o; o; o; o; o; o; o; o; o; o; o; o; o; o; o; o; o; o; o; o; o; o; o;
  o; o; o; o; o; o; o; o; o; o; o; o; o; o; o; o; o; o; o; o; o; o; o; o; o; o; o; o; o; o; o; o; o; o; o;
  o; o; o; o; o; o; o; o; o; o; o; o; o; o; o; o; o; o; o; o; o; o; o; o; o; o; o; o; o; o; o; o; o; o; o;
  o; o; o; o; o; o; o; o; o; o; o; o; o; o; o; o; o; o; o; o; o; o; o; o; o; o; o; o; o; o; o; o; o; o; o;
  o; o; o; o; o; o; o; o; o; o; o; o; o; o; o; o; o; o; o; o; o; o; o; o; o; o; o; o; o; o; o; o; o; o; o;
  o; o; o; o; o; o; o; o; o; o; o; o; o; o; o; o; o; o; o; o; o; o; o; o; o; o; o; o; o; o; o; o; o; o; o;
  o; o; o; o; o; o; o; o; o; o; o; o; o; o; o; o; o; o; o; o; o; o; o; o; o; o; o; o; o; o; o; o; o; o; o;
  o; o; o; o; o; o; o; o; o; o; o; o; o; o; o; o; o; o; o; o; o; o; o; o; o; o; o; o; o; o; o; o; o; o; o;
  o; o; o; o; o; o; o; o; o; o; o; o; o; o; o; o; o; o; o; o; o; o; o; o; o; o; o; o; o; o; o; o; o; o; o;
  o; o; o; o; o; o; o; o; o; o; o; o; o; o; o; o; o; o; o; o; o; o; o; o; o; o; o; o; o; o; o; o; o; o; o;
  o; o; o; o; o; o; o; o; o; o; o; o; o; o; o; o; o; o; o; o; o; o; o; o; o; o; o; o; o; o; o; o; o; o; o;
  o; o; o; o; o; o; o; o; o; o; o; o; o; o; o; o; o; o; o; o; o; o; o; o; o; o; o; o; o; o; o; o; o; o; o;
  o; o; o; o; o; o; o; o; o; o; o; o; o; o; o; o; o; o; o; o; o; o; o; o; o; o; o; o; o; o; o; o; o; o; o;
  o; o; o; o; o; o; o; o; o; o; o; o; o; o; o; o; o; o; o; o; o; o; o; o; o; o; o; o; o; o; o; o; o; o; o;
  o; o; o; o; o; o; o; o; o; o; o; o; o; o; o; o; o; o; o; o; o; o; o; o; o; o; o; o; o; o; o; o; o; o; o;
  o; o; o; o; o; o; o; o; o; o; o; o; o; o; o; o; o; o; o; o; o; o; o; o; o; o; o; o; o; o; o; o; o; o; o;
  o; o; o; o; o; o; o; o; o; o; o; o; o; o; o; o; o; o; o; o; o; o; o; o; o; o; o; o; o; o; o; o; o; o; o;
  o; o; o; o; o; o; o; o; o; o; o; o; o; o; o; o; o; o; o; o; o; o; o; o; o; o; o; o; o; o; o; o; o; o; o;
  o; o; o; o; o; o; o; o; o; o; o; o; o; o; o; o; o; o; o; o; o; o; o; o; o; o; o; o; o; o; o; o; o; o; o;
  o; o; o; o; o; o; o; o; o; o; o; o; o; o; o; o; o; o; o; o; o; o; o; o; o; o; o; o; o; o; o; o; o; o; o;
  o; o; o; o; o; o; o; o; o; o; o; o; o; o; o; o; o; o; o; o; o; o; o; o; o; o; o; o; o; o; o; o; o; o; o;
  o; o; o; o; o; o; o; o; o; o; o; o; o; o; o; o; o; o; o; o; o; o; o; o; o; o; o; o; o; o; o; o; o; o; o;
  o; o; o; o; o; o; o; o; o; o; o; o; o; o; o; o; o; o; o; o; o; o; o; o; o; o; o; o; o; o; o; o; o; o; o;
  o; o; o; o; o; o; o; o; o; o; o; o; o; o; o; o; o; o; o; o; o; o; o; o; o; o; o; o; o; o; o; o; o; o; o;
  o; o; o; o; o; o; o; o; o; o; o; o; o; o; o; o; o; o; o; o; o; o; o; o; o; o; o; o; o; o; o; o; o; o; o;
  o; o; o; o; o; o; o; o; o; o; o; o; o; o; o; o; o; o; o; o; o; o; o; o; o; o; o; o; o; o; o; o; o; o; o;
  o; o; o; o; o; o; o; o; o; o; o; o; o; o; o; o; o; o; o; o; o; o; o; o; o; o; o; o; o; o; o; o; o; o; o;
  o; o; o; o; o; o; o; o; o; o; o; o; o; o; o; o; o; o; o; o; o; o; o; o; o; o; o; o; o; o; o; o; o; o; o;
  o; o; o; o; o; o; o; o; o; o; o; o; o; o; o; o; o; o; o; o; o; o; o; o; o; o; o; o; o; o; o; o; o; o; o;
  o; o; o; o; o; o; o; o; o; o; o; o; o; o; o; o; o; o; o; o; o; o; o; o; o; o; o; o; o; o; o; o; o; o; o;
  o; o; o; o; o; o; o; o; o; o; o; o; o; o; o; o; o; o; o; o; o; o; o; o; o; o; o; o; o; o; o; o; o; o; o;
  o; o; o; o; o; o; o; o; o; o; o; o; o; o; o; o; o; o; o; o; o; o; o; o; o; o; o; o; o; o; o; o; o; o; o;
  o; o; o; o; o; o; o; o; o; o; o; o; o; o; o; o; o; o; o; o; o; o; o; o; o; o; o; o; o; o; o; o; o; o; o;
  o; o; o; o; o; o; o; o; o; o; o; o; o; o; o; o; o; o; o; o; o; o; o; o; o; o; o; o; o; o; o; o; o; o; o;
  o; o; o; o; o; o; o; o; o; o; o; o; o; o; o; o; o; o; o; o; o; o; o; o; o; o; o; o; o; o; o; o; o; o; o;
  o; o; o; o; o; o; o; o; o; o; o; o; o; o; o; o; o; o; o; o; o; o; o; o; o; o; o; o; o; o; o; o; o; o; o;
  o; o; o; o; o; o; o; o; o; o; o; o; o; o; o; o; o; o; o; o; o; o; o; o; o; o; o; o; o; o; o; o; o; o; o;
  o; o; o; o; o; o; o; o; o; o; o; o; o; o; o; o; o; o; o; o; o; o; o; o; o; o; o; o; o; o; o; o; o; o; o;
  o; o; o; o; o; o; o; o; o; o; o; o; o; o; o; o; o; o; o; o; o; o; o; o; o; o; o; o; o; o; o; o; o; o; o;
  o; o; o; o; o; o; o; o; o; o; o; o; o; o; o; o; o; o; o; o; o; o; o; o; o; o; o; o; o; o; o; o; o; o; o;
  o; o; o; o; o; o; o; o; o; o; o; o; o; o; o; o; o; o; o; o; o; o; o; o; o; o; o; o; o; o; o; o; o; o; o;
  o; o; o; o; o; o; o; o; o; o; o; o; o; o; o; o; o; o; o; o; o; o; o; o; o; o; o; o; o; o; o; o; o; o; o;
  o; o; o; o; o; o; o; o; o; o; o; o; o; o; o; o; o; o; o; o; o; o; o; o; o; o; o; o; o; o; o; o; o; o; o;
  o; o; o; o; o; o; o; o; o; o; o; o; o; o; o; o; o; o; o; o; o; o; o; o; o; o; o; o; o; o; o; o; o; o; o;
  o; o; o; o; o; o; o; o; o; o; o; o; o; o; o].
(** [b_g1_query] *)
Definition b_g1_query_inf : seq bool := [::
  o; x; x; x; x; x; x; x; o; o; o; o; o; o; o; o; o; o; x; o; o; o; o; x; o; o; o; o; x; o; o; o; o; x; o;
  o; o; o; x; o; o; o; o; x; o; o; o; o; x; o; o; o; o; x; o; o; o; o; x; o; o; o; o; x; o; o; o; o; x; o;
  o; o; o; x; o; o; o; o; x; o; o; o; o; x; o; o; o; o; x; o; o; o; o; x; o; o; o; o; x; o; o; o; o; x; o;
  o; o; o; x; o; o; o; o; x; o; o; o; o; x; o; o; o; o; x; o; o; o; o; x; o; o; o; o; x; o; o; o; o; x; o;
  o; o; o; x; o; o; o; o; x; o; o; o; o; x; o; o; o; o; x; o; o; o; o; x; o; o; o; o; x; o; o; o; o; x; o;
  o; o; o; x; o; o; o; o; x; o; o; o; o; x; o; o; o; o; x; o; o; o; o; x; o; o; o; o; x; o; o; o; o; x; o;
  o; o; o; x; o; o; o; o; x; o; o; o; o; x; o; o; o; o; x; o; o; o; o; x; o; o; o; o; x; x; o; o; o; x; x;
  o; o; o; x; o; o; o; o; x; o; o; o; o; x; o; o; o; o; x; o; o; o; o; x; o; o; o; o; x; o; o; o; o; x; o;
  o; o; o; x; o; o; o; o; x; o; o; o; o; x; o; o; o; o; x; o; o; o; o; x; o; o; o; o; x; o; o; o; o; x; o;
  o; o; o; x; o; o; o; o; x; o; o; o; o; x; o; o; o; o; x; o; o; o; o; x; o; o; o; o; x; o; o; o; o; x; o;
  o; o; o; x; o; o; o; o; x; o; o; o; o; x; o; o; o; o; x; o; o; o; o; x; o; o; o; o; x; o; o; o; o; x; o;
  o; o; o; x; o; o; o; o; x; o; o; o; o; x; o; o; o; o; x; o; o; o; o; x; o; o; o; o; x; o; o; o; o; x; o;
  o; o; o; x; o; o; o; o; x; o; o; o; o; x; o; o; o; o; x; o; o; o; o; x; o; o; o; o; x; o; o; o; o; x; o;
  o; o; o; x; o; o; o; o; x; o; o; o; o; x; o; o; o; o; x; o; o; o; o; x; o; o; o; o; x; o; o; o; o; x; o;
  o; o; o; x; o; o; o; o; x; o; o; o; o; x; x; o; o; o; x; x; o; o; o; x; x; o; o; o; x; o; o; o; o; x; o;
  o; o; o; x; o; o; o; o; x; o; o; o; o; x; o; o; o; o; x; o; o; o; o; x; o; o; o; o; x; o; o; o; o; x; o;
  o; o; o; x; o; o; o; o; x; o; o; o; o; x; o; o; o; o; x; o; o; o; o; x; o; o; o; o; x; o; o; o; o; x; o;
  o; o; o; x; o; o; o; o; x; o; o; o; o; x; o; o; o; o; x; o; o; o; o; x; o; o; o; o; x; o; o; o; o; x; o;
  o; o; o; x; o; o; o; o; x; o; o; o; o; x; o; o; o; o; x; o; o; o; o; x; o; o; o; o; x; o; o; o; o; x; o;
  o; o; o; x; o; o; o; o; x; o; o; o; o; x; o; o; o; o; x; o; o; o; o; x; o; o; o; o; x; o; o; o; o; x; o;
  o; o; o; x; o; o; o; o; x; o; o; o; o; x; o; o; o; o; x; o; o; o; o; x; o; o; o; o; x; o; o; o; o; x; o;
  o; o; o; x; o; o; o; o; x; o; o; o; o; x; o; o; o; o; x; o; o; o; o; x; o; o; o; o; x; o; o; o; o; x; o;
  o; o; o; x; o; o; o; o; x; o; o; o; o; x; o; o; o; o; x; o; o; o; o; x; o; o; o; o; x; o; o; o; o; x; o;
  o; o; o; x; x; o; o; o; x; x; o; o; o; x; x; o; o; o; x; x; o; o; o; x; o; o; o; o; x; o; o; o; o; x; o;
  o; o; o; x; o; o; o; o; x; o; o; o; o; x; o; o; o; o; x; o; o; o; o; x; o; o; o; o; x; o; o; o; o; x; o;
  o; o; o; x; o; o; o; o; x; o; o; o; o; x; o; o; o; o; x; o; o; o; o; x; o; o; o; o; x; o; o; o; o; x; o;
  o; o; o; x; o; o; o; o; x; o; o; o; o; x; o; o; o; o; x; o; o; o; o; x; o; o; o; o; x; o; o; o; o; x; o;
  o; o; o; x; o; o; o; o; x; o; o; o; o; x; o; o; o; o; x; o; o; o; o; x; o; o; o; o; x; o; o; o; o; x; o;
  o; o; o; x; o; o; o; o; x; o; o; o; o; x; o; o; o; o; x; o; o; o; o; x; o; o; o; o; x; o; o; o; o; x; o;
  o; o; o; x; o; o; o; o; x; o; o; o; o; x; o; o; o; o; x; o; o; o; o; x; o; o; o; o; x; o; o; o; o; x; o;
  o; o; o; x; o; o; o; o; x; o; o; o; o; x; o; o; o; o; x; o; o; o; o; x; o; o; o; o; x; o; o; o; o; x; o;
  o; o; o; x; o; o; o; o; x; o; o; o; o; x; o; o; o; o; x; o; o; o; o; x; o; o; o; o; x; o; o; o; o; x; o;
  o; o; o; x; o; o; o; o; x; o; o; o; o; x; o; o; o; o; x; o; o; o; o; x; o; o; o; o; x; o; o; o; o; x; x;
  o; o; o; x; x; o; o; o; x; x; o; o; o; x; x; o; o; o; x; x; o; o; o; x; o; o; o; o; x; o; o; o; o; x; o;
  o; o; o; x; o; o; o; o; x; o; o; o; o; x; o; o; o; o; x; o; o; o; o; x; o; o; o; o; x; o; o; o; o; x; o;
  o; o; o; x; o; o; o; o; x; o; o; o; o; x; o; o; o; o; x; o; o; o; o; x; o; o; o; o; x; o; o; o; o; x; o;
  o; o; o; x; o; o; o; o; x; o; o; o; o; x; o; o; o; o; x; o; o; o; o; x; o; o; o; o; x; o; o; o; o; x; o;
  o; o; o; x; o; o; o; o; x; o; o; o; o; x; o; o; o; o; x; o; o; o; o; x; o; o; o; o; x; o; o; o; o; x; o;
  o; o; o; x; o; o; o; o; x; o; o; o; o; x; o; o; o; o; x; o; o; o; o; x; o; o; o; o; x; o; o; o; o; x; o;
  o; o; o; x; o; o; o; o; x; o; o; o; o; x; o; o; o; o; x; o; o; o; o; x; o; o; o; o; x; o; o; o; o; x; o;
  o; o; o; x; o; o; o; o; x; o; o; o; o; x; o; o; o; o; x; o; o; o; o; x; o; o; o; o; x; o; o; o; o; x; o;
  o; o; o; x; o; o; o; o; x; o; o; o; o; x; o; o; o; o; x; o; o; o; o; x; o; o; o; o; x; o; o; o; o; x; o;
  o; o; o; x; o; o; o; o; x; o; o; o; o; x; o; o; o; o; x; o; o; o; o; x; o; o; o; o; x; o; o; o; o; x; o;
  o; o; o; x; o; o; o; o; x; o; o; o; o; x; o; o; o; o; x; o; o; o; o; x; o; o; o; o; x; o; o; o; o; x; x;
  o; o; o; x; x; o; o; o; x; x; o; o; o; x; x; o; o; o; x; x; o; o; o; x; x; o; o; o; x; o; o; o; o; x; o;
  o; o; o; x; o; o; o; o; x; o; o; o; o; x; o; o; o; o; x; o; o; o; o; x; o; o; o; o; x; o; o; o; o; x; o;
  o; o; o; x; o; o; o; o; x; o; o; o; o; x; o; o; o; o; x; o; o; o; o; x; o; o; o; o; x; o; o; o; o; x; o;
  o; o; o; x; o; o; o; o; x; o; o; o; o; x; o; o; o; o; x; o; o; o; o; x; o; o; o; o; x; o; o; o; o; x; o;
  o; o; o; x; o; o; o; o; x; o; o; o; o; x; o; o; o; o; x; o; o; o; o; x; o; o; o; o; x; o; o; o; o; x; o;
  o; o; o; x; o; o; o; o; x; o; o; o; o; x; o; o; o; o; x; o; o; o; o; x; o; o; o; o; x; o; o; o; o; x; o;
  o; o; o; x; o; o; o; o; x; o; o; o; o; x; o; o; o; o; x; o; o; o; o; x; o; o; o; o; x; o; o; o; o; x; o;
  o; o; o; x; o; o; o; o; x; o; o; o; o; x; o; o; o; o; x; o; o; o; o; x; o; o; o; o; x; o; o; o; o; x; o;
  o; o; o; x; o; o; o; o; x; o; o; o; o; x; o; o; o; o; x; o; o; o; o; x; o; o; o; o; x; o; o; o; o; x; o;
  o; o; o; x; o; o; o; o; x; o; o; o; o; x; o; o; o; o; x; o; o; o; o; x; o; o; o; o; x; o; o; o; o; x; o;
  o; o; o; x; o; o; o; o; x; o; o; o; o; x; o; o; o; o; x; o; o; o; o; x; o; o; o; o; x; o; o; o; o; x; o;
  o; o; o; x; o; o; o; o; x; o; o; o; o; x; o; o; o; o; x; o; o; o; o; x; o; o; o; o; x; o; o; o; o; x; o;
  o; o; o; x; x; o; o; o; x; x; o; o; o; x; x; o; o; o; x; x; o; o; o; x; x; o; o; o; x; x; o; o; o; x; x;
  o; o; o; x; o; o; o; o; x; o; o; o; o; x; o; o; o; o; x; o; o; o; o; x; o; o; o; o; x; o; o; o; o; x; o;
  o; o; o; x; o; o; o; o; x; o; o; o; o; x; o; o; o; o; x; o; o; o; o; x; o; o; o; o; x; o; o; o; o; x; o;
  o; o; o; x; o; o; o; o; x; o; o; o; o; x; o; o; o; o; x; o; o; o; o; x; o; o; o; o; x; o; o; o; o; x; o;
  o; o; o; x; o; o; o; o; x; o; o; o; o; x; o; o; o; o; x; o; o; o; o; x; o; o; o; o; x; o; o; o; o; x; o;
  o; o; o; x; o; o; o; o; x; o; o; o; o; x; o; o; o; o; x; o; o; o; o; x; o; o; o; o; x; o; o; o; o; x; o;
  o; o; o; x; o; o; o; o; x; o; o; o; o; x; o; o; o; o; x; o; o; o; o; x; o; o; o; o; x; o; o; o; o; x; o;
  o; o; o; x; o; o; o; o; x; o; o; o; o; x; o; o; o; o; x; o; o; o; o; x; o; o; o; o; x; o; o; o; o; x; o;
  o; o; o; x; o; o; o; o; x; o; o; o; o; x; o; o; o; o; x; o; o; o; o; x; o; o; o; o; x; o; o; o; o; x; o;
  o; o; o; x; o; o; o; o; x; o; o; o; o; x; o; o; o; o; x; o; o; o; o; x; o; o; o; o; x; o; o; o; o; x; o;
  o; o; o; x; o; o; o; o; x; o; o; o; o; x; o; o; o; o; x; o; o; o; o; x; o; o; o; o; x; o; o; o; o; x; o;
  o; o; o; x; o; o; o; o; x; o; o; o; o; x; o; o; o; o; x; o; o; o; o; x; o; o; o; o; x; o; o; o; o; x; o;
  o; o; o; x; o; o; o; o; x; o; o; o; o; x; o; o; o; o; x; o; o; o; o; x; o; o; o; o; x; o; o; o; o; x; o;
  o; o; o; x; o; o; o; o; x; o; o; o; o; x; x; o; o; o; x; x; o; o; o; x; x; o; o; o; x; x; o; o; o; x; x;
  o; o; o; x; x; o; o; o; x; x; o; o; o; x; x].
(** [b_g2_query] *)
Definition b_g2_query_inf : seq bool := [::
  o; x; x; x; x; x; x; x; o; o; o; o; o; o; o; o; o; o; x; o; o; o; o; x; o; o; o; o; x; o; o; o; o; x; o;
  o; o; o; x; o; o; o; o; x; o; o; o; o; x; o; o; o; o; x; o; o; o; o; x; o; o; o; o; x; o; o; o; o; x; o;
  o; o; o; x; o; o; o; o; x; o; o; o; o; x; o; o; o; o; x; o; o; o; o; x; o; o; o; o; x; o; o; o; o; x; o;
  o; o; o; x; o; o; o; o; x; o; o; o; o; x; o; o; o; o; x; o; o; o; o; x; o; o; o; o; x; o; o; o; o; x; o;
  o; o; o; x; o; o; o; o; x; o; o; o; o; x; o; o; o; o; x; o; o; o; o; x; o; o; o; o; x; o; o; o; o; x; o;
  o; o; o; x; o; o; o; o; x; o; o; o; o; x; o; o; o; o; x; o; o; o; o; x; o; o; o; o; x; o; o; o; o; x; o;
  o; o; o; x; o; o; o; o; x; o; o; o; o; x; o; o; o; o; x; o; o; o; o; x; o; o; o; o; x; x; o; o; o; x; x;
  o; o; o; x; o; o; o; o; x; o; o; o; o; x; o; o; o; o; x; o; o; o; o; x; o; o; o; o; x; o; o; o; o; x; o;
  o; o; o; x; o; o; o; o; x; o; o; o; o; x; o; o; o; o; x; o; o; o; o; x; o; o; o; o; x; o; o; o; o; x; o;
  o; o; o; x; o; o; o; o; x; o; o; o; o; x; o; o; o; o; x; o; o; o; o; x; o; o; o; o; x; o; o; o; o; x; o;
  o; o; o; x; o; o; o; o; x; o; o; o; o; x; o; o; o; o; x; o; o; o; o; x; o; o; o; o; x; o; o; o; o; x; o;
  o; o; o; x; o; o; o; o; x; o; o; o; o; x; o; o; o; o; x; o; o; o; o; x; o; o; o; o; x; o; o; o; o; x; o;
  o; o; o; x; o; o; o; o; x; o; o; o; o; x; o; o; o; o; x; o; o; o; o; x; o; o; o; o; x; o; o; o; o; x; o;
  o; o; o; x; o; o; o; o; x; o; o; o; o; x; o; o; o; o; x; o; o; o; o; x; o; o; o; o; x; o; o; o; o; x; o;
  o; o; o; x; o; o; o; o; x; o; o; o; o; x; x; o; o; o; x; x; o; o; o; x; x; o; o; o; x; o; o; o; o; x; o;
  o; o; o; x; o; o; o; o; x; o; o; o; o; x; o; o; o; o; x; o; o; o; o; x; o; o; o; o; x; o; o; o; o; x; o;
  o; o; o; x; o; o; o; o; x; o; o; o; o; x; o; o; o; o; x; o; o; o; o; x; o; o; o; o; x; o; o; o; o; x; o;
  o; o; o; x; o; o; o; o; x; o; o; o; o; x; o; o; o; o; x; o; o; o; o; x; o; o; o; o; x; o; o; o; o; x; o;
  o; o; o; x; o; o; o; o; x; o; o; o; o; x; o; o; o; o; x; o; o; o; o; x; o; o; o; o; x; o; o; o; o; x; o;
  o; o; o; x; o; o; o; o; x; o; o; o; o; x; o; o; o; o; x; o; o; o; o; x; o; o; o; o; x; o; o; o; o; x; o;
  o; o; o; x; o; o; o; o; x; o; o; o; o; x; o; o; o; o; x; o; o; o; o; x; o; o; o; o; x; o; o; o; o; x; o;
  o; o; o; x; o; o; o; o; x; o; o; o; o; x; o; o; o; o; x; o; o; o; o; x; o; o; o; o; x; o; o; o; o; x; o;
  o; o; o; x; o; o; o; o; x; o; o; o; o; x; o; o; o; o; x; o; o; o; o; x; o; o; o; o; x; o; o; o; o; x; o;
  o; o; o; x; x; o; o; o; x; x; o; o; o; x; x; o; o; o; x; x; o; o; o; x; o; o; o; o; x; o; o; o; o; x; o;
  o; o; o; x; o; o; o; o; x; o; o; o; o; x; o; o; o; o; x; o; o; o; o; x; o; o; o; o; x; o; o; o; o; x; o;
  o; o; o; x; o; o; o; o; x; o; o; o; o; x; o; o; o; o; x; o; o; o; o; x; o; o; o; o; x; o; o; o; o; x; o;
  o; o; o; x; o; o; o; o; x; o; o; o; o; x; o; o; o; o; x; o; o; o; o; x; o; o; o; o; x; o; o; o; o; x; o;
  o; o; o; x; o; o; o; o; x; o; o; o; o; x; o; o; o; o; x; o; o; o; o; x; o; o; o; o; x; o; o; o; o; x; o;
  o; o; o; x; o; o; o; o; x; o; o; o; o; x; o; o; o; o; x; o; o; o; o; x; o; o; o; o; x; o; o; o; o; x; o;
  o; o; o; x; o; o; o; o; x; o; o; o; o; x; o; o; o; o; x; o; o; o; o; x; o; o; o; o; x; o; o; o; o; x; o;
  o; o; o; x; o; o; o; o; x; o; o; o; o; x; o; o; o; o; x; o; o; o; o; x; o; o; o; o; x; o; o; o; o; x; o;
  o; o; o; x; o; o; o; o; x; o; o; o; o; x; o; o; o; o; x; o; o; o; o; x; o; o; o; o; x; o; o; o; o; x; o;
  o; o; o; x; o; o; o; o; x; o; o; o; o; x; o; o; o; o; x; o; o; o; o; x; o; o; o; o; x; o; o; o; o; x; x;
  o; o; o; x; x; o; o; o; x; x; o; o; o; x; x; o; o; o; x; x; o; o; o; x; o; o; o; o; x; o; o; o; o; x; o;
  o; o; o; x; o; o; o; o; x; o; o; o; o; x; o; o; o; o; x; o; o; o; o; x; o; o; o; o; x; o; o; o; o; x; o;
  o; o; o; x; o; o; o; o; x; o; o; o; o; x; o; o; o; o; x; o; o; o; o; x; o; o; o; o; x; o; o; o; o; x; o;
  o; o; o; x; o; o; o; o; x; o; o; o; o; x; o; o; o; o; x; o; o; o; o; x; o; o; o; o; x; o; o; o; o; x; o;
  o; o; o; x; o; o; o; o; x; o; o; o; o; x; o; o; o; o; x; o; o; o; o; x; o; o; o; o; x; o; o; o; o; x; o;
  o; o; o; x; o; o; o; o; x; o; o; o; o; x; o; o; o; o; x; o; o; o; o; x; o; o; o; o; x; o; o; o; o; x; o;
  o; o; o; x; o; o; o; o; x; o; o; o; o; x; o; o; o; o; x; o; o; o; o; x; o; o; o; o; x; o; o; o; o; x; o;
  o; o; o; x; o; o; o; o; x; o; o; o; o; x; o; o; o; o; x; o; o; o; o; x; o; o; o; o; x; o; o; o; o; x; o;
  o; o; o; x; o; o; o; o; x; o; o; o; o; x; o; o; o; o; x; o; o; o; o; x; o; o; o; o; x; o; o; o; o; x; o;
  o; o; o; x; o; o; o; o; x; o; o; o; o; x; o; o; o; o; x; o; o; o; o; x; o; o; o; o; x; o; o; o; o; x; o;
  o; o; o; x; o; o; o; o; x; o; o; o; o; x; o; o; o; o; x; o; o; o; o; x; o; o; o; o; x; o; o; o; o; x; x;
  o; o; o; x; x; o; o; o; x; x; o; o; o; x; x; o; o; o; x; x; o; o; o; x; x; o; o; o; x; o; o; o; o; x; o;
  o; o; o; x; o; o; o; o; x; o; o; o; o; x; o; o; o; o; x; o; o; o; o; x; o; o; o; o; x; o; o; o; o; x; o;
  o; o; o; x; o; o; o; o; x; o; o; o; o; x; o; o; o; o; x; o; o; o; o; x; o; o; o; o; x; o; o; o; o; x; o;
  o; o; o; x; o; o; o; o; x; o; o; o; o; x; o; o; o; o; x; o; o; o; o; x; o; o; o; o; x; o; o; o; o; x; o;
  o; o; o; x; o; o; o; o; x; o; o; o; o; x; o; o; o; o; x; o; o; o; o; x; o; o; o; o; x; o; o; o; o; x; o;
  o; o; o; x; o; o; o; o; x; o; o; o; o; x; o; o; o; o; x; o; o; o; o; x; o; o; o; o; x; o; o; o; o; x; o;
  o; o; o; x; o; o; o; o; x; o; o; o; o; x; o; o; o; o; x; o; o; o; o; x; o; o; o; o; x; o; o; o; o; x; o;
  o; o; o; x; o; o; o; o; x; o; o; o; o; x; o; o; o; o; x; o; o; o; o; x; o; o; o; o; x; o; o; o; o; x; o;
  o; o; o; x; o; o; o; o; x; o; o; o; o; x; o; o; o; o; x; o; o; o; o; x; o; o; o; o; x; o; o; o; o; x; o;
  o; o; o; x; o; o; o; o; x; o; o; o; o; x; o; o; o; o; x; o; o; o; o; x; o; o; o; o; x; o; o; o; o; x; o;
  o; o; o; x; o; o; o; o; x; o; o; o; o; x; o; o; o; o; x; o; o; o; o; x; o; o; o; o; x; o; o; o; o; x; o;
  o; o; o; x; o; o; o; o; x; o; o; o; o; x; o; o; o; o; x; o; o; o; o; x; o; o; o; o; x; o; o; o; o; x; o;
  o; o; o; x; x; o; o; o; x; x; o; o; o; x; x; o; o; o; x; x; o; o; o; x; x; o; o; o; x; x; o; o; o; x; x;
  o; o; o; x; o; o; o; o; x; o; o; o; o; x; o; o; o; o; x; o; o; o; o; x; o; o; o; o; x; o; o; o; o; x; o;
  o; o; o; x; o; o; o; o; x; o; o; o; o; x; o; o; o; o; x; o; o; o; o; x; o; o; o; o; x; o; o; o; o; x; o;
  o; o; o; x; o; o; o; o; x; o; o; o; o; x; o; o; o; o; x; o; o; o; o; x; o; o; o; o; x; o; o; o; o; x; o;
  o; o; o; x; o; o; o; o; x; o; o; o; o; x; o; o; o; o; x; o; o; o; o; x; o; o; o; o; x; o; o; o; o; x; o;
  o; o; o; x; o; o; o; o; x; o; o; o; o; x; o; o; o; o; x; o; o; o; o; x; o; o; o; o; x; o; o; o; o; x; o;
  o; o; o; x; o; o; o; o; x; o; o; o; o; x; o; o; o; o; x; o; o; o; o; x; o; o; o; o; x; o; o; o; o; x; o;
  o; o; o; x; o; o; o; o; x; o; o; o; o; x; o; o; o; o; x; o; o; o; o; x; o; o; o; o; x; o; o; o; o; x; o;
  o; o; o; x; o; o; o; o; x; o; o; o; o; x; o; o; o; o; x; o; o; o; o; x; o; o; o; o; x; o; o; o; o; x; o;
  o; o; o; x; o; o; o; o; x; o; o; o; o; x; o; o; o; o; x; o; o; o; o; x; o; o; o; o; x; o; o; o; o; x; o;
  o; o; o; x; o; o; o; o; x; o; o; o; o; x; o; o; o; o; x; o; o; o; o; x; o; o; o; o; x; o; o; o; o; x; o;
  o; o; o; x; o; o; o; o; x; o; o; o; o; x; o; o; o; o; x; o; o; o; o; x; o; o; o; o; x; o; o; o; o; x; o;
  o; o; o; x; o; o; o; o; x; o; o; o; o; x; o; o; o; o; x; o; o; o; o; x; o; o; o; o; x; o; o; o; o; x; o;
  o; o; o; x; o; o; o; o; x; o; o; o; o; x; x; o; o; o; x; x; o; o; o; x; x; o; o; o; x; x; o; o; o; x; x;
  o; o; o; x; x; o; o; o; x; x; o; o; o; x; x].
(** [l_query] *)
Definition l_query_inf : seq bool := [::
  o; o; o; o; o; o; o; o; o; o; o; o; o; o; o; o; o; o; o; o; o; o; o; o; o; o; o; o; o; o; o; o; o; o; o;
  o; o; o; o; o; o; o; o; o; o; o; o; o; o; o; o; o; o; o; o; o; o; o; o; o; o; o; o; o; o; o; o; o; o; o;
  o; o; o; o; o; o; o; o; o; o; o; o; o; o; o; o; o; o; o; o; o; o; o; o; o; o; o; o; o; o; o; o; o; o; o;
  o; o; o; o; o; o; o; o; o; o; o; o; o; o; o; o; o; o; o; o; o; o; o; o; o; o; o; o; o; o; o; o; o; o; o;
  o; o; o; o; o; o; o; o; o; o; o; o; o; o; o; o; o; o; o; o; o; o; o; o; o; o; o; o; o; o; o; o; o; o; o;
  o; o; o; o; o; o; o; o; o; o; o; o; o; o; o; o; o; o; o; o; o; o; o; o; o; o; o; o; o; o; o; o; o; o; o;
  o; o; o; o; o; o; o; o; o; o; o; o; o; o; o; o; o; o; o; o; o; o; o; o; o; o; o; o; o; o; o; o; o; o; o;
  o; o; o; o; o; o; o; o; o; o; o; o; o; o; o; o; o; o; o; o; o; o; o; o; o; o; o; o; o; o; o; o; o; o; o;
  o; o; o; o; o; o; o; o; o; o; o; o; o; o; o; o; o; o; o; o; o; o; o; o; o; o; o; o; o; o; o; o; o; o; o;
  o; o; o; o; o; o; o; o; o; o; o; o; o; o; o; o; o; o; o; o; o; o; o; o; o; o; o; o; o; o; o; o; o; o; o;
  o; o; o; o; o; o; o; o; o; o; o; o; o; o; o; o; o; o; o; o; o; o; o; o; o; o; o; o; o; o; o; o; o; o; o;
  o; o; o; o; o; o; o; o; o; o; o; o; o; o; o; o; o; o; o; o; o; o; o; o; o; o; o; o; o; o; o; o; o; o; o;
  o; o; o; o; o; o; o; o; o; o; o; o; o; o; o; o; o; o; o; o; o; o; o; o; o; o; o; o; o; o; o; o; o; o; o;
  o; o; o; o; o; o; o; o; o; o; o; o; o; o; o; o; o; o; o; o; o; o; o; o; o; o; o; o; o; o; o; o; o; o; o;
  o; o; o; o; o; o; o; o; o; o; o; o; o; o; o; o; o; o; o; o; o; o; o; o; o; o; o; o; o; o; o; o; o; o; o;
  o; o; o; o; o; o; o; o; o; o; o; o; o; o; o; o; o; o; o; o; o; o; o; o; o; o; o; o; o; o; o; o; o; o; o;
  o; o; o; o; o; o; o; o; o; o; o; o; o; o; o; o; o; o; o; o; o; o; o; o; o; o; o; o; o; o; o; o; o; o; o;
  o; o; o; o; o; o; o; o; o; o; o; o; o; o; o; o; o; o; o; o; o; o; o; o; o; o; o; o; o; o; o; o; o; o; o;
  o; o; o; o; o; o; o; o; o; o; o; o; o; o; o; o; o; o; o; o; o; o; o; o; o; o; o; o; o; o; o; o; o; o; o;
  o; o; o; o; o; o; o; o; o; o; o; o; o; o; o; o; o; o; o; o; o; o; o; o; o; o; o; o; o; o; o; o; o; o; o;
  o; o; o; o; o; o; o; o; o; o; o; o; o; o; o; o; o; o; o; o; o; o; o; o; o; o; o; o; o; o; o; o; o; o; o;
  o; o; o; o; o; o; o; o; o; o; o; o; o; o; o; o; o; o; o; o; o; o; o; o; o; o; o; o; o; o; o; o; o; o; o;
  o; o; o; o; o; o; o; o; o; o; o; o; o; o; o; o; o; o; o; o; o; o; o; o; o; o; o; o; o; o; o; o; o; o; o;
  o; o; o; o; o; o; o; o; o; o; o; o; o; o; o; o; o; o; o; o; o; o; o; o; o; o; o; o; o; o; o; o; o; o; o;
  o; o; o; o; o; o; o; o; o; o; o; o; o; o; o; o; o; o; o; o; o; o; o; o; o; o; o; o; o; o; o; o; o; o; o;
  o; o; o; o; o; o; o; o; o; o; o; o; o; o; o; o; o; o; o; o; o; o; o; o; o; o; o; o; o; o; o; o; o; o; o;
  o; o; o; o; o; o; o; o; o; o; o; o; o; o; o; o; o; o; o; o; o; o; o; o; o; o; o; o; o; o; o; o; o; o; o;
  o; o; o; o; o; o; o; o; o; o; o; o; o; o; o; o; o; o; o; o; o; o; o; o; o; o; o; o; o; o; o; o; o; o; o;
  o; o; o; o; o; o; o; o; o; o; o; o; o; o; o; o; o; o; o; o; o; o; o; o; o; o; o; o; o; o; o; o; o; o; o;
  o; o; o; o; o; o; o; o; o; o; o; o; o; o; o; o; o; o; o; o; o; o; o; o; o; o; o; o; o; o; o; o; o; o; o;
  o; o; o; o; o; o; o; o; o; o; o; o; o; o; o; o; o; o; o; o; o; o; o; o; o; o; o; o; o; o; o; o; o; o; o;
  o; o; o; o; o; o; o; o; o; o; o; o; o; o; o; o; o; o; o; o; o; o; o; o; o; o; o; o; o; o; o; o; o; o; o;
  o; o; o; o; o; o; o; o; o; o; o; o; o; o; o; o; o; o; o; o; o; o; o; o; o; o; o; o; o; o; o; o; o; o; o;
  o; o; o; o; o; o; o; o; o; o; o; o; o; o; o; o; o; o; o; o; o; o; o; o; o; o; o; o; o; o; o; o; o; o; o;
  o; o; o; o; o; o; o; o; o; o; o; o; o; o; o; o; o; o; o; o; o; o; o; o; o; o; o; o; o; o; o; o; o; o; o;
  o; o; o; o; o; o; o; o; o; o; o; o; o; o; o; o; o; o; o; o; o; o; o; o; o; o; o; o; o; o; o; o; o; o; o;
  o; o; o; o; o; o; o; o; o; o; o; o; o; o; o; o; o; o; o; o; o; o; o; o; o; o; o; o; o; o; o; o; o; o; o;
  o; o; o; o; o; o; o; o; o; o; o; o; o; o; o; o; o; o; o; o; o; o; o; o; o; o; o; o; o; o; o; o; o; o; o;
  o; o; o; o; o; o; o; o; o; o; o; o; o; o; o; o; o; o; o; o; o; o; o; o; o; o; o; o; o; o; o; o; o; o; o;
  o; o; o; o; o; o; o; o; o; o; o; o; o; o; o; o; o; o; o; o; o; o; o; o; o; o; o; o; o; o; o; o; o; o; o;
  o; o; o; o; o; o; o; o; o; o; o; o; o; o; o; o; o; o; o; o; o; o; o; o; o; o; o; o; o; o; o; o; o; o; o;
  o; o; o; o; o; o; o; o; o; o; o; o; o; o; o; o; o; o; o; o; o; o; o; o; o; o; o; o; o; o; o; o; o; o; o;
  o; o; o; o; o; o; o; o; o; o; o; o; o; o; o; o; o; o; o; o; o; o; o; o; o; o; o; o; o; o; o; o; o; o; o;
  o; o; o; o; o; o; o; o; o; o; o; o; o; o; o; o; o; o; o; o; o; o; o; o; o; o; o; o; o; o; o; o; o; o; o;
  o; o; o; o; o; o; o; o; o; o; o; o; o; o; o; o; o; o; o; o; o; o; o; o; o; o; o; o; o; o; o; o; o; o; o;
  o; o; o; o; o; o; o; o; o; o; o; o; o; o; o; o; o; o; o; o; o; o; o; o; o; o; o; o; o; o; o; o; o; o; o;
  o; o; o; o; o; o; o; o; o; o; o; o; o; o; o; o; o; o; o; o; o; o; o; o; o; o; o; o; o; o; o; o; o; o; o;
  o; o; o; o; o; o; o; o; o; o; o; o; o; o; o; o; o; o; o; o; o; o; o; o; o; o; o; o; o; o; o; o; o; o; o;
  o; o; o; o; o; o; o; o; o; o; o; o; o; o; o; o; o; o; o; o; o; o; o; o; o; o; o; o; o; o; o; o; o; o; o;
  o; o; o; o; o; o; o; o; o; o; o; o; o; o; o; o; o; o; o; o; o; o; o; o; o; o; o; o; o; o; o; o; o; o; o;
  o; o; o; o; o; o; o; o; o; o; o; o; o; o; o; o; o; o; o; o; o; o; o; o; o; o; o; o; o; o; o; o; o; o; o;
  o; o; o; o; o; o; o; o; o; o; o; o; o; o; o; o; o; o; o; o; o; o; o; o; o; o; o; o; o; o; o; o; o; o; o;
  o; o; o; o; o; o; o; o; o; o; o; o; o; o; o; o; o; o; o; o; o; o; o; o; o; o; o; o; o; o; o; o; o; o; o;
  o; o; o; o; o; o; o; o; o; o; o; o; o; o; o; o; o; o; o; o; o; o; o; o; o; o; o; o; o; o; o; o; o; o; o;
  o; o; o; o; o; o; o; o; o; o; o; o; o; o; o; o; o; o; o; o; o; o; o; o; o; o; o; o; o; o; o; o; o; o; o;
  o; o; o; o; o; o; o; o; o; o; o; o; o; o; o; o; o; o; o; o; o; o; o; o; o; o; o; o; o; o; o; o; o; o; o;
  o; o; o; o; o; o; o; o; o; o; o; o; o; o; o; o; o; o; o; o; o; o; o; o; o; o; o; o; o; o; o; o; o; o; o;
  o; o; o; o; o; o; o; o; o; o; o; o; o; o; o; o; o; o; o; o; o; o; o; o; o; o; o; o; o; o; o; o; o; o; o;
  o; o; o; o; o; o; o; o; o; o; o; o; o; o; o; o; o; o; o; o; o; o; o; o; o; o; o; o; o; o; o; o; o; o; o;
  o; o; o; o; o; o; o; o; o; o; o; o; o; o; o; o; o; o; o; o; o; o; o; o; o; o; o; o; o; o; o; o; o; o; o;
  o; o; o; o; o; o; o; o; o; o; o; o; o; o; o; o; o; o; o; o; o; o; o; o; o; o; o; o; o; o; o; o; o; o; o;
  o; o; o; o; o; o; o; o; o; o; o; o; o; o; o; o; o; o; o; o; o; o; o; o; o; o; o; o; o; o; o; o; o; o; o;
  o; o; o; o; o; o; o; o; o; o; o; o; o; o; o; o; o; o; o; o; o; o; o; o; o; o; o; o; o; o; o; o; o; o; o;
  o; o; o; o; o; o; o; o; o; o; o; o; o; o; o; o; o; o; o; o; o; o; o; o; o; o; o; o; o; o; o; o; o; o; o;
  o; o; o; o; o; o; o; o; o; o; o; o; o; o; o; o; o; o; o; o; o; o; o; o; o; o; o; o; o; o; o; o; o; o; o;
  o; o; o; o; o; o; o; o; o; o; o; o; o; o; o; o; o; o; o; o; o; o; o; o; o; o; o; o; o; o; o; o; o; o; o;
  o; o; o; o; o; o; o; o; o; o; o; o; o; o; o; o; o; o; o; o; o; o; o; o; o; o; o; o; o; o; o; o; o; o; o;
  o; o; o; o; o; o; o; o; o; o; o; o; o; o; o; o; o; o; o; o; o; o; o; o; o; o; o; o; o; o; o; o; o; o; o;
  o; o; o; o; o; o; o; o; o; o; o; o; o; o; o; o; o; o; o; o; o; o; o; o; o; o; o; o; o; o; o; o; o; o; o;
  o; o; o; o; o; o; o; o; o; o; o; o; o; o; o; o; o; o; o; o; o; o; o; o; o; o; o; o; o; o; o; o; o; o; o;
  o; o; o; o; o; o; o].
