(** Model of /repo/poseidon-paramgen/src/input.rs, transcript.rs and the
    generation of round constants in round_constants.rs:16-47, over an arbitrary
    implementation of Merlin transcripts (external). *)
From Coq Require Import ZArith NArith Ascii String.
From mathcomp Require Import all_ssreflect all_algebra.
From Verif Require Import Base Matrix Params Bytes PrimeField Alpha.
Set Implicit Arguments.
Unset Strict Implicit.
Unset Printing Implicit Defensive.
Local Open Scope rust_scope.
Delimit Scope Z_scope with Z.

(** A Rust byte string literal. *)
Fixpoint str (s : string) : bytes :=
  match s with
  | EmptyString => [::]
  | String c s' => N_of_ascii c :: str s'
  end.

(** input.rs:7-22.  [p] is a big integer of [p_limbs] 64-bit limbs; [L] is the
    type of the floating-point field [log_2_p]. *)
Record input (L : Type) := InputParameters {
  in_allow_inverse : bool;
  in_M : N;
  in_t : nat;
  in_p : Z;
  in_p_limbs : nat;
  in_log_2_p : L }.

(** The interface of [merlin::Transcript] (external): [new],
    [append_message], [challenge_bytes] of a given number of bytes. *)
Record merlin := Merlin {
  tr_state : Type;
  tr_new : bytes -> tr_state;
  tr_append : bytes -> bytes -> tr_state -> tr_state;
  tr_challenge : bytes -> nat -> tr_state -> bytes * tr_state;
  tr_challenge_size : forall l n s, size (tr_challenge l n s).1 = n /\ is_bytes (tr_challenge l n s).1 }.

Section Transcript.
Variables (L : Type) (PF : prime_field) (Me : merlin).
Local Notation state := (tr_state Me).

(** transcript.rs:18-35.  [usize] has 8 bytes; [as u8] keeps the low byte. *)
Definition domain_sep (i : input L) (r : rounds) (a : alpha) (s : state) : state :=
  let s := tr_append (str "dom-sep") (str "poseidon-paramgen") s in
  let s := tr_append (str "t") (le_bytes 8 (N.of_nat (in_t i))) s in
  let s := tr_append (str "M") (le_bytes 8 (in_M i)) s in
  let s := tr_append (str "p") (le_bytes (8 * in_p_limbs i) (Z.to_N (in_p i))) s in
  let s := tr_append (str "r_F") [:: N.modulo (N.of_nat (r_F r)) 256] s in
  let s := tr_append (str "r_P") [:: N.modulo (N.of_nat (r_P r)) 256] s in
  tr_append (str "alpha") (alpha_to_bytes_le a) s.

(** transcript.rs:37-42 *)
Definition size_in_bytes : nat := (modulus_bits PF + 135) %/ 8.
Definition round_constant (s : state) : PF * state :=
  let: (dest, s) := tr_challenge (str "round-constant") size_in_bytes s in
  (pf_of PF (Z.of_N (le_val dest)), s).

(** [(0..n).map(|_| transcript.round_constant()).collect()] *)
Fixpoint round_constants (n : nat) (s : state) : seq PF * state :=
  if n is n'.+1 then
    let: (c, s) := round_constant s in
    let: (cs, s) := round_constants n' s in
    (c :: cs, s)
  else ([::], s).

(** round_constants.rs:16-29 *)
Definition v1_generate_arc (i : input L) (r : rounds) (a : alpha) : outcome (rmat PF) :=
  let s := domain_sep i r a (tr_new Me (str "round-constants")) in
  let num_total_rounds := rounds_total r in
  let: (els, _) := round_constants (num_total_rounds * in_t i) s in
  mnew num_total_rounds (in_t i) (size els) els.

(** round_constants.rs:32-47 *)
Definition v2_generate_arc (i : input L) (r : rounds) (a : alpha) : outcome (rmat PF) :=
  let s := domain_sep i r a (tr_new Me (str "round-constants")) in
  let num_round_constants := (r_F r * in_t i + r_P r)%N in
  let: (els, _) := round_constants num_round_constants s in
  mnew num_round_constants 1 (size els) els.
End Transcript.
