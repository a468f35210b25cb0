(** Model of the generator of
    /repo/vendor/hadeshash/code/generate_parameters_grain.sage (lines 39-131, 286-301): the
    shift register, the round constants and the candidate matrices.  The tests of the
    matrices (133-301) are in [Grain.v].

    A list of bits is a [seq bool]; the Sage generator object is the list
    [bit_sequence] it works on, passed from call to call.  Loops without a bound have a
    parameter [fuel]; [None] means that it was not enough.  Not modelled: reading the
    arguments (15-37), printing, the branch for GF(2^n), which the script itself refuses. *)
From Coq Require Import ZArith NArith.
From mathcomp Require Import all_ssreflect all_algebra.
From Verif Require Import PrimeField Grain.
Set Implicit Arguments.
Unset Strict Implicit.
Unset Printing Implicit Defensive.
Delimit Scope Z_scope with Z.

Notation bits := (seq bool).

(** [new_bit] (42, 47, 51, 54, 57) *)
Definition new_bit_of (s : bits) : bool :=
  nth false s 62 (+) nth false s 51 (+) nth false s 38 (+) nth false s 23 (+) nth false s 13 (+) nth false s 0.

(** [bit_sequence.pop(0); bit_sequence.append(new_bit)] *)
Definition shift (s : bits) : bool * bits :=
  let new_bit := new_bit_of s in (new_bit, rcons (behead s) new_bit).

(** 41-44 *)
Definition warm_up (s : bits) : bits := iter 160 (fun s => (shift s).2) s.

(** 50-56: the inner loop *)
Fixpoint skip_zeros (fuel : nat) (new_bit : bool) (s : bits) : option bits :=
  if new_bit then Some s
  else if fuel is fuel'.+1 then
    let: (_, s) := shift s in
    let: (new_bit, s) := shift s in
    skip_zeros fuel' new_bit s
  else None.

(** 46-60: one round of the outer loop, the bit that is yielded and the list afterwards *)
Definition next (fuel : nat) (s : bits) : option (bool * bits) :=
  let: (new_bit, s) := shift s in
  if skip_zeros fuel new_bit s is Some s then Some (shift s) else None.

(** 64: [[next(grain_gen) for i in range(0, num_bits)]] *)
Fixpoint next_bits (fuel num_bits : nat) (s : bits) : option (bits * bits) :=
  if num_bits is k.+1 then
    if next fuel s is Some (b, s) then
      if next_bits fuel k s is Some (bs, s) then Some (b :: bs, s) else None
    else None
  else Some ([::], s).

(** [int(string, 2)] *)
Definition int_2 (bs : bits) : Z := foldl (fun z (b : bool) => (2 * z + (if b then 1 else 0))%Z) 0%Z bs.

(** 63-67; [int("", 2)] raises *)
Definition grain_random_bits (fuel num_bits : nat) (s : bits) : option (Z * bits) :=
  if num_bits is 0 then None
  else if next_bits fuel num_bits s is Some (bs, s) then Some (int_2 bs, s) else None.

(** [bin(x)[2:]] *)
Fixpoint bin_pos (x : positive) : bits :=
  match x with
  | xH => [:: true]
  | xO y => rcons (bin_pos y) false
  | xI y => rcons (bin_pos y) true
  end.
Definition bin (x : N) : bits := match x with N0 => [:: false] | Npos y => bin_pos y end.
(** [.zfill(width)]: longer strings are not cut *)
Definition zfill (width : nat) (s : bits) : bits := nseq (width - size s) false ++ s.

(** 69-80 *)
Definition init_generator (field sbox n t R_F R_P : N) : bits :=
  zfill 2 (bin field) ++ zfill 4 (bin sbox) ++ zfill 12 (bin n) ++ zfill 12 (bin t) ++
  zfill 10 (bin R_F) ++ zfill 10 (bin R_P) ++ nseq 30 true.

(** 92-95: numbers are drawn until one is below the prime *)
Fixpoint random_below (fuel retries n : nat) (prime_number : Z) (s : bits) : option (Z * bits) :=
  if retries is retries'.+1 then
    if grain_random_bits fuel n s is Some (random_int, s) then
      if (prime_number <=? random_int)%Z then random_below fuel retries' n prime_number s
      else Some (random_int, s)
    else None
  else None.

Fixpoint draw_constants (fuel retries n : nat) (prime_number : Z) (num_constants : nat) (s : bits) : option (seq Z * bits) :=
  if num_constants is k.+1 then
    if random_below fuel retries n prime_number s is Some (c, s) then
      if draw_constants fuel retries n prime_number k s is Some (cs, s) then Some (c :: cs, s) else None
    else None
  else Some ([::], s).

(** 82-97 *)
Definition generate_constants (fuel retries n t R_F R_P : nat) (prime_number : Z) (s : bits) : option (seq Z * bits) :=
  draw_constants fuel retries n prime_number ((R_F + R_P) * t) s.

Section Matrix.
Variable PF : prime_field.
Import GRing.Theory.
Local Open Scope ring_scope.

(** [[F(grain_random_bits(n)) for _ in range(0, k)]] *)
Fixpoint draw_elements (fuel n k : nat) (s : bits) : option (seq PF * bits) :=
  if k is k'.+1 then
    if grain_random_bits fuel n s is Some (x, s) then
      if draw_elements fuel n k' s is Some (xs, s) then Some (pf_of PF x :: xs, s) else None
    else None
  else Some ([::], s).

(** 115-117: drawn until there are no duplicates *)
Fixpoint draw_distinct (fuel retries n k : nat) (s : bits) : option (seq PF * bits) :=
  if retries is retries'.+1 then
    if draw_elements fuel n k s is Some (rand_list, s) then
      if uniq rand_list then Some (rand_list, s) else draw_distinct fuel retries' n k s
    else None
  else None.

(** 109-131: drawn until no denominator is zero *)
Fixpoint create_mds_p (fuel retries n t : nat) (s : bits) : option ('M[PF]_t * bits) :=
  if retries is retries'.+1 then
    if draw_distinct fuel retries n (2 * t) s is Some (rand_list, s) then
      let xs := take t rand_list in
      let ys := drop t rand_list in
      if all (fun i => all (fun j => nth 0 xs i + nth 0 ys j != 0) (iota 0 t)) (iota 0 t) then
        Some (\matrix_(i, j) (nth 0 xs i + nth 0 ys j)^-1, s)
      else create_mds_p fuel retries' n t s
    else None
  else None.

(** 286-301: candidates are drawn until one passes the three tests; [field] lists the
    elements of the field ([Grain.v]). *)
Fixpoint generate_matrix (field : seq PF) (fuel retries n t1 : nat) (s : bits) : option ('M[PF]_(1 + t1) * bits) :=
  if retries is retries'.+1 then
    if create_mds_p fuel retries n (1 + t1) s is Some (mds_matrix, s) then
      if accepted field mds_matrix then Some (mds_matrix, s)
      else generate_matrix field fuel retries' n t1 s
    else None
  else None.
End Matrix.
