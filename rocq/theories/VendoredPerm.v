(** Model of [perm] in the four scripts
    /repo/vendor/hadeshash/code/poseidonperm_x5_{254_3,254_5,255_3,255_5}.sage: their
    lines from 13 on are the same text.  For any field, width, matrix, constants and round numbers.

    The words are a list; an index beyond the end of a list raises ([Panic]), and so does
    the product of the matrix with a vector of another length.  The printing functions
    (24-32) are omitted. *)
From Coq Require Import ZArith.
From mathcomp Require Import all_ssreflect all_algebra.
From Verif Require Import Base MatrixSpec PrimeField GrainTables.
Set Implicit Arguments.
Unset Strict Implicit.
Unset Printing Implicit Defensive.
Import GRing.Theory.
Local Open Scope ring_scope.
Local Open Scope rust_scope.

Section X5.
Variables (F : fieldType) (t : nat).

(** The global names of the scripts (4-20) *)
Variables (R_F R_P : nat) (MDS_matrix_field : 'M[F]_t) (round_constants_field : seq F).

(** [for i in range(0, t)]: add the next constant to word [i] (45-47, 55-57, 64-66);
    the state is (state_words, round_constants_counter) *)
Definition x5_add_constants (st : seq F * nat) : outcome (seq F * nat) :=
  for_in (iota 0 t) (fun i st =>
    let: (state_words, counter) := st in
    x <- aget state_words i ;; k <- aget round_constants_field counter ;;
    state_words <- aset state_words i (x + k) ;;
    Ret (state_words, counter.+1)) st.

(** 48-49, 67-68 *)
Definition x5_sbox_all (state_words : seq F) : outcome (seq F) :=
  for_in (iota 0 t) (fun i state_words => x <- aget state_words i ;; aset state_words i (x ^+ 5)) state_words.

(** 58 *)
Definition x5_sbox_0 (state_words : seq F) : outcome (seq F) := x <- aget state_words 0 ;; aset state_words 0 (x ^+ 5).

(** [list(MDS_matrix_field * vector(state_words))] (50, 59, 69) *)
Definition x5_mix (state_words : seq F) : outcome (seq F) :=
  if size state_words == t then Ret (ofV (MDS_matrix_field *m toV t state_words)) else Panic.

Definition x5_full_round (_ : nat) (st : seq F * nat) : outcome (seq F * nat) :=
  st <- x5_add_constants st ;; let: (state_words, counter) := st in
  state_words <- x5_sbox_all state_words ;; state_words <- x5_mix state_words ;; Ret (state_words, counter).
Definition x5_partial_round (_ : nat) (st : seq F * nat) : outcome (seq F * nat) :=
  st <- x5_add_constants st ;; let: (state_words, counter) := st in
  state_words <- x5_sbox_0 state_words ;; state_words <- x5_mix state_words ;; Ret (state_words, counter).

(** 34-71 *)
Definition x5_perm (input_words : seq F) : outcome (seq F) :=
  let R_f := (R_F %/ 2)%N in
  st <- for_in (iota 0 R_f) x5_full_round (input_words, 0%N) ;;
  st <- for_in (iota 0 R_P) x5_partial_round st ;;
  st <- for_in (iota 0 R_f) x5_full_round st ;;
  Ret st.1.
End X5.

(** [MDS_matrix_field] and [round_constants_field] of a script, over the field [GF(prime)]
    (x5: 13-20; x3_64_24_optimized: 22-29); the tables are in [GrainTables.v]. *)
Section Fields.
Variables (PF : prime_field) (V : vendored).
Definition v_matrix_field (t : nat) : 'M[PF]_t := \matrix_(i, j) pf_of PF (nth 0%Z (nth [::] (v_MDS_matrix V) i) j).
Definition v_constants_field : seq PF := [seq pf_of PF c | c <- v_round_constants V].
End Fields.
