(** Model of the reference script /repo/poseidonperm_x17.sage (178-345), for any field,
    width, matrix, constants and round numbers.

    A Sage matrix is a mathcomp matrix; [.inverse()] of a singular matrix raises
    ([Panic]).  A list of [t] words is a row vector.  A list of rows of constants is a
    function from row numbers.  The timers are omitted. *)
From mathcomp Require Import all_ssreflect all_algebra.
From Verif Require Import Base.
Set Implicit Arguments.
Unset Strict Implicit.
Unset Printing Implicit Defensive.
Import GRing.Theory.
Local Open Scope ring_scope.
Local Open Scope rust_scope.

Section Sage.
Variables (F : fieldType) (t1 : nat).
Local Notation t := (1 + t1)%N.
Local Notation words := 'rV[F]_t.
Local Notation mat := 'M[F]_t.

(** The global names of the script (5-13, 178-186; [R_F] even, otherwise [range] rejects [R_f]) *)
Variables (alpha R_F R_P : nat) (MDS_matrix_field : mat) (round_constants_field : seq F).
Definition R_f : nat := (R_F %/ 2)%N.
Definition R_T : nat := (R_F + R_P)%N.

Definition sage_inverse n (A : 'M[F]_n) : outcome 'M[F]_n := if A \in unitmx then Ret (invmx A) else Panic.

(** [[constants[index:index+t] for index in range(0, len(constants), t)]] (189, 302) *)
Definition chunks (constants : seq F) (r : nat) : words := \row_i nth 0 constants (r * t + i).

(** 188-202 *)
Definition constants_step (i : nat) (constants_temp : nat -> words) : outcome (nat -> words) :=
  let MDS_matrix_field_transpose := MDS_matrix_field^T in
  inv <- sage_inverse MDS_matrix_field_transpose ;;
  let inv_cip1 : words := constants_temp i.+1 *m inv in
  Ret (fun r =>
    if r == i.+1 then row_mx (lsubmx inv_cip1) 0
    else if r == i then constants_temp i + row_mx 0 (rsubmx inv_cip1)
    else constants_temp r).
Definition calc_equivalent_constants (constants : seq F) : outcome (nat -> words) :=
  for_in (rev (iota R_f (R_T - 1 - R_f - R_f))) constants_step (chunks constants).

(** 204-228; the state is (M_i, M_mul, v_collection, w_hat_collection) *)
Definition matrices_step (i : nat) (st : mat * mat * seq 'rV[F]_t1 * seq 'cV[F]_t1) :=
  let: (M_i, M_mul, v_collection, w_hat_collection) := st in
  let MDS_matrix_field_transpose := MDS_matrix_field^T in
  let M_hat : 'M[F]_t1 := drsubmx M_mul in
  let w : 'cV[F]_t1 := dlsubmx M_mul in
  let v : 'rV[F]_t1 := ursubmx M_mul in
  M_hat_inverse <- sage_inverse M_hat ;;
  let w_hat := M_hat_inverse *m w in
  let M_i : mat := block_mx 1%:M 0 0 M_hat in
  let M_mul := MDS_matrix_field_transpose *m M_i in
  Ret (M_i, M_mul, rcons v_collection v, rcons w_hat_collection w_hat).
Definition calc_equivalent_matrices : outcome (mat * seq 'rV[F]_t1 * seq 'cV[F]_t1) :=
  let MDS_matrix_field_transpose := MDS_matrix_field^T in
  st <- for_in (rev (iota 0 R_P)) matrices_step (0, MDS_matrix_field_transpose, [::], [::]) ;;
  let: (M_i, _, v_collection, w_hat_collection) := st in
  Ret (M_i, v_collection, w_hat_collection).

(** 230-237 *)
Definition cheap_matrix_mul (state_words : words) (v : 'rV[F]_t1) (w_hat : 'cV[F]_t1) (M_0_0 : F) : words :=
  let column_1 : 'cV[F]_t := col_mx M_0_0%:M w_hat in
  let new_0 := \sum_i column_1 i 0 * state_words 0 i in
  let mul_row : 'rV[F]_t1 := \row_i (state_words 0 0 * v 0 i) in
  let add_row : 'rV[F]_t1 := \row_i (mul_row 0 i + state_words 0 (rshift 1 i)) in
  row_mx (\row_(_ < 1) new_0) add_row.

(** One full round (256-263, 288-295); the state is (state_words, round_constants_round_counter) *)
Definition full_step (constants : nat -> words) (st : words * nat) (r : nat) : words * nat :=
  let: (state_words, counter) := st in
  let state_words := \row_i (state_words 0 i + constants counter 0 i) in
  let state_words := \row_i (state_words 0 i) ^+ alpha in
  let state_words := (MDS_matrix_field *m state_words^T)^T in
  (state_words, counter.+1).

(** [state_words[0] = x] *)
Definition set_word_0 (state_words : words) (x : F) : words := \row_i (if i == 0 then x else state_words 0 i).

(** 239-299 *)
Definition perm (input_words : words) : outcome words :=
  round_constants_field_new <- calc_equivalent_constants round_constants_field ;;
  ms <- calc_equivalent_matrices ;;
  let: (M_i, v_collection, w_hat_collection) := ms in
  let M_0_0 := MDS_matrix_field 0 0 in
  let st := foldl (full_step round_constants_field_new) (input_words, 0%N) (iota 0 R_f) in
  let: (state_words, counter) := st in
  let state_words := \row_i (state_words 0 i + round_constants_field_new counter 0 i) in
  let state_words := state_words *m M_i in
  let st := foldl (fun (st : words * nat) r =>
    let: (state_words, counter) := st in
    let state_words := set_word_0 state_words (state_words 0 0 ^+ alpha) in
    let st := if (r < R_P - 1)%N then
        (set_word_0 state_words (state_words 0 0 + round_constants_field_new counter.+1 0 0), counter.+1)
      else (state_words, counter) in
    let: (state_words, counter) := st in
    (cheap_matrix_mul state_words (nth 0 v_collection (R_P - r - 1)) (nth 0 w_hat_collection (R_P - r - 1)) M_0_0,
     counter)) (state_words, counter) (iota 0 R_P) in
  let: (state_words, counter) := st in
  let counter := counter.+1 in
  let st := foldl (full_step round_constants_field_new) (state_words, counter) (iota 0 R_f) in
  Ret st.1.

(** 301-345 *)
Definition perm_original (input_words : words) : words :=
  let round_constants_field_new := chunks round_constants_field in
  let st := foldl (full_step round_constants_field_new) (input_words, 0%N) (iota 0 R_f) in
  let st := foldl (fun (st : words * nat) r =>
    let: (state_words, counter) := st in
    let state_words := \row_i (state_words 0 i + round_constants_field_new counter 0 i) in
    let state_words := set_word_0 state_words (state_words 0 0 ^+ alpha) in
    let state_words := (MDS_matrix_field *m state_words^T)^T in
    (state_words, counter.+1)) st (iota 0 R_P) in
  let st := foldl (full_step round_constants_field_new) st (iota 0 R_f) in
  st.1.
End Sage.
