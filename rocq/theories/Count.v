(** The functions of /repo/poseidon-permutation/src/permutation.rs with a count of the
    operations on field elements that they perform: the programs that
    /repo/poseidon-consistency/benches/permutation.rs compares.

    The text is that of [Permutation.v]; every multiplication, addition and application of
    the S-box goes through [cmul], [cadd] and [csbox], which count it.  What an S-box costs
    ([Fq::power], or a division) is left open.  [Iterator::sum] adds every element to a sum
    that starts at zero (contract of [Sum] for [Fq]). *)
From Coq Require Import NArith.
From mathcomp Require Import all_ssreflect all_algebra.
From Verif Require Import Base Matrix Params Permutation.
Set Implicit Arguments.
Unset Strict Implicit.
Unset Printing Implicit Defensive.
Import GRing.Theory.
Local Open Scope ring_scope.

(** * Counting *)
Record ops := Ops { n_mul : nat; n_add : nat; n_sbox : nat }.
Definition no_ops : ops := Ops 0 0 0.
Definition oadd (a b : ops) : ops := Ops (n_mul a + n_mul b) (n_add a + n_add b) (n_sbox a + n_sbox b).

(** A program that counts: from the count so far to the result and the new count *)
Definition counted (A : Type) : Type := ops -> outcome (A * ops).
Definition cret A (a : A) : counted A := fun o => Ret (a, o).
Definition cbind A B (m : counted A) (k : A -> counted B) : counted B :=
  fun o => match m o with Ret (a, o') => k a o' | Panic => Panic end.
(** Steps without field operations *)
Definition free A (m : outcome A) : counted A :=
  fun o => match m with Ret a => Ret (a, o) | Panic => Panic end.
Definition tick A (k : ops) (m : outcome A) : counted A :=
  fun o => match m with Ret a => Ret (a, oadd o k) | Panic => Panic end.
Fixpoint cfor T S (xs : seq T) (body : T -> S -> counted S) (s : S) : counted S :=
  match xs with
  | [::] => cret s
  | x :: xs' => cbind (body x s) (cfor xs' body)
  end.

Declare Scope count_scope.
Delimit Scope count_scope with count.
Notation "x <- m ;; k" := (cbind m (fun x => k))
  (at level 61, m at next level, right associativity) : count_scope.
Local Open Scope count_scope.

Section Count.
Variable F : fieldType.
Variable p : params F.
Let STATE_SIZE := p_t p.
Let STATE_SIZE_MINUS_1 := p_t1 p.
Let R_f := ((r_F (p_rounds p)) %/ 2)%N.
Let R_P := r_P (p_rounds p).

Definition cmul (x y : F) : counted F := tick (Ops 1 0 0) (Ret (x * y)).
Definition cadd (x y : F) : counted F := tick (Ops 0 1 0) (Ret (x + y)).
Definition csbox (x : F) : counted F := tick (Ops 0 0 1) (sbox p x).

(** [.iter().zip(..).map(|(x, y)| *x * *y).sum()] at permutation.rs:246-250, 261-265, 287-292 *)
Definition csum_products (a b : seq F) : counted F :=
  cfor (zip a b) (fun xy acc => z <- cmul xy.1 xy.2 ;; cadd acc z) 0.

(** permutation.rs:219-224 *)
Definition cpartial_sub_words (st : seq F) : counted (seq F) :=
  x <- free (aget st 0) ;; y <- csbox x ;; free (aset st 0 y).

(** permutation.rs:227-240 *)
Definition cfull_sub_words (st : seq F) : counted (seq F) :=
  cfor (range 0 STATE_SIZE) (fun i st =>
    x <- free (aget st i) ;; y <- csbox x ;; free (aset st i y)) st.

(** permutation.rs:243-254 and 257-269 *)
Definition cmix_layer (m : rmat F) (st : seq F) : counted (seq F) :=
  rows <- free (iter_rows m) ;;
  cfor (enumerate rows) (fun ir acc => s <- csum_products ir.2 st ;; free (aset acc ir.1 s))
    (nseq STATE_SIZE 0).
Definition cmix_layer_mi (st : seq F) : counted (seq F) := cmix_layer (om_M_i (p_optimized_mds p)) st.
Definition cmix_layer_mds (st : seq F) : counted (seq F) := cmix_layer (p_mds p) st.

(** permutation.rs:272-296 *)
Definition csparse_mat_mul (round_number : nat) (st : seq F) : counted (seq F) :=
  vm <- free (aget (om_v_collection (p_optimized_mds p)) round_number) ;;
  add_row <- cfor (enumerate (elements vm)) (fun ix add_row =>
      s0 <- free (aget st 0) ;; si <- free (aget st ix.1.+1) ;;
      z <- cmul ix.2 s0 ;; s <- cadd z si ;;
      free (aset add_row ix.1 s))
    (nseq STATE_SIZE_MINUS_1 0) ;;
  s0 <- free (aget st 0) ;;
  wm <- free (aget (om_w_hat_collection (p_optimized_mds p)) round_number) ;;
  tl <- free (aslice st 1 STATE_SIZE) ;;
  a <- cmul (om_M_00 (p_optimized_mds p)) s0 ;;
  b <- csum_products (elements wm) tl ;;
  s <- cadd a b ;;
  st <- free (aset st 0 s) ;;
  n <- free (usub STATE_SIZE 1) ;;
  src <- free (aslice add_row 0 n) ;;
  tl <- free (aslice st 1 STATE_SIZE) ;;
  free (if size tl != size src then Panic else Ret (take 1 st ++ src ++ drop STATE_SIZE st)).

(** permutation.rs:107-109, 117-123 and 147-153 *)
Definition cadd_constants (c : nat -> outcome F) (st : seq F) : counted (seq F) :=
  cfor (range 0 STATE_SIZE) (fun i st =>
    x <- free (aget st i) ;; k <- free (c i) ;; s <- cadd x k ;; free (aset st i s)) st.

(** permutation.rs:101-158 *)
Definition cpermute (st : seq F) : counted (seq F) :=
  let oarc := p_optimized_arc p in
  st <- cfor (range 0 R_f) (fun r st =>
          st <- cadd_constants (get_element oarc r) st ;;
          st <- cfull_sub_words st ;;
          cmix_layer_mds st) st ;;
  let counter := R_f in
  st <- cadd_constants (get_element oarc counter) st ;;
  st <- cmix_layer_mi st ;;
  bound <- free (usub R_P 1) ;;
  sc <- cfor (range 0 bound) (fun r sc =>
          let: (st, counter) := sc in
          st <- cpartial_sub_words st ;;
          let counter := counter.+1 in
          x <- free (aget st 0) ;; k <- free (get_element oarc counter 0) ;;
          s <- cadd x k ;;
          st <- free (aset st 0 s) ;;
          n <- free (usub R_P r) ;; n <- free (usub n 1) ;;
          st <- csparse_mat_mul n st ;;
          cret (st, counter)) (st, counter) ;;
  let: (st, counter) := sc in
  st <- cpartial_sub_words st ;;
  st <- csparse_mat_mul 0 st ;;
  let counter := counter.+1 in
  sc <- cfor (range 0 R_f) (fun _ sc =>
          let: (st, counter) := sc in
          st <- cadd_constants (get_element oarc counter) st ;;
          st <- cfull_sub_words st ;;
          st <- cmix_layer_mds st ;;
          cret (st, counter.+1)) (st, counter) ;;
  cret sc.1.

(** permutation.rs:187-190, 198-201 and 209-212 *)
Definition cadd_constants_counter (round_constants : seq F) (sc : seq F * nat) : counted (seq F * nat) :=
  cfor (range 0 STATE_SIZE) (fun i sc =>
    let: (st, counter) := sc in
    x <- free (aget st i) ;; k <- free (aget round_constants counter) ;;
    s <- cadd x k ;;
    st <- free (aset st i s) ;;
    cret (st, counter.+1)) sc.

(** permutation.rs:178-216 *)
Definition cunoptimized_permute (st : seq F) : counted (seq F) :=
  let round_constants := elements (p_arc p) in
  let full_round := fun (_ : nat) sc =>
        sc <- cadd_constants_counter round_constants sc ;;
        let: (st, counter) := sc in
        st <- cfull_sub_words st ;;
        st <- cmix_layer_mds st ;;
        cret (st, counter) in
  let partial_round := fun (_ : nat) sc =>
        sc <- cadd_constants_counter round_constants sc ;;
        let: (st, counter) := sc in
        st <- cpartial_sub_words st ;;
        st <- cmix_layer_mds st ;;
        cret (st, counter) in
  sc <- cfor (range 0 R_f) full_round (st, 0%N) ;;
  sc <- cfor (range 0 R_P) partial_round sc ;;
  sc <- cfor (range 0 R_f) full_round sc ;;
  cret sc.1.

(** permutation.rs:79-90 *)
Definition cn_to_1_fixed_hash (input : seq F) (st : seq F) : counted (F * seq F) :=
  st <- free (load_input input st) ;;
  st <- cpermute st ;;
  out <- free (aget st 1) ;;
  cret (out, st).

(** permutation.rs:161-172 *)
Definition cunoptimized_n_to_1_fixed_hash (input : seq F) (st : seq F) : counted (F * seq F) :=
  st <- free (load_input input st) ;;
  st <- cunoptimized_permute st ;;
  out <- free (aget st 1) ;;
  cret (out, st).

End Count.
