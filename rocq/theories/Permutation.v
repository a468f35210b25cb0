(** Model of /repo/poseidon-permutation/src/permutation.rs. *)
From Coq Require Import NArith.
From mathcomp Require Import all_ssreflect all_algebra.
From Verif Require Import Base Matrix Params.
Set Implicit Arguments.
Unset Strict Implicit.
Unset Printing Implicit Defensive.
Import GRing.Theory.
Local Open Scope ring_scope.
Local Open Scope rust_scope.

Section Permutation.
Variable F : fieldType.
Variable p : params F.
Let STATE_SIZE := p_t p.
Let STATE_SIZE_MINUS_1 := p_t1 p.
Let R_f := ((r_F (p_rounds p)) %/ 2)%N.
Let R_P := r_P (p_rounds p).

(** The state of an [Instance] (permutation.rs:9-34) is its [state_words]; the
    parameters are an immutable reference. *)
Definition state := seq F.

(** permutation.rs:60-76 *)
Definition instance_new : state := nseq STATE_SIZE 0.

(** [Fq::power([exp as u64])] (external, contract). *)
Definition fpower (x : F) (e : N) : F := x ^+ (N.to_nat e).

(** The S-box applied to one word in permutation.rs:220-223 and 228-239. *)
Definition sbox (x : F) : outcome F :=
  match p_alpha p with
  | Exponent e => Ret (fpower x e)
  | Inverse => fdiv 1 x
  end.

(** permutation.rs:219-224 *)
Definition partial_sub_words (st : state) : outcome state :=
  x <- aget st 0 ;; y <- sbox x ;; aset st 0 y.

(** permutation.rs:227-240 *)
Definition full_sub_words (st : state) : outcome state :=
  for_in (range 0 STATE_SIZE) (fun i st =>
    x <- aget st i ;; y <- sbox x ;; aset st i y) st.

(** permutation.rs:243-254 and 257-269: the two functions differ only in the
    matrix whose rows they iterate over. *)
Definition mix_layer (m : rmat F) (st : state) : outcome state :=
  rows <- iter_rows m ;;
  for_in (enumerate rows) (fun ir acc => aset acc ir.1 (sum_products ir.2 st))
    (nseq STATE_SIZE 0).
Definition mix_layer_mi (st : state) : outcome state :=
  mix_layer (om_M_i (p_optimized_mds p)) st.
Definition mix_layer_mds (st : state) : outcome state := mix_layer (p_mds p) st.

(** permutation.rs:272-296 *)
Definition sparse_mat_mul (round_number : nat) (st : state) : outcome state :=
  vm <- aget (om_v_collection (p_optimized_mds p)) round_number ;;
  add_row <- for_in (enumerate (elements vm)) (fun ix add_row =>
      s0 <- aget st 0 ;; si <- aget st ix.1.+1 ;;
      aset add_row ix.1 (ix.2 * s0 + si))
    (nseq STATE_SIZE_MINUS_1 0) ;;
  s0 <- aget st 0 ;;
  wm <- aget (om_w_hat_collection (p_optimized_mds p)) round_number ;;
  tl <- aslice st 1 STATE_SIZE ;;
  st <- aset st 0 (om_M_00 (p_optimized_mds p) * s0 + sum_products (elements wm) tl) ;;
  n <- usub STATE_SIZE 1 ;;
  src <- aslice add_row 0 n ;;
  tl <- aslice st 1 STATE_SIZE ;;
  (* [copy_from_slice] panics when the lengths differ *)
  if size tl != size src then Panic
  else Ret (take 1 st ++ src ++ drop STATE_SIZE st).

(** The loops "[for i in 0..STATE_SIZE { state_words[i] += c(i) }]" *)
Definition add_constants (c : nat -> outcome F) (st : state) : outcome state :=
  for_in (range 0 STATE_SIZE) (fun i st =>
    x <- aget st i ;; k <- c i ;; aset st i (x + k)) st.

(** permutation.rs:101-158 *)
Definition permute (st : state) : outcome state :=
  let oarc := p_optimized_arc p in
  (* 104-112 *)
  st <- for_in (range 0 R_f) (fun r st =>
          st <- add_constants (get_element oarc r) st ;;
          st <- full_sub_words st ;;
          mix_layer_mds st) st ;;
  (* 113-125 *)
  let counter := R_f in
  st <- add_constants (get_element oarc counter) st ;;
  st <- mix_layer_mi st ;;
  (* 127-137 *)
  bound <- usub R_P 1 ;;
  sc <- for_in (range 0 bound) (fun r sc =>
          let: (st, counter) := sc in
          st <- partial_sub_words st ;;
          let counter := counter.+1 in
          x <- aget st 0 ;; k <- get_element oarc counter 0 ;;
          st <- aset st 0 (x + k) ;;
          n <- usub R_P r ;; n <- usub n 1 ;;
          st <- sparse_mat_mul n st ;;
          Ret (st, counter)) (st, counter) ;;
  let: (st, counter) := sc in
  (* 139-142 *)
  st <- partial_sub_words st ;;
  st <- sparse_mat_mul 0 st ;;
  let counter := counter.+1 in
  (* 144-157 *)
  sc <- for_in (range 0 R_f) (fun _ sc =>
          let: (st, counter) := sc in
          st <- add_constants (get_element oarc counter) st ;;
          st <- full_sub_words st ;;
          st <- mix_layer_mds st ;;
          Ret (st, counter.+1)) (st, counter) ;;
  Ret sc.1.

(** The loops at permutation.rs:187-190, 198-201, 209-212. *)
Definition add_constants_counter (round_constants : seq F) (sc : state * nat) : outcome (state * nat) :=
  for_in (range 0 STATE_SIZE) (fun i sc =>
    let: (st, counter) := sc in
    x <- aget st i ;; k <- aget round_constants counter ;;
    st <- aset st i (x + k) ;;
    Ret (st, counter.+1)) sc.

(** permutation.rs:178-216 *)
Definition unoptimized_permute (st : state) : outcome state :=
  let round_constants := elements (p_arc p) in
  let full_round := fun (_ : nat) sc =>
        sc <- add_constants_counter round_constants sc ;;
        let: (st, counter) := sc in
        st <- full_sub_words st ;;
        st <- mix_layer_mds st ;;
        Ret (st, counter) in
  let partial_round := fun (_ : nat) sc =>
        sc <- add_constants_counter round_constants sc ;;
        let: (st, counter) := sc in
        st <- partial_sub_words st ;;
        st <- mix_layer_mds st ;;
        Ret (st, counter) in
  sc <- for_in (range 0 R_f) full_round (st, 0%N) ;;
  sc <- for_in (range 0 R_P) partial_round sc ;;
  sc <- for_in (range 0 R_f) full_round sc ;;
  Ret sc.1.

(** permutation.rs:80-83 and 162-165: the input overwrites the state. *)
Definition load_input (input : seq F) (st : state) : outcome state :=
  for_in (enumerate input) (fun iw st => aset st iw.1 iw.2) st.

(** permutation.rs:79-90: the result and the new state. *)
Definition n_to_1_fixed_hash (input : seq F) (st : state) : outcome (F * state) :=
  st <- load_input input st ;;
  st <- permute st ;;
  out <- aget st 1 ;;
  Ret (out, st).

(** permutation.rs:161-172 *)
Definition unoptimized_n_to_1_fixed_hash (input : seq F) (st : state) : outcome (F * state) :=
  st <- load_input input st ;;
  st <- unoptimized_permute st ;;
  out <- aget st 1 ;;
  Ret (out, st).

(** permutation.rs:93-95 *)
Definition output_words (st : state) : seq F := st.

End Permutation.
