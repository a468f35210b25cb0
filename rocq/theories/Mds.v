(** Model of /repo/poseidon-paramgen/src/mds.rs and of the optimized round
    constants in round_constants.rs.

    The crate is written against an older matrix library with run-time
    dimensions.  Its matrices are the record [rmat] with run-time dimensions,
    [Matrix::new(r, c, elements)] is [mnew] with [r * c] elements, and the
    operations are those of the present library ([Matrix.v]).  The const generic
    [STATE_SIZE] is [input.t]. *)
From Coq Require Import ZArith NArith.
From mathcomp Require Import all_ssreflect all_algebra.
From Verif Require Import Base Matrix Params PrimeField Transcript.
Set Implicit Arguments.
Unset Strict Implicit.
Unset Printing Implicit Defensive.
Import GRing.Theory.
Local Open Scope ring_scope.
Local Open Scope rust_scope.
Delimit Scope Z_scope with Z.

Section Generic.
Variable F : fieldType.
Local Notation rmat := (rmat F).

(** [elements.push(v)] *)
Definition push (v : outcome F) (els : seq F) : outcome (seq F) :=
  x <- v ;; Ret (rcons els x).

(** [SquareMatrix::from_vec] of the older library: the dimension is the square
    root of the length; a length that is not a square panics in [Matrix::new]. *)
Definition from_vec (els : seq F) : outcome rmat :=
  let dim := Nat.sqrt (size els) in mnew dim dim (dim * dim) els.

(** [mat_mul] of the older library: run-time dimensions.  Its [Err] on
    mismatched dimensions is turned into a panic by every caller. *)
Definition mul (a b : rmat) : outcome rmat := mat_mul (n_rows a * n_cols b) a b.

(** [MdsMatrix::{v, w, hat}] with run-time dimensions. *)
Definition v_of (m : rmat) : outcome rmat := mds_v (n_rows m).-1 m.
Definition w_of (m : rmat) : outcome rmat := mds_w (n_rows m).-1 m.
Definition hat_of (m : rmat) : outcome rmat :=
  mds_hat (n_rows m).-1 ((n_rows m).-1 * (n_rows m).-1) m.

(** mds.rs:204-222 *)
Definition prime_of (M_hat : rmat) : outcome rmat :=
  let dim := (n_cols M_hat).+1 in
  els <- for_in (range 0 dim) (fun i => for_in (range 0 dim) (fun j => push (
           if (i == 0%N) && (j == 0%N) then Ret 1
           else if (i == 0%N) || (j == 0%N) then Ret 0
           else i' <- usub i 1 ;; j' <- usub j 1 ;; get_element M_hat i' j'))) [::] ;;
  from_vec els.

(** mds.rs:224-250 *)
Definition doubleprime_of (M_hat_inverse w v : rmat) (M_00 : F) : outcome rmat :=
  let dim := (n_cols M_hat_inverse).+1 in
  id <- identity F (dim - 1) ((dim - 1) * (dim - 1)) ;;
  w_hat <- mul M_hat_inverse w ;;
  els <- for_in (range 0 dim) (fun i => for_in (range 0 dim) (fun j => push (
           if (i == 0%N) && (j == 0%N) then Ret M_00
           else if i == 0%N then j' <- usub j 1 ;; get_element v 0 j'
           else if j == 0%N then i' <- usub i 1 ;; get_element w_hat i' 0
           else i' <- usub i 1 ;; j' <- usub j 1 ;; get_element id i' j'))) [::] ;;
  from_vec els.

(** mds.rs:158-202.  The state of the loop: [M_i], [M_mul], [v_collection],
    [w_hat_collection]. *)
Definition equiv_step (M_T : rmat) (st : rmat * rmat * seq rmat * seq rmat) :
    outcome (rmat * rmat * seq rmat * seq rmat) :=
  let: (_, M_mul, vs, ws) := st in
  M_hat <- hat_of M_mul ;;
  w <- w_of M_mul ;;
  v <- v_of M_mul ;;
  r <- inverse M_hat ;;
  M_hat_inv <- expect r ;;
  w_hat <- mul M_hat_inv w ;;
  M_i <- prime_of M_hat ;;
  M_mul <- mul M_T M_i ;;
  Ret (M_i, M_mul, rcons vs v, rcons ws w_hat).
Definition calc_equivalent_matrices (mds : rmat) (rounds : rounds) :
    outcome (rmat * seq rmat * seq rmat) :=
  M_T <- transpose mds ;;
  M_i <- prime_of M_T ;;
  st <- for_in (rev (range 0 (r_P rounds))) (fun _ => equiv_step M_T) (M_i, M_T, [::], [::]) ;;
  let: (M_i, _, vs, ws) := st in
  M_i <- transpose M_i ;;
  Ret (M_i, vs, ws).

(** mds.rs:76-156 *)
Definition mds_generate_optimized (mds : rmat) (t : nat) (rounds : rounds) :
    outcome (optimized_mds F) :=
  M_hat <- hat_of mds ;;
  r <- inverse M_hat ;;
  M_hat_inverse <- expect r ;;
  v <- v_of mds ;;
  w <- w_of mds ;;
  M_prime <- prime_of M_hat ;;
  M_00 <- get_element mds 0 0 ;;
  M_doubleprime <- doubleprime_of M_hat_inverse w v M_00 ;;
  require (n_cols M_prime == n_cols mds) ;;;
  require ((n_cols M_hat).+1 == n_cols mds) ;;;
  prod <- mul M_prime M_doubleprime ;;
  require (rmat_eqb mds prod) ;;;
  t1 <- usub t 1 ;;
  zeros <- usub (t1 * t1) t1 ;;
  require (count (fun n => n == 0) (elements M_doubleprime) == zeros) ;;;
  require (count (fun n => n == 1) (elements M_doubleprime) == t1) ;;;
  c <- calc_equivalent_matrices mds rounds ;;
  let: (M_i, v_collection, w_hat_collection) := c in
  M_inverse <- mds_inverse mds ;;
  Ret (OptimizedMds M_hat v w M_prime M_doubleprime M_inverse M_hat_inverse M_00 M_i
         v_collection w_hat_collection).

(** [Matrix::row_vector] of the older library; in the present one
    ([Matrix.row_vector]) it panics for matrices with more than one row. *)
Definition row_vector_vec (m : rmat) (i : nat) : outcome rmat :=
  els <- for_in (range 0 (n_cols m)) (fun j => push (get_element m i j)) [::] ;;
  mnew 1 (n_cols m) (size els) els.

Section Arc.
(** The [row_vector] of the matrix library used. *)
Variable row_vec : rmat -> nat -> outcome rmat.

(** round_constants.rs:55-64 *)
Definition set_constants_by_round (arc : rmat) (r : nat) (constants : seq F) : outcome rmat :=
  require (size constants == n_cols arc) ;;;
  for_in (enumerate constants) (fun jv arc => set_element arc r jv.1 jv.2) arc.

(** round_constants.rs:80-106, the body of the loop. *)
Definition arc_step (n_cols' : nat) (mds_inv : rmat) (r : nat) (temp : rmat) : outcome rmat :=
  row <- row_vec temp r.+1 ;;
  inv_cip1 <- mul row mds_inv ;;
  require (n_cols inv_cip1 == n_cols') ;;;
  require (n_rows inv_cip1 == 1%N) ;;;
  delta <- for_in (range 1 n_cols') (fun j => push (get_element inv_cip1 0 j)) [:: 0] ;;
  temp <- for_in (range 0 n_cols') (fun j temp =>
            curr <- get_element temp r j ;;
            d <- aget delta j ;;
            set_element temp r j (curr + d)) temp ;;
  x <- get_element inv_cip1 0 0 ;;
  k <- usub n_cols' 1 ;;
  set_constants_by_round temp r.+1 (x :: nseq k 0).

(** round_constants.rs:67-109 *)
Definition arc_generate_optimized (arc mds : rmat) (rounds : rounds) : outcome rmat :=
  let r_f := (r_F rounds %/ 2)%N in
  let r_T := rounds_total rounds in
  mds_T <- transpose mds ;;
  mds_inv <- mds_inverse mds_T ;;
  hi <- usub r_T 1 ;;
  hi <- usub hi r_f ;;
  for_in (rev (range r_f hi)) (arc_step (n_cols arc) mds_inv) arc.
End Arc.
End Generic.

Section Mds.
Variables (L : Type) (PF : prime_field).

(** [BigInteger::num_bits] *)
Definition num_bits (p : Z) : Z := if (p <=? 0)%Z then 0%Z else (Z.log2 p + 1)%Z.

(** mds.rs:55-66: the entries of the matrix. *)
Definition cauchy_elements (t : nat) : outcome (seq PF) :=
  let xs := [seq pf_of PF (Z.of_nat k) | k <- range 0 t] in
  let ys := [seq pf_of PF (Z.of_nat k) | k <- range t (2 * t)] in
  for_in (range 0 t) (fun i => for_in (range 0 t) (fun j els =>
    xi <- aget xs i ;; yi <- aget ys i ;;
    require (xi + yi != 0) ;;;
    yj <- aget ys j ;;
    push (fdiv 1 (xi + yj)) els)) [::].

(** mds.rs:41-73 *)
Definition fixed_cauchy_matrix (i : input L) : outcome (rmat PF) :=
  if (num_bits (in_p i) <? 128)%Z then Panic
  else
    els <- cauchy_elements (in_t i) ;;
    m <- from_vec els ;;
    det <- determinant m ;;
    require (det != 0) ;;;
    Ret m.

(** mds.rs:10-26 *)
Definition v1_generate_mds (i : input L) : outcome (rmat PF) :=
  if (in_p i <? Z.of_nat (2 * in_t i))%Z then Panic
  else fixed_cauchy_matrix i.
End Mds.
