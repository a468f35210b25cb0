(** Model of the matrix library of poseidon-parameters:
    /repo/poseidon-parameters/src/matrix.rs, matrix_ops.rs, mds_matrix.rs and
    arc_matrix.rs.  Generic in the field; the code fixes decaf377's [Fq].

    The const generics [N_ROWS], [N_COLS] of a matrix type become fields of the
    record [rmat]; [N_ELEMENTS] is the length of its array.  Where the code
    names the generics of a result type, the model passes them explicitly.
    [SquareMatrix], [MdsMatrix], [ArcMatrix] and [OptimizedArcMatrix] are
    newtypes around [Matrix] and are all modelled by [rmat]. *)
From mathcomp Require Import all_ssreflect all_algebra.
From Verif Require Import Base.
Set Implicit Arguments.
Unset Strict Implicit.
Unset Printing Implicit Defensive.
Import GRing.Theory.
Local Open Scope ring_scope.
Local Open Scope rust_scope.

(** error.rs:4-14, the only variant the matrix code returns. *)
Inductive param_error := NoMatrixInverse.
Inductive result (A : Type) := Ok of A | Err of param_error.
Arguments Err {A}.

(** [Result::expect] *)
Definition expect {A} (r : result A) : outcome A :=
  match r with Ok a => Ret a | Err _ => Panic end.

(** matrix.rs:13-17 *)
Record rmat (T : Type) := Rmat { n_rows : nat; n_cols : nat; elements : seq T }.
Arguments Rmat {T}.

Definition map_rmat {A B} (f : A -> B) (m : rmat A) : rmat B :=
  Rmat (n_rows m) (n_cols m) (map f (elements m)).

(** The shape that [new] establishes. *)
Definition wf_shape {T : Type} (r c : nat) (m : rmat T) : bool :=
  [&& n_rows m == r, n_cols m == c & size (elements m) == (r * c)%N].

Section Matrix.
Variable F : fieldType.
Local Notation rmat := (rmat F).

(** External field operations that can fail (decaf377): [a / b] panics for
    [b = 0]; [inverse()] returns [None] for 0. *)
Definition fdiv (a b : F) : outcome F := if b == 0 then Panic else Ret (a / b).
Definition finverse (a : F) : option F := if a == 0 then None else Some (a^-1).

Definition rmat_eqb (a b : rmat) : bool :=
  [&& n_rows a == n_rows b, n_cols a == n_cols b & elements a == elements b].

(** matrix.rs:48-61 ([Matrix::new]); also matrix.rs:173-175 and
    arc_matrix.rs:33-35, 95-97 *)
Definition mnew (nr nc ne : nat) (els : seq F) : outcome rmat :=
  if ne != (nr * nc)%N then Panic
  else if size els != ne then Panic
  else Ret (Rmat nr nc els).

(** matrix.rs:36-42 ([Matrix::new_from_known]); [ne] is the array length. *)
Definition new_from_known (nr nc : nat) (els : seq F) : outcome rmat :=
  if size els != (nr * nc)%N then Panic else Ret (Rmat nr nc els).

(** matrix.rs:67-69 *)
Definition get_element (m : rmat) (i j : nat) : outcome F :=
  aget (elements m) (i * n_cols m + j).

(** matrix.rs:71-73 *)
Definition set_element (m : rmat) (i j : nat) (v : F) : outcome rmat :=
  els <- aset (elements m) (i * n_cols m + j) v ;;
  Ret (Rmat (n_rows m) (n_cols m) els).

(** matrix_ops.rs:16-18 *)
Definition iter_rows (m : rmat) : outcome (seq (seq F)) :=
  chunks (n_cols m) (elements m).

(** The idiom [arr[index] = v; index += 1] used all over matrix.rs. *)
Definition emit (v : outcome F) (st : seq F * nat) : outcome (seq F * nat) :=
  x <- v ;; arr <- aset st.1 st.2 x ;; Ret (arr, st.2.+1).

(** matrix.rs:22-33 *)
Definition transpose (m : rmat) : outcome rmat :=
  st <- for_in (range 0 (n_cols m)) (fun j =>
          for_in (range 0 (n_rows m)) (fun i => emit (get_element m i j)))
        (nseq (size (elements m)) 0, 0%N) ;;
  mnew (n_cols m) (n_rows m) (size (elements m)) st.1.

(** matrix.rs:83-97.  Both operands have the same type, hence the same shape. *)
Definition hadamard_product (a b : rmat) : outcome (result rmat) :=
  st <- for_in (range 0 (n_rows a)) (fun i =>
          for_in (range 0 (n_cols a)) (fun j =>
            emit (x <- get_element a i j ;; y <- get_element b i j ;; Ret (x * y))))
        (nseq (size (elements a)) 0, 0%N) ;;
  omap (@Ok _) (mnew (n_rows a) (n_cols a) (size (elements a)) st.1).

(** matrix_ops.rs:30-36; [Iterator::sum] folds from zero. *)
Definition sum_products (a b : seq F) : F :=
  foldl (fun acc xy => acc + xy.1 * xy.2) 0 (zip a b).
Definition dot_product (a b : seq F) : outcome F :=
  if size a != size b then Panic else Ret (sum_products a b).

(** matrix.rs:101-127; [ne] is [RESULT_N_ELEMENTS]. *)
Definition mat_mul (ne : nat) (lhs rhs : rmat) : outcome rmat :=
  rhsT <- transpose rhs ;;
  lrows <- iter_rows lhs ;;
  st <- for_in lrows (fun row st =>
          rrows <- iter_rows rhsT ;;
          for_in rrows (fun column => emit (dot_product row column)) st)
        (nseq ne 0, 0%N) ;;
  mnew (n_rows lhs) (n_cols rhs) ne st.1.

(** matrix.rs:341-365: the same body on square matrices; the result type is
    [SquareMatrix<LHS_N_ROWS, _>]. *)
Definition square_mat_mul (ne : nat) (lhs rhs : rmat) : outcome rmat :=
  rhsT <- transpose rhs ;;
  lrows <- iter_rows lhs ;;
  st <- for_in lrows (fun row st =>
          rrows <- iter_rows rhsT ;;
          for_in rrows (fun column => emit (dot_product row column)) st)
        (nseq ne 0, 0%N) ;;
  mnew (n_rows lhs) (n_rows lhs) ne st.1.

(** matrix.rs:135-142 and 313-320 *)
Definition scalar_mul (m : rmat) (c : F) : outcome rmat :=
  els <- for_in (enumerate (elements m)) (fun ie arr => aset arr ie.1 (ie.2 * c))
           (nseq (size (elements m)) 0) ;;
  mnew (n_rows m) (n_cols m) (size (elements m)) els.

(** matrix.rs:149-155; the result type is [Matrix<1, N_COLS, N_ELEMENTS>] with
    the [N_ELEMENTS] of [self]. *)
Definition row_vector (m : rmat) (i : nat) : outcome rmat :=
  els <- for_in (range 0 (n_cols m)) (fun j arr =>
           x <- get_element m i j ;; aset arr j x) (nseq (n_cols m) 0) ;;
  mnew 1 (n_cols m) (size (elements m)) els.

(** matrix.rs:239-249; [ne] is [N_ELEMENTS]. *)
Definition identity (n ne : nat) : outcome rmat :=
  m <- mnew n n ne (nseq ne 0) ;;
  for_in (range 0 n) (fun i m => set_element m i i 1) m.

(** matrix.rs:330-332 *)
Definition new_2x2 (a b c d : F) : outcome rmat := mnew 2 2 4 [:: a; b; c; d].

(** matrix.rs:276-288 *)
Definition cofactors (m : rmat) : outcome rmat :=
  st <- for_in (range 0 (n_rows m)) (fun i =>
          for_in (range 0 (n_rows m)) (fun j => emit (Ret ((-1) ^+ (i + j)))))
        (nseq (size (elements m)) 0, 0%N) ;;
  mnew (n_rows m) (n_rows m) (size (elements m)) st.1.

(** matrix.rs:423-437: the minor of entry (i, 0), as built in the determinant
    helper; [d] is [DIM_MINUS_1]. *)
Definition first_col_minor (d : nat) (m : rmat) (i : nat) : outcome rmat :=
  st <- for_in (range 0 i) (fun k =>
          for_in (range 1 d.+1) (fun l => emit (get_element m k l)))
        (nseq (d * d) 0, 0%N) ;;
  st <- for_in (range i.+1 d.+1) (fun k =>
          for_in (range 1 d.+1) (fun l => emit (get_element m k l))) st ;;
  mnew d d (d * d) st.1.

(** matrix.rs:291-306 (dispatch on [N_ROWS]) and 411-446 (helper).  [dim] is
    [N_ROWS]; the recursion of the code through
    [SquareMatrix::<DIM_MINUS_1, _>::determinant] is the recursive call.  The
    state of the loop is ([det], [levi_civita]). *)
Fixpoint det_rec (dim : nat) (m : rmat) {struct dim} : outcome F :=
  match dim with
  | 0 => Panic
  | 1 => get_element m 0 0
  | d.+1 =>
    if (8 < dim)%N then Panic
    else
      st <- for_in (range 0 dim) (fun i st =>
              minor <- first_col_minor d m i ;;
              x <- get_element m i 0 ;;
              y <- det_rec d minor ;;
              Ret (if st.2 then st.1 + x * y else st.1 - x * y, ~~ st.2))
            (0, true) ;;
      Ret st.1
  end.
Definition determinant (m : rmat) : outcome F := det_rec (n_rows m) m.

(** matrix.rs:380-402: the submatrix without row [i] and column [j]. *)
Definition minor_at (dim d : nat) (m : rmat) (i j : nat) : outcome rmat :=
  st <- for_in (range 0 i) (fun k st =>
          st <- for_in (range 0 j) (fun l => emit (get_element m k l)) st ;;
          for_in (range j.+1 dim) (fun l => emit (get_element m k l)) st)
        (nseq (d * d) 0, 0%N) ;;
  st <- for_in (range i.+1 dim) (fun k st =>
          st <- for_in (range 0 j) (fun l => emit (get_element m k l)) st ;;
          for_in (range j.+1 dim) (fun l => emit (get_element m k l)) st) st ;;
  mnew d d (d * d) st.1.

(** matrix.rs:368-408; [d] is [DIM_MINUS_1]. *)
Definition minor_matrix (dim d : nat) (m : rmat) : outcome rmat :=
  st <- for_in (range 0 dim) (fun i =>
          for_in (range 0 dim) (fun j =>
            emit (minor <- minor_at dim d m i j ;; determinant minor)))
        (nseq (size (elements m)) 0, 0%N) ;;
  mnew dim dim (size (elements m)) st.1.

(** matrix.rs:252-273 *)
Definition minors (m : rmat) : outcome rmat :=
  match n_rows m with
  | 0 => Panic
  | 1 => x <- get_element m 0 0 ;; mnew 1 1 (size (elements m)) [:: x]
  | 2 =>
    a <- get_element m 0 0 ;; b <- get_element m 0 1 ;;
    c <- get_element m 1 0 ;; d <- get_element m 1 1 ;;
    mnew 2 2 (size (elements m)) [:: d; c; b; a]
  | d.+1 => if (8 < d.+1)%N then Panic else minor_matrix d.+1 d m
  end.

(** matrix.rs:210-236, with the [debug_assert_eq!] enabled. *)
Definition inverse (m : rmat) : outcome (result rmat) :=
  let ne := size (elements m) in
  id <- identity (n_rows m) ne ;;
  if n_rows m == 1%N then
    x <- get_element m 0 0 ;;
    match finverse x with
    | None => Panic
    | Some y => omap (@Ok _) (mnew (n_rows m) (n_rows m) ne [:: y])
    end
  else
    det <- determinant m ;;
    if det == 0 then Ret (Err NoMatrixInverse)
    else
      mi <- minors m ;;
      co <- cofactors m ;;
      r <- hadamard_product mi co ;;
      signed_minors <- expect r ;;
      adj <- transpose signed_minors ;;
      c <- fdiv 1 det ;;
      minv <- scalar_mul adj c ;;
      prod <- square_mat_mul ne m minv ;;
      require (rmat_eqb prod id) ;;;
      Ret (Ok minv).

(** * MDS matrices *)

(** mds_matrix.rs:25-30; [s], [s1], [ne], [ne1] are the const generics
    [STATE_SIZE], [STATE_SIZE_MINUS_1], [NUM_ELEMENTS] and
    [NUM_ELEMENTS_STATE_SIZE_MINUS_1_2]. *)
Definition mds_new (s s1 ne ne1 : nat) (els : seq F) : outcome rmat :=
  require (s == s1.+1) ;;; require ((s * s)%N == ne) ;;; require ((s1 * s1)%N == ne1) ;;;
  mnew s s ne els.

(** mds_matrix.rs:75-77 *)
Definition mds_from_elements (s ne : nat) (els : seq F) : outcome rmat := mnew s s ne els.

(** mds_matrix.rs:84-88 *)
Definition mds_inverse (m : rmat) : outcome rmat := r <- inverse m ;; expect r.

(** mds_matrix.rs:93-96; [s1] is [STATE_SIZE_MINUS_1]. *)
Definition mds_v (s1 : nat) (m : rmat) : outcome rmat :=
  els <- aslice (elements m) 1 (n_rows m) ;; mnew 1 s1 s1 els.

(** mds_matrix.rs:101-107 *)
Definition mds_w (s1 : nat) (m : rmat) : outcome rmat :=
  els <- for_in (range 1 (n_rows m)) (fun i arr =>
           x <- get_element m i 0 ;; k <- usub i 1 ;; aset arr k x) (nseq s1 0) ;;
  mnew s1 1 s1 els.

(** mds_matrix.rs:114-125; [ne1] is [NUM_ELEMENTS_STATE_SIZE_MINUS_1_2]. *)
Definition mds_hat (s1 ne1 : nat) (m : rmat) : outcome rmat :=
  st <- for_in (range 1 (n_rows m)) (fun i =>
          for_in (range 1 (n_rows m)) (fun j => emit (get_element m i j)))
        (nseq ne1 0, 0%N) ;;
  mnew s1 s1 ne1 st.1.

End Matrix.
