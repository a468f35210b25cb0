(** Properties C19-C30: the matrix library.  Statements only; the proofs are in
    [MatrixProofs.v] and [MatrixProps.v], concrete instances in
    [MatrixExamples.v]. *)
From mathcomp Require Import all_ssreflect all_algebra.
From Verif Require Import Base Matrix MatrixSpec MatrixProofs MatrixProps Matrix2x2.
Import GRing.Theory.
Local Open Scope ring_scope.
Local Open Scope rust_scope.

(** [ofM] ranges over exactly the matrices that the Rust types admit. *)
Theorem matrix_representation (F : fieldType) r c (m : rmat F) :
  wf_shape r c m <-> exists A : 'M[F]_(r, c), m = ofM A.
Proof. exact: wf_ofM_iff. Qed.
Print Assumptions matrix_representation.

(** ** C19 *)
Theorem C19_new (F : fieldType) nr nc ne (els : seq F) (m : rmat F) :
  mnew nr nc ne els = Ret m <->
  [/\ ne = (nr * nc)%N, size els = ne, n_rows m = nr, n_cols m = nc & elements m = els].
Proof. exact: mnew_iff. Qed.
Print Assumptions C19_new.

Theorem C19_new_panics (F : fieldType) nr nc ne (els : seq F) :
  mnew nr nc ne els = Panic <-> ne <> (nr * nc)%N \/ size els <> ne.
Proof. exact: mnew_panic. Qed.
Print Assumptions C19_new_panics.

Theorem C19_new_row_major (F : fieldType) nr nc ne (els : seq F) (m : rmat F) (i : 'I_nr) (j : 'I_nc) :
  mnew nr nc ne els = Ret m ->
  get_element m i j = Ret (nth 0 els (i * nc + j)) /\ m = ofM (toM nr nc m).
Proof. exact: mnew_row_major. Qed.
Print Assumptions C19_new_row_major.

Theorem C19_new_2x2 (F : fieldType) (a b c d : F) :
  exists m, [/\ new_2x2 a b c d = Ret m, get_element m 0 0 = Ret a /\ get_element m 0 1 = Ret b,
                get_element m 1 0 = Ret c & get_element m 1 1 = Ret d].
Proof. exact: new_2x2_entries. Qed.
Print Assumptions C19_new_2x2.

Theorem C19_new_from_known (F : fieldType) nr nc (els : seq F) (m : rmat F) :
  new_from_known nr nc els = Ret m <->
  [/\ size els = (nr * nc)%N, n_rows m = nr, n_cols m = nc & elements m = els].
Proof. exact: new_from_known_iff. Qed.
Print Assumptions C19_new_from_known.

Theorem C19_new_from_known_panics (F : fieldType) nr nc (els : seq F) :
  new_from_known nr nc els = Panic <-> size els <> (nr * nc)%N.
Proof. exact: new_from_known_panic. Qed.
Print Assumptions C19_new_from_known_panics.

(** ** C20 *)
Theorem C20_get (F : fieldType) r c (A : 'M[F]_(r, c)) (i : 'I_r) (j : 'I_c) :
  get_element (ofM A) i j = Ret (A i j).
Proof. exact: get_ofM. Qed.
Print Assumptions C20_get.

Theorem C20_set (F : fieldType) r c (A : 'M[F]_(r, c)) (i : 'I_r) (j : 'I_c) (v : F) :
  set_element (ofM A) i j v
  = Ret (ofM (\matrix_(i', j') if (i' == i) && (j' == j) then v else A i' j')).
Proof. exact: set_ofM. Qed.
Print Assumptions C20_set.

Theorem C20_get_out_of_bounds (F : fieldType) r c (A : 'M[F]_(r, c)) i j :
  (r * c <= i * c + j)%N -> get_element (ofM A) i j = Panic.
Proof. exact: get_oob. Qed.
Print Assumptions C20_get_out_of_bounds.

Theorem C20_set_out_of_bounds (F : fieldType) r c (A : 'M[F]_(r, c)) i j v :
  (r * c <= i * c + j)%N -> set_element (ofM A) i j v = Panic.
Proof. exact: set_oob. Qed.
Print Assumptions C20_set_out_of_bounds.

(** A column index past the end is not rejected: it reads the next row. *)
Theorem C20_column_aliasing (F : fieldType) r c (A : 'M[F]_(r, c)) i j :
  get_element (ofM A) i (c + j) = get_element (ofM A) i.+1 j.
Proof. exact: get_alias. Qed.
Print Assumptions C20_column_aliasing.

Theorem C20_column_aliasing_set (F : fieldType) r c (A : 'M[F]_(r, c)) i j v :
  set_element (ofM A) i (c + j) v = set_element (ofM A) i.+1 j v.
Proof. exact: set_alias. Qed.
Print Assumptions C20_column_aliasing_set.

(** ** C21 *)
Theorem C21_transpose (F : fieldType) r c (A : 'M[F]_(r, c)) :
  transpose (ofM A) = Ret (ofM A^T).
Proof. exact: transpose_ofM. Qed.
Print Assumptions C21_transpose.

Theorem C21_transpose_involutive (F : fieldType) r c (m : rmat F) : wf_shape r c m ->
  (t <- transpose m ;; transpose t) = Ret m.
Proof. exact: transpose_involutive. Qed.
Print Assumptions C21_transpose_involutive.

(** ** C22 *)
Theorem C22_mat_mul (F : fieldType) r c s ne (A : 'M[F]_(r, c)) (B : 'M[F]_(c, s)) :
  (0 < c)%N -> ne = (r * s)%N -> mat_mul ne (ofM A) (ofM B) = Ret (ofM (A *m B)).
Proof. exact: mat_mul_ofM. Qed.
Print Assumptions C22_mat_mul.

Theorem C22_mat_mul_wrong_size (F : fieldType) r c s ne (A : 'M[F]_(r, c)) (B : 'M[F]_(c, s)) :
  (0 < c)%N -> ne <> (r * s)%N -> mat_mul ne (ofM A) (ofM B) = Panic.
Proof. exact: mat_mul_wrong_size. Qed.
Print Assumptions C22_mat_mul_wrong_size.

Theorem C22_mat_mul_mismatch (F : fieldType) r c c' s ne (A : 'M[F]_(r, c)) (B : 'M[F]_(c', s)) :
  (0 < r)%N -> (0 < s)%N -> c <> c' -> mat_mul ne (ofM A) (ofM B) = Panic.
Proof. exact: mat_mul_mismatch. Qed.
Print Assumptions C22_mat_mul_mismatch.

Theorem C22_mat_mul_no_columns (F : fieldType) r s c ne (A : 'M[F]_(r, 0)) (B : 'M[F]_(c, s)) :
  mat_mul ne (ofM A) (ofM B) = Panic.
Proof. exact: mat_mul_no_cols. Qed.
Print Assumptions C22_mat_mul_no_columns.

Theorem C22_square_mat_mul (F : fieldType) n (A B : 'M[F]_n) : (0 < n)%N ->
  square_mat_mul (n * n) (ofM A) (ofM B) = Ret (ofM (A *m B)).
Proof. exact: square_mat_mul_ofM. Qed.
Print Assumptions C22_square_mat_mul.

Theorem C22_square_mat_mul_wrong_size (F : fieldType) n ne (A B : 'M[F]_n) :
  (0 < n)%N -> ne <> (n * n)%N -> square_mat_mul ne (ofM A) (ofM B) = Panic.
Proof. exact: square_mat_mul_wrong_size. Qed.
Print Assumptions C22_square_mat_mul_wrong_size.

Theorem C22_square_mat_mul_mismatch (F : fieldType) n n' ne (A : 'M[F]_n) (B : 'M[F]_n') :
  (0 < n)%N -> n <> n' -> square_mat_mul ne (ofM A) (ofM B) = Panic.
Proof. exact: square_mat_mul_mismatch. Qed.
Print Assumptions C22_square_mat_mul_mismatch.

(** ** C23 *)
Theorem C23_hadamard (F : fieldType) r c (A B : 'M[F]_(r, c)) :
  hadamard_product (ofM A) (ofM B) = Ret (Ok (ofM (\matrix_(i, j) (A i j * B i j)))).
Proof. exact: hadamard_ofM. Qed.
Print Assumptions C23_hadamard.

Theorem C23_scalar_mul (F : fieldType) r c (A : 'M[F]_(r, c)) x :
  scalar_mul (ofM A) x = Ret (ofM (x *: A)).
Proof. exact: scalar_mul_ofM. Qed.
Print Assumptions C23_scalar_mul.

(** ** C24 *)
Theorem C24_identity (F : fieldType) n : identity F n (n * n) = Ret (ofM (1%:M : 'M[F]_n)).
Proof. exact: identity_ofM. Qed.
Print Assumptions C24_identity.

Theorem C24_identity_neutral (F : fieldType) n (A : 'M[F]_n) : (0 < n)%N ->
  (e <- identity F n (n * n) ;; square_mat_mul (n * n) e (ofM A)) = Ret (ofM A) /\
  (e <- identity F n (n * n) ;; square_mat_mul (n * n) (ofM A) e) = Ret (ofM A).
Proof. exact: identity_neutral. Qed.
Print Assumptions C24_identity_neutral.

Theorem C24_identity_wrong_size (F : fieldType) n ne : ne <> (n * n)%N -> identity F n ne = Panic.
Proof. exact: identity_bad. Qed.
Print Assumptions C24_identity_wrong_size.

(** ** C25 *)
Theorem C25_determinant (F : fieldType) n (A : 'M[F]_n) : (0 < n <= 8)%N ->
  determinant (ofM A) = Ret (\det A).
Proof. exact: determinant_ofM. Qed.
Print Assumptions C25_determinant.

Theorem C25_determinant_2x2 (F : fieldType) (a b c d : F) :
  (m <- new_2x2 a b c d ;; determinant m) = Ret (a * d - b * c).
Proof. exact: new_2x2_determinant. Qed.
Print Assumptions C25_determinant_2x2.

Theorem C25_determinant_multiplicative (F : fieldType) n (A B : 'M[F]_n) : (0 < n <= 8)%N ->
  (ab <- square_mat_mul (n * n) (ofM A) (ofM B) ;; determinant ab)
  = (x <- determinant (ofM A) ;; y <- determinant (ofM B) ;; Ret (x * y)).
Proof. exact: determinant_product. Qed.
Print Assumptions C25_determinant_multiplicative.

Theorem C25_determinant_panics (F : fieldType) n (A : 'M[F]_n) :
  (n == 0%N) || (8 < n)%N -> determinant (ofM A) = Panic.
Proof. exact: determinant_bad. Qed.
Print Assumptions C25_determinant_panics.

(** ** C26 *)
Theorem C26_inverse (F : fieldType) n (A : 'M[F]_n) : (1 < n <= 8)%N ->
  (\det A <> 0 -> exists B : 'M[F]_n,
     [/\ inverse (ofM A) = Ret (Ok (ofM B)), A *m B = 1%:M & B *m A = 1%:M]) /\
  (\det A = 0 -> inverse (ofM A) = Ret (Err NoMatrixInverse)).
Proof. exact: inverse_cases. Qed.
Print Assumptions C26_inverse.

Theorem C26_inverse_product (F : fieldType) n (A : 'M[F]_n) (m : rmat F) : (0 < n <= 8)%N ->
  inverse (ofM A) = Ret (Ok m) ->
  [/\ wf_shape n n m,
      square_mat_mul (n * n) (ofM A) m = Ret (ofM (1%:M : 'M[F]_n)) &
      square_mat_mul (n * n) m (ofM A) = Ret (ofM (1%:M : 'M[F]_n))].
Proof. exact: inverse_correct. Qed.
Print Assumptions C26_inverse_product.

Theorem C26_inverse_one_by_one (F : fieldType) (A : 'M[F]_1) :
  (A 0 0 <> 0 -> inverse (ofM A) = Ret (Ok (ofM ((A 0 0)^-1%:M : 'M[F]_1)))) /\
  (A 0 0 = 0 -> inverse (ofM A) = Panic).
Proof. exact: inverse_one. Qed.
Print Assumptions C26_inverse_one_by_one.

(** "[inverse] reports a singular matrix with [Err]" fails for size 1. *)
Theorem C26_inverse_singular_err_refuted (F : fieldType) :
  exists A : 'M[F]_1, \det A = 0 /\ inverse (ofM A) = Panic.
Proof. exact: inverse_one_refuted. Qed.
Print Assumptions C26_inverse_singular_err_refuted.

Theorem C26_inverse_size_panics (F : fieldType) n (A : 'M[F]_n) :
  (n == 0%N) || (8 < n)%N -> inverse (ofM A) = Panic.
Proof. exact: inverse_big. Qed.
Print Assumptions C26_inverse_size_panics.

(** ** C27 *)
Theorem C27_minors (F : fieldType) n (A : 'M[F]_n.+2) : (n.+2 <= 8)%N ->
  minors (ofM A) = Ret (ofM (\matrix_(i, j) \det (row' i (col' j A)))).
Proof. exact: minors_ofM. Qed.
Print Assumptions C27_minors.

Theorem C27_cofactors (F : fieldType) n (A : 'M[F]_n) :
  cofactors (ofM A) = Ret (ofM (\matrix_(i < n, j < n) (-1) ^+ (i + j))).
Proof. exact: cofactors_ofM. Qed.
Print Assumptions C27_cofactors.

Theorem C27_laplace (F : fieldType) n (A : 'M[F]_n.+2) (i : 'I_n.+2) : (n.+2 <= 8)%N ->
  exists Mi Co : 'M[F]_n.+2,
  [/\ minors (ofM A) = Ret (ofM Mi), cofactors (ofM A) = Ret (ofM Co) &
      determinant (ofM A) = Ret (\sum_j A i j * (Mi i j * Co i j))].
Proof. exact: laplace. Qed.
Print Assumptions C27_laplace.

(** For a 1x1 matrix [minors] returns the entry, not the empty determinant. *)
Theorem C27_minors_one_by_one (F : fieldType) (A : 'M[F]_1) : minors (ofM A) = Ret (ofM A).
Proof. exact: minors_one. Qed.
Print Assumptions C27_minors_one_by_one.

Theorem C27_minors_size_panics (F : fieldType) n (A : 'M[F]_n) :
  (n == 0%N) || (8 < n)%N -> minors (ofM A) = Panic.
Proof. exact: minors_bad. Qed.
Print Assumptions C27_minors_size_panics.

(** ** C28 *)
Theorem C28_row_vector_panics (F : fieldType) r c (A : 'M[F]_(r, c)) i :
  r <> 1%N -> (0 < c)%N -> row_vector (ofM A) i = Panic.
Proof. exact: row_vector_panics. Qed.
Print Assumptions C28_row_vector_panics.

Theorem C28_row_vector_single_row (F : fieldType) c (A : 'M[F]_(1, c)) :
  row_vector (ofM A) 0 = Ret (ofM A).
Proof. exact: row_vector_one. Qed.
Print Assumptions C28_row_vector_single_row.

(** "[row_vector i] returns row [i]" is false, already for the 2x2 identity. *)
Theorem C28_row_vector_returns_row_refuted (F : fieldType) :
  exists (A : 'M[F]_2) (i : 'I_2), row_vector (ofM A) i <> Ret (ofM (row i A)).
Proof. exact: row_vector_refuted. Qed.
Print Assumptions C28_row_vector_returns_row_refuted.

(** ** C29 *)
Theorem C29_dot_product (F : fieldType) n (a b : 'rV[F]_n) :
  dot_product (ofR a) (ofR b) = Ret ((a *m b^T) 0 0).
Proof. exact: dot_product_ofR. Qed.
Print Assumptions C29_dot_product.

Theorem C29_dot_product_panics (F : fieldType) (a b : seq F) :
  dot_product a b = Panic <-> size a <> size b.
Proof. exact: dot_product_panic. Qed.
Print Assumptions C29_dot_product_panics.

(** ** C30 *)
Theorem C30_blocks (F : fieldType) d (A : 'M[F]_(1 + d)) :
  [/\ mds_v d (ofM A) = Ret (ofM (ursubmx A)),
      mds_w d (ofM A) = Ret (ofM (dlsubmx A)) &
      mds_hat d (d * d) (ofM A) = Ret (ofM (drsubmx A))].
Proof. exact: mds_blocks. Qed.
Print Assumptions C30_blocks.

Theorem C30_inverse (F : fieldType) n (A : 'M[F]_n) : (0 < n <= 8)%N ->
  (\det A <> 0 -> mds_inverse (ofM A) = Ret (ofM (invmx A))) /\
  (\det A = 0 -> mds_inverse (ofM A) = Panic).
Proof. exact: mds_inverse_spec. Qed.
Print Assumptions C30_inverse.

Theorem C30_new (F : fieldType) s s1 ne ne1 (els : seq F) (m : rmat F) :
  mds_new s s1 ne ne1 els = Ret m <->
  [/\ s = s1.+1, ne = (s * s)%N, ne1 = (s1 * s1)%N, size els = ne & m = Rmat s s els].
Proof. exact: mds_new_iff. Qed.
Print Assumptions C30_new.

Theorem C30_from_elements (F : fieldType) s ne (els : seq F) (m : rmat F) :
  mds_from_elements s ne els = Ret m <-> [/\ ne = (s * s)%N, size els = ne, n_rows m = s, n_cols m = s & elements m = els].
Proof. exact: mnew_iff. Qed.
Print Assumptions C30_from_elements.
