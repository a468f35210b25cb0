(** Statements about the matrix library in the form used by
    [Properties_Matrix.v], derived from [MatrixProofs.v]. *)
From mathcomp Require Import all_ssreflect all_algebra.
From Verif Require Import Base Matrix MatrixSpec MatrixProofs.
Set Implicit Arguments.
Unset Strict Implicit.
Unset Printing Implicit Defensive.
Import GRing.Theory.
Local Open Scope ring_scope.
Local Open Scope rust_scope.

Section Props.
Variable F : fieldType.
Implicit Types (m : rmat F).

Lemma wf_ofM_iff r c m : wf_shape r c m <-> exists A : 'M[F]_(r, c), m = ofM A.
Proof.
split; first by move=> wf; exists (toM r c m); rewrite ofM_toM.
by case=> A ->; apply: wf_ofM.
Qed.

Lemma mnew_iff nr nc ne (els : seq F) m :
  mnew nr nc ne els = Ret m <->
  [/\ ne = (nr * nc)%N, size els = ne, n_rows m = nr, n_cols m = nc & elements m = els].
Proof.
rewrite /mnew; split.
- case: eqP => //= h1; case: eqP => //= h2 [<-] /=; by split.
- case=> -> -> <- <- <-; rewrite !eqxx /=; by case: m.
Qed.

Lemma mnew_panic nr nc ne (els : seq F) :
  mnew nr nc ne els = Panic <-> ne <> (nr * nc)%N \/ size els <> ne.
Proof.
rewrite /mnew; case: eqP => //= h1; last by split=> // _; left.
case: eqP => //= h2; last by split=> // _; right.
by split => // - [].
Qed.

Lemma new_from_known_iff nr nc (els : seq F) m :
  new_from_known nr nc els = Ret m <->
  [/\ size els = (nr * nc)%N, n_rows m = nr, n_cols m = nc & elements m = els].
Proof.
rewrite /new_from_known; split.
- by case: eqP => //= h1 [<-] /=; split.
- case=> -> <- <- <-; rewrite eqxx /=; by case: m.
Qed.

Lemma new_from_known_panic nr nc (els : seq F) :
  new_from_known nr nc els = Panic <-> size els <> (nr * nc)%N.
Proof. by rewrite /new_from_known; case: eqP => //= h1; split. Qed.

Lemma mnew_row_major nr nc ne (els : seq F) m (i : 'I_nr) (j : 'I_nc) :
  mnew nr nc ne els = Ret m ->
  get_element m i j = Ret (nth 0 els (i * nc + j)) /\ m = ofM (toM nr nc m).
Proof.
move/mnew_iff => [e1 e2 e3 e4 e5]; have wf : wf_shape nr nc m.
  by rewrite /wf_shape e3 e4 e5 e2 e1 !eqxx.
split; last by rewrite ofM_toM.
rewrite /get_element e4 e5 (aget_nth 0) // e2 e1; exact: idx_lt.
Qed.

Lemma get_ofM r c (A : 'M[F]_(r, c)) (i : 'I_r) (j : 'I_c) :
  get_element (ofM A) i j = Ret (A i j).
Proof. by rewrite ofM_mkm get_mkm // mxfE. Qed.

Lemma set_ofM r c (A : 'M[F]_(r, c)) (i : 'I_r) (j : 'I_c) (v : F) :
  set_element (ofM A) i j v
  = Ret (ofM (\matrix_(i', j') if (i' == i) && (j' == j) then v else A i' j')).
Proof.
rewrite ofM_mkm set_mkm // mkm_ofM; congr (Ret (ofM _)); apply/matrixP => i' j'.
by rewrite !mxE mxfE.
Qed.

Lemma get_oob r c (A : 'M[F]_(r, c)) i j :
  (r * c <= i * c + j)%N -> get_element (ofM A) i j = Panic.
Proof. by move=> h; rewrite /get_element aget_oob // size_ofM. Qed.

Lemma set_oob r c (A : 'M[F]_(r, c)) i j v :
  (r * c <= i * c + j)%N -> set_element (ofM A) i j v = Panic.
Proof. by move=> h; rewrite /set_element aset_oob // size_ofM. Qed.

Lemma get_alias r c (A : 'M[F]_(r, c)) i j :
  get_element (ofM A) i (c + j) = get_element (ofM A) i.+1 j.
Proof. by rewrite /get_element /= mulSn addnCA addnA. Qed.

Lemma set_alias r c (A : 'M[F]_(r, c)) i j v :
  set_element (ofM A) i (c + j) v = set_element (ofM A) i.+1 j v.
Proof. by rewrite /set_element /= mulSn addnCA addnA. Qed.

Lemma transpose_involutive r c m : wf_shape r c m ->
  (t <- transpose m ;; transpose t) = Ret m.
Proof. by move/wf_ofM_iff => [A ->]; rewrite transpose_ofM /= transpose_ofM trmxK. Qed.

Lemma hadamard_ofM r c (A B : 'M[F]_(r, c)) :
  hadamard_product (ofM A) (ofM B) = Ret (Ok (ofM (\matrix_(i, j) (A i j * B i j)))).
Proof.
rewrite !ofM_mkm hadamard_mkm -ofM_mkm mkm_ofM; congr (Ret (Ok (ofM _))).
by apply/matrixP => i j; rewrite !mxE !mxfE.
Qed.

Lemma scalar_mul_ofM r c (A : 'M[F]_(r, c)) x :
  scalar_mul (ofM A) x = Ret (ofM (x *: A)).
Proof.
rewrite !ofM_mkm scalar_mul_mkm -ofM_mkm mkm_ofM; congr (Ret (ofM _)).
by apply/matrixP => i j; rewrite !mxE mxfE mulrC.
Qed.

(** Multiplication when it must not succeed. *)
Lemma mat_mul_wrong_size r c s ne (A : 'M[F]_(r, c)) (B : 'M[F]_(c, s)) :
  (0 < c)%N -> ne <> (r * s)%N -> mat_mul ne (ofM A) (ofM B) = Panic.
Proof.
move=> c0 bad; rewrite !ofM_mkm /mat_mul transpose_mkm /= iter_rows_mkm //=.
by rewrite (emits_run_bad (@mul_body _ r c s _ _ c0)) // size_mkels.
Qed.

Lemma mat_mul_mismatch r c c' s ne (A : 'M[F]_(r, c)) (B : 'M[F]_(c', s)) :
  (0 < r)%N -> (0 < s)%N -> c <> c' -> mat_mul ne (ofM A) (ofM B) = Panic.
Proof.
case: r A => // r A _; case: s B => // s B _ bad.
rewrite !ofM_mkm /mat_mul transpose_mkm /=.
case: c A bad => [|c] A bad; first by rewrite /iter_rows.
rewrite iter_rows_mkm //=.
case: c' B bad => [|c'] B bad; first by rewrite {1}/iter_rows.
rewrite iter_rows_mkm //= /dot_product /= !size_map !size_iota.
by case: eqP => // - [] /esym e; case: bad; rewrite e.
Qed.

Lemma mat_mul_no_cols r s c ne (A : 'M[F]_(r, 0)) (B : 'M[F]_(c, s)) :
  mat_mul ne (ofM A) (ofM B) = Panic.
Proof. by rewrite /mat_mul transpose_ofM. Qed.

Lemma square_mat_mul_wrong_size n ne (A B : 'M[F]_n) :
  (0 < n)%N -> ne <> (n * n)%N -> square_mat_mul ne (ofM A) (ofM B) = Panic.
Proof.
move=> c0 bad; rewrite !ofM_mkm /square_mat_mul transpose_mkm /= iter_rows_mkm //=.
by rewrite (emits_run_bad (@mul_body _ n n n _ _ c0)) // size_mkels.
Qed.

Lemma square_mat_mul_mismatch n n' ne (A : 'M[F]_n) (B : 'M[F]_n') :
  (0 < n)%N -> n <> n' -> square_mat_mul ne (ofM A) (ofM B) = Panic.
Proof.
case: n A => // n A _; case: n' B => [|n'] B bad.
  by rewrite !ofM_mkm /square_mat_mul transpose_mkm bind_ret iter_rows_mkm.
rewrite !ofM_mkm /square_mat_mul transpose_mkm bind_ret !iter_rows_mkm //=.
rewrite /dot_product /= !size_map !size_iota.
by case: eqP => // - [] /esym e; case: bad; rewrite e.
Qed.

Lemma identity_bad n ne : ne <> (n * n)%N -> identity F n ne = Panic.
Proof. by move=> /eqP bad; rewrite /identity /mnew bad. Qed.

Lemma identity_neutral n (A : 'M[F]_n) : (0 < n)%N ->
  (e <- identity F n (n * n) ;; square_mat_mul (n * n) e (ofM A)) = Ret (ofM A) /\
  (e <- identity F n (n * n) ;; square_mat_mul (n * n) (ofM A) e) = Ret (ofM A).
Proof.
by move=> n0; rewrite identity_ofM !bind_ret !square_mat_mul_ofM // mul1mx mulmx1.
Qed.

Lemma determinant_bad n (A : 'M[F]_n) : (n == 0%N) || (8 < n)%N -> determinant (ofM A) = Panic.
Proof.
by rewrite /determinant /=; case: n A => // n A n8; apply: det_rec_big.
Qed.

Lemma determinant_product n (A B : 'M[F]_n) : (0 < n <= 8)%N ->
  (ab <- square_mat_mul (n * n) (ofM A) (ofM B) ;; determinant ab)
  = (x <- determinant (ofM A) ;; y <- determinant (ofM B) ;; Ret (x * y)).
Proof.
move=> n8; have n0 : (0 < n)%N by case/andP: n8.
by rewrite square_mat_mul_ofM // bind_ret !determinant_ofM // det_mulmx.
Qed.

Lemma minors_ofM n (A : 'M[F]_n.+2) : (n.+2 <= 8)%N ->
  minors (ofM A) = Ret (ofM (\matrix_(i, j) \det (row' i (col' j A)))).
Proof.
move=> n8; rewrite ofM_mkm minors_mkm // mkm_ofM; congr (Ret (ofM _)).
apply/matrixP => i j; rewrite !mxE /minor_fun; congr (\det _).
by apply/matrixP => k l; rewrite !mxE -mxfE.
Qed.

Lemma cofactors_ofM n (A : 'M[F]_n) :
  cofactors (ofM A) = Ret (ofM (\matrix_(i < n, j < n) (-1) ^+ (i + j))).
Proof. by rewrite ofM_mkm cofactors_mkm mkm_ofM. Qed.

Lemma minors_one (A : 'M[F]_1) : minors (ofM A) = Ret (ofM A).
Proof. by rewrite ofM_mkm /minors /= /mnew /= /mkm /= /mkels /=. Qed.

Lemma minors_bad n (A : 'M[F]_n) : (n == 0%N) || (8 < n)%N -> minors (ofM A) = Panic.
Proof.
by rewrite /minors /=; case: n A => // n A; case: n A => // n A; case: n A => // n A /= ->.
Qed.

(** Laplace expansion of [determinant] along any row, through [minors] and
    [cofactors]. *)
Lemma laplace n (A : 'M[F]_n.+2) (i : 'I_n.+2) : (n.+2 <= 8)%N ->
  exists Mi Co : 'M[F]_n.+2,
  [/\ minors (ofM A) = Ret (ofM Mi), cofactors (ofM A) = Ret (ofM Co) &
      determinant (ofM A) = Ret (\sum_j A i j * (Mi i j * Co i j))].
Proof.
move=> n8; do 2 eexists; split; [exact: minors_ofM | exact: cofactors_ofM |].
rewrite determinant_ofM // (expand_det_row _ i); congr Ret; apply: eq_bigr => j _.
by rewrite /cofactor !mxE mulrC [_ * \det _]mulrC mulrA [_ * A i j]mulrC mulrA.
Qed.

(** What [inverse] returns, in terms of products. *)
Lemma inverse_correct n (A : 'M[F]_n) m : (0 < n <= 8)%N ->
  inverse (ofM A) = Ret (Ok m) ->
  [/\ wf_shape n n m,
      square_mat_mul (n * n) (ofM A) m = Ret (ofM (1%:M : 'M[F]_n)) &
      square_mat_mul (n * n) m (ofM A) = Ret (ofM (1%:M : 'M[F]_n))].
Proof.
move=> n8; have n0 : (0 < n)%N by case/andP: n8.
have H : inverse (ofM A) = Ret (Ok m) -> \det A != 0 /\ m = ofM (invmx A).
  case: n A n8 n0 => // - [|n] A n8 _.
    by rewrite inverse_ofM1; case: eqP => //= _ [<-].
  by rewrite inverse_ofM //; case: eqP => //= _ [<-].
case/H=> dA ->; have uA : A \in unitmx by rewrite unitmxE unitfE.
by rewrite !square_mat_mul_ofM // mulmxV // mulVmx //; split=> //; apply: wf_ofM.
Qed.

Lemma inverse_cases n (A : 'M[F]_n) : (1 < n <= 8)%N ->
  (\det A <> 0 -> exists B : 'M[F]_n, [/\ inverse (ofM A) = Ret (Ok (ofM B)), A *m B = 1%:M & B *m A = 1%:M]) /\
  (\det A = 0 -> inverse (ofM A) = Ret (Err NoMatrixInverse)).
Proof.
move=> n8; rewrite inverse_ofM //; split=> [/eqP dA | ->]; last by rewrite eqxx.
exists (invmx A); rewrite (negPf dA).
have uA : A \in unitmx by rewrite unitmxE unitfE.
by rewrite mulmxV // mulVmx.
Qed.

Lemma inverse_one (A : 'M[F]_1) :
  (A 0 0 <> 0 -> inverse (ofM A) = Ret (Ok (ofM ((A 0 0)^-1%:M : 'M[F]_1)))) /\
  (A 0 0 = 0 -> inverse (ofM A) = Panic).
Proof.
have dA : \det A = A 0 0 by rewrite det_mx11.
rewrite inverse_ofM1 dA; split=> [/eqP n0|->]; last by rewrite eqxx.
rewrite (negPf n0); congr (Ret (Ok (ofM _))).
have uA : A \in unitmx by rewrite unitmxE unitfE dA.
apply: (can_inj (mulKmx uA)); rewrite mulmxV //.
by rewrite {1}[A]mx11_scalar -scalar_mxM mulfV.
Qed.

Lemma inverse_one_refuted : exists A : 'M[F]_1, \det A = 0 /\ inverse (ofM A) = Panic.
Proof. by exists 0; rewrite inverse_ofM1 det_mx11 mxE eqxx. Qed.

Lemma row_vector_one c (A : 'M[F]_(1, c)) : row_vector (ofM A) 0 = Ret (ofM A).
Proof.
rewrite ofM_mkm row_vector_mkm // mul1n eqxx; congr Ret; apply: eq_mkm => -[].
Qed.

Lemma row_vector_panics r c (A : 'M[F]_(r, c)) i :
  r <> 1%N -> (0 < c)%N -> row_vector (ofM A) i = Panic.
Proof.
move=> r1 c0; rewrite ofM_mkm; case: (ltnP i r) => ir; last exact: row_vector_oob.
rewrite row_vector_mkm // -[X in _ == X]mul1n eqn_pmul2r //.
by case: eqP => // e; case: r1.
Qed.

Lemma row_vector_refuted :
  exists (A : 'M[F]_2) (i : 'I_2), row_vector (ofM A) i <> Ret (ofM (row i A)).
Proof. by exists 1%:M, 0; rewrite row_vector_panics. Qed.

Lemma dot_product_ofR n (a b : 'rV[F]_n) :
  dot_product (ofR a) (ofR b) = Ret ((a *m b^T) 0 0).
Proof.
rewrite /dot_product !size_map eqxx /= /ofR mxE; congr Ret.
pose f (x : 'rV[F]_n) := mxf x 0%N.
have E (x : 'rV[F]_n) : [seq x 0 i | i <- enum 'I_n] = [seq f x i | i <- iota 0 n].
  rewrite -map_enum_iota; apply: eq_map => i; rewrite /f.
  by have := mxfE x 0 i.
rewrite !E sum_products_map; apply: eq_bigr => i _.
by rewrite mxE /f; congr (_ * _); exact: (mxfE _ 0 i).
Qed.

Lemma dot_product_panic (a b : seq F) : dot_product a b = Panic <-> size a <> size b.
Proof. by rewrite /dot_product; case: eqP => //= h; split. Qed.

(** Blocks *)
Lemma mds_new_iff s s1 ne ne1 (els : seq F) m :
  mds_new s s1 ne ne1 els = Ret m <->
  [/\ s = s1.+1, ne = (s * s)%N, ne1 = (s1 * s1)%N, size els = ne & m = Rmat s s els].
Proof.
rewrite /mds_new /require.
case: (s =P s1.+1) => [E1|E1] /=; last by split=> // - [].
case: ((s * s)%N =P ne) => [E2|E2] /=; last by split=> // - [_ E]; case: E2.
case: ((s1 * s1)%N =P ne1) => [E3|E3] /=; last by split=> // - [_ _ E]; case: E3.
rewrite /mnew -E2 eqxx /=; case: eqP => [E4|E4] /=; last by split=> // - [].
by split=> [[<-]|[_ _ _ _ ->]].
Qed.

Lemma mxf_at r c (A : 'M[F]_(r, c)) i j (ir : (i < r)%N) (jc : (j < c)%N) :
  mxf A i j = A (Ordinal ir) (Ordinal jc).
Proof. by rewrite -[i]/(nat_of_ord (Ordinal ir)) -[j]/(nat_of_ord (Ordinal jc)) mxfE. Qed.

Lemma mds_blocks d (A : 'M[F]_(1 + d)) :
  [/\ mds_v d (ofM A) = Ret (ofM (ursubmx A)),
      mds_w d (ofM A) = Ret (ofM (dlsubmx A)) &
      mds_hat d (d * d) (ofM A) = Ret (ofM (drsubmx A))].
Proof.
rewrite {1 2 3}ofM_mkm; split.
- rewrite mds_v_mkm mkm_ofM; congr (Ret (ofM _)); apply/matrixP => i j; rewrite !mxE.
  rewrite -mxfE; congr mxf; by rewrite (ord1 i).
- rewrite mds_w_mkm mkm_ofM; congr (Ret (ofM _)); apply/matrixP => i j; rewrite !mxE.
  rewrite -mxfE; congr mxf; by rewrite (ord1 j).
- rewrite mds_hat_mkm mkm_ofM; congr (Ret (ofM _)); apply/matrixP => i j; rewrite !mxE.
  by rewrite -mxfE.
Qed.

Lemma mds_inverse_spec n (A : 'M[F]_n) : (0 < n <= 8)%N ->
  (\det A <> 0 -> mds_inverse (ofM A) = Ret (ofM (invmx A))) /\
  (\det A = 0 -> mds_inverse (ofM A) = Panic).
Proof.
rewrite /mds_inverse; case: n A => // - [|n] A n8.
  by rewrite inverse_ofM1; split=> [/eqP/negPf->|->] //; rewrite eqxx.
by rewrite inverse_ofM //; split=> [/eqP/negPf->|->] //; rewrite eqxx.
Qed.
End Props.
