(** The determinant of a Cauchy matrix. *)
From mathcomp Require Import all_ssreflect all_algebra.
Set Implicit Arguments.
Unset Strict Implicit.
Unset Printing Implicit Defensive.
Import GRing.Theory.
Local Open Scope ring_scope.

Section Det.
Variable F : fieldType.

Definition cauchy_diff m (x y : 'I_m -> F) : 'M[F]_m := \matrix_(i, j) (x i - y j)^-1.
Definition vandermonde m (x : 'I_m -> F) : F := \prod_(i < m) \prod_(j < m | (j < i)%N) (x i - x j).

Lemma vandermondeS m (x : 'I_m.+1 -> F) :
  vandermonde x = \prod_(i < m) (x (lift ord0 i) - x ord0) * vandermonde (fun i => x (lift ord0 i)).
Proof.
rewrite /vandermonde big_ord_recl big_pred0 // mul1r -big_split; apply: eq_bigr => i _ /=.
by rewrite big_mkcond big_ord_recl /= [in RHS]big_mkcond.
Qed.

Lemma entry (a b c d : F) : a != 0 -> b != 0 -> c != 0 -> a = b + c - d ->
  a^-1 - b^-1 * d * c^-1 = (b - d) / b * a^-1 * ((c - d) / c).
Proof.
move=> a0 b0 c0 E; have abc : a * (b * c) != 0 by rewrite !mulf_neq0.
have -> : a^-1 - b^-1 * d * c^-1 = (b * c - d * a) / (a * (b * c)).
  rewrite mulrBl; congr (_ - _); first by rewrite mulrC invfM -mulrA mulVf ?mulr1 ?mulf_neq0.
  by rewrite [in RHS]invfM -[RHS]mulrA [a * _]mulrA mulfV // mul1r invfM mulrA [d * _]mulrC.
have -> : (b - d) / b * a^-1 * ((c - d) / c) = (b - d) * (c - d) / (a * (b * c)).
  by rewrite !invfM -!mulrA; congr (_ * _); rewrite mulrCA [RHS]mulrCA; congr (_ * _); rewrite mulrCA.
by congr (_ / _); rewrite E -addrA mulrDr mulrBl [b * (c - d)]mulrBr opprD addrA [d * b]mulrC.
Qed.

Lemma entries (x y u v : F) : x != y -> x != v -> u != y ->
  (x - y)^-1 = (u - v) / (x - v) / (u - y) + (x - u) / (x - v) * ((x - y)^-1 * ((v - y) / (u - y))).
Proof.
rewrite -(subr_eq0 x y) -(subr_eq0 x v) -(subr_eq0 u y) => xy xv uy.
have e1 : x - v - (u - v) = x - u by rewrite opprB addrA subrK.
have e2 : u - y - (u - v) = v - y by rewrite opprB addrC addrA subrK.
have := @entry (x - y) (x - v) (u - y) (u - v) xy xv uy; rewrite e1 e2 -addrA e2 addrA subrK => /(_ erefl) H.
by rewrite [(x - u) / (x - v) * _]mulrA -H [(u - v) / (x - v)]mulrC [RHS]addrC subrK.
Qed.

Theorem cauchy_det m (x y : 'I_m -> F) : (forall i j, x i != y j) ->
  \det (cauchy_diff x y) =
  (-1) ^+ 'C(m, 2) * vandermonde x * vandermonde y / \prod_(i < m) \prod_(j < m) (x i - y j).
Proof.
elim: m x y => [|n IH] x y D; first by rewrite det_mx00 /vandermonde !big_ord0 bin0n /= expr0 invr1 !mulr1.
pose x' (i : 'I_n) := x (lift ord0 i); pose y' (i : 'I_n) := y (lift ord0 i).
have d0 i j : x i - y j != 0 by rewrite subr_eq0.
pose a := x ord0 - y ord0.
pose L : 'rV[F]_n := \row_j ((x' j - x ord0) / (x' j - y ord0)).
pose R : 'rV[F]_n := \row_j ((y ord0 - y' j) / (x ord0 - y' j)).
pose c : 'cV[F]_n := \col_i (x' i - y ord0)^-1.
pose r : 'rV[F]_n := \row_j (x ord0 - y' j)^-1.
pose S := diag_mx L *m cauchy_diff x' y' *m diag_mx R.
have E : cauchy_diff x y = block_mx (1%:M : 'M_1) 0 (a *: c) 1%:M *m block_mx (a^-1)%:M r 0 S :> 'M_(1 + n).
  rewrite mulmx_block !mul1mx !mul0mx !addr0.
  apply/matrixP => i j; rewrite [LHS]mxE.
  case: (splitP i) => i' Ei; case: (splitP j) => j' Ej.
  - have -> : i = lshift n i' by exact/val_inj.
    have -> : j = lshift n j' by exact/val_inj.
    rewrite block_mxEul mxE (ord1 i') (ord1 j') eqxx mulr1n.
    by congr (x _ - y _)^-1; apply/val_inj.
  - have -> : i = lshift n i' by exact/val_inj.
    have -> : j = rshift 1 j' by exact/val_inj.
    rewrite block_mxEur mxE (ord1 i') /y'.
    by congr (x _ - y _)^-1; apply/val_inj.
  - have -> : i = rshift 1 i' by exact/val_inj.
    have -> : j = lshift n j' by exact/val_inj.
    rewrite block_mxEdl (ord1 j') mul_mx_scalar scalerA mulVf ?d0 // scale1r mxE /x'.
    by congr (x _ - y _)^-1; apply/val_inj.
  - have -> : i = rshift 1 i' by exact/val_inj.
    have -> : j = rshift 1 j' by exact/val_inj.
    rewrite block_mxEdr mxE /S -mulmxA !mul_diag_mx mul_mx_diag !mxE big_ord1 !mxE.
    by rewrite (entries (D _ _) (D _ ord0) (D ord0 _)) /x' /y' -!(lift0, rshift1).
have ED : \det (cauchy_diff x y) = a^-1 * \det S.
  rewrite E; transitivity (\det (block_mx (1%:M : 'M_1) 0 (a *: c) 1%:M) * \det (block_mx (a^-1)%:M r 0 S)); first exact: det_mulmx.
  by rewrite det_lblock det_ublock !det1 !mul1r det_scalar1.
rewrite {}ED /S !det_mulmx !det_diag IH; last by move=> i j; exact: D.
rewrite !vandermondeS binS bin1 exprD.
rewrite big_ord_recl big_ord_recl -/a.
under [X in _ = _ / (_ * X)]eq_bigr do rewrite big_ord_recl.
rewrite big_split /=.
have -> : \prod_(i < n) L 0 i = \prod_(i < n) (x' i - x ord0) / \prod_(i < n) (x' i - y ord0).
  by rewrite -prodfV -big_split; apply: eq_bigr => i _; rewrite mxE.
have -> : \prod_(i < n) R 0 i = (-1) ^+ n * \prod_(i < n) (y' i - y ord0) / \prod_(i < n) (x ord0 - y' i).
  rewrite -prodfV -[n in (-1) ^+ n]card_ord -prodr_const -!big_split.
  by apply: eq_bigr => i _; rewrite mxE /= mulN1r opprB.
by rewrite !invfM !mulrA [LHS](ACl (4 * 8 * 2 * 5 * 9 * 6 * 1 * 10 * 3 * 7)).
Qed.
End Det.
