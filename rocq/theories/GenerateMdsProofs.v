(** Proofs about vendor/generate_mds.sage: the matrices. *)
From Coq Require Import ZArith String.
From mathcomp Require Import all_ssreflect all_algebra.
From Verif Require Import Base Cauchy CauchyDet GenerateMds GenerateMdsSpec Slia.
Set Implicit Arguments.
Unset Strict Implicit.
Unset Printing Implicit Defensive.
Import GRing.Theory.
Local Open Scope ring_scope.
Local Open Scope rust_scope.

(** * Eigenvalues *)
Section Eigen.
Variables (F : fieldType) (m : nat).
Implicit Type M : 'M[F]_m.

Lemma char_poly_tr M : char_poly M^T = char_poly M.
Proof.
by rewrite /char_poly -det_tr /char_poly_mx linearB /= tr_scalar_mx map_trmx trmxK.
Qed.

Lemma has_eigenvalueP M z : has_eigenvalue M z <-> root (char_poly M) z.
Proof.
rewrite -char_poly_tr -eigenvalue_root_char; split.
  case=> v v0 E; apply/eigenvalueP; exists v^T; last by rewrite trmx_eq0.
  by rewrite -trmx_mul E linearZ.
case/eigenvalueP => v E v0; exists v^T; last by rewrite -[M]trmxK -trmx_mul E linearZ.
by rewrite trmx_eq0.
Qed.

Lemma has_eigenvalue_tr M z : has_eigenvalue M^T z <-> has_eigenvalue M z.
Proof. by rewrite !has_eigenvalueP char_poly_tr. Qed.

Lemma line_eigen M k (U : 'M[F]_(k, m)) : invariant M U -> \rank U = 1%N -> exists z, has_eigenvalue M z.
Proof.
move=> inv r1.
have [i ui] : exists i, row i U != 0.
  case: (pickP (fun i => row i U != 0)) => [i ui|H]; first by exists i.
  suff U0 : U = 0 by rewrite U0 mxrank0 in r1.
  by apply/row_matrixP => i; rewrite row0; apply/eqP; move/negPn: (negbT (H i)).
have e : (row i U :=: U)%MS.
  by apply/eqmxP; case: (mxrank_leqif_eq (row_sub i U)) => _ <-; rewrite r1 rank_rV ui.
have := inv (row i U)^T; rewrite trmxK row_sub => /(_ isT); rewrite -e => /sub_rVP [z E].
exists z; exists (row i U)^T; first by rewrite trmx_eq0.
by apply: (can_inj (@trmxK _ _ _)); rewrite E linearZ /= trmxK.
Qed.

Lemma hyperplane_eigen M k (U : 'M[F]_(k, m)) : (0 < m)%N -> invariant M U -> \rank U = m.-1 -> exists z, has_eigenvalue M z.
Proof.
move=> m0 inv r1.
suff [z hz] : exists z, has_eigenvalue M^T z by exists z; apply/has_eigenvalue_tr.
apply: (@line_eigen _ _ (kermx U^T)); last first.
  by rewrite mxrank_ker mxrank_tr r1 -{1}(prednK m0) subSnn.
move=> v /sub_kermxP E; apply/sub_kermxP; rewrite trmx_mul trmxK -mulmxA.
(* U M^T <= U *)
have : (U *m M^T <= U)%MS.
  apply/row_subP => i; rewrite row_mul; have := inv (row i U)^T; rewrite trmxK row_sub => /(_ isT).
  by rewrite trmx_mul trmxK.
case/submxP => D DE; have -> : M *m U^T = U^T *m D^T by rewrite -trmx_mul -DE trmx_mul trmxK.
by rewrite mulmxA E mul0mx.
Qed.
End Eigen.

(** * The determinant and the assertions *)
Section Matrices.
Variable F : finFieldType.
Implicit Types (x y : nat -> F).

Lemma sign4 (R : ringType) m : (-1) ^+ 'C(m, 2) = (if (m %% 4 < 2)%N then 1 else -1) :> R.
Proof.
have H n : ('C(n.+4, 2) = 'C(n, 2) + 2 * (2 * n + 3))%N.
  by rewrite !binS !bin0 !bin1; apply/eqP; rewrite -!addnA eqn_add2l; apply/eqP; rewrite !addnA; slia.
rewrite [in LHS](divn_eq m 4) addnC; elim: (m %/ 4)%N => [|k IH].
  by rewrite addn0 -signr_odd; case: (m %% 4)%N (ltn_pmod m (isT : 0 < 4)%N) => [|[|[|[|]]]].
by rewrite mulSn addnCA H exprD IH exprM sqrrN expr1n expr1n mulr1.
Qed.

Lemma productE (xs : seq F) : product xs = \prod_(z <- xs) z.
Proof. by elim: xs => [|z xs IH] /=; rewrite ?big_nil ?big_cons ?IH. Qed.

Lemma product_flatten (xss : seq (seq F)) : product (flatten xss) = \prod_(xs <- xss) product xs.
Proof. by elim: xss => [|xs xss IH] /=; rewrite ?big_nil ?big_cons // productE big_cat /= -!productE IH. Qed.

Lemma prod_iota (f : nat -> F) k : product [seq f j | j <- iota 0 k] = \prod_(j < k) f j.
Proof. by rewrite productE big_map -{1}(subn0 k) -/(index_iota 0 k) big_mkord. Qed.

Lemma prod_iota2 (f : nat -> nat -> F) (k : nat -> nat) m :
  product (flatten [seq [seq f i j | j <- iota 0 (k i)] | i <- iota 0 m]) = \prod_(i < m) \prod_(j < k i) f i j.
Proof.
rewrite product_flatten big_map -{1}(subn0 m) -/(index_iota 0 m) big_mkord.
by apply: eq_bigr => i _; rewrite prod_iota.
Qed.

Lemma nth_iota_map (f : nat -> F) k i : (i < k)%N -> nth 0 [seq f j | j <- iota 0 k] i = f i.
Proof. by move=> ik; rewrite (nth_map 0%N) ?size_iota // nth_iota. Qed.

Lemma product_differences m x :
  product (differences m [seq x i | i <- iota 0 m]) = vandermonde (fun i : 'I_m => x i).
Proof.
rewrite /differences (prod_iota2 (fun i j => nth 0 _ i - nth 0 _ j) id); apply: eq_bigr => i _.
rewrite (big_ord_widen _ (fun j => nth 0 _ i - nth 0 _ j) (ltnW (ltn_ord i))).
by apply: eq_bigr => j _; rewrite !nth_iota_map.
Qed.

Lemma product_all_differences m x y :
  product (all_differences m [seq x i | i <- iota 0 m] [seq y i | i <- iota 0 m]) = \prod_(i < m) \prod_(j < m) (x i - y j).
Proof.
rewrite /all_differences (prod_iota2 (fun i j => nth 0 _ i - nth 0 _ j) (fun _ => m)).
by apply: eq_bigr => i _; apply: eq_bigr => j _; rewrite !nth_iota_map.
Qed.

Lemma cauchy_ofE m x y : cauchy_of m x y = cauchy_diff (fun i : 'I_m => x i) (fun j : 'I_m => y j).
Proof. by []. Qed.

Lemma expected_detE m x y : (forall i j, (i < m)%N -> (j < m)%N -> x i <> y j) ->
  expected_det m [seq x i | i <- iota 0 m] [seq y i | i <- iota 0 m] = \det (cauchy_of m x y).
Proof.
move=> D; rewrite cauchy_ofE cauchy_det; last by move=> i j; apply/eqP; exact: D.
by rewrite /expected_det !product_differences product_all_differences sign4.
Qed.

Lemma matrix_ofE m x y :
  matrix_of m [seq [seq 1 / (nth 0 [seq x i | i <- iota 0 m] i - nth 0 [seq y i | i <- iota 0 m] j) | j <- iota 0 m] | i <- iota 0 m]
  = cauchy_of m x y.
Proof.
apply/matrixP => i j; rewrite !mxE (nth_map 0%N) ?size_iota // nth_iota // add0n nth_iota_map //.
by rewrite !nth_iota_map // div1r.
Qed.

Lemma distinctP m x y :
  reflect (distinct m x y) (size (undup ([seq x i | i <- iota 0 m] ++ [seq y i | i <- iota 0 m])) == 2 * m)%N.
Proof.
have sz : size ([seq x i | i <- iota 0 m] ++ [seq y i | i <- iota 0 m]) = (2 * m)%N.
  by rewrite size_cat !size_map !size_iota mul2n addnn.
have -> : (size (undup ([seq x i | i <- iota 0 m] ++ [seq y i | i <- iota 0 m])) == 2 * m)%N =
          uniq ([seq x i | i <- iota 0 m] ++ [seq y i | i <- iota 0 m]).
  by rewrite -sz eqn_leq size_undup /= leqNgt ltn_size_undup negbK.
rewrite cat_uniq -![map _ _]/(mkseq _ _); apply: (iffP and3P).
  case=> /mkseq_uniqP ux /hasPn d /mkseq_uniqP uy; split.
  - by move=> i j im jm; apply: ux.
  - by move=> i j im jm; apply: uy.
  - move=> i j im jm E; have my : y j \in mkseq [eta y] m by apply: map_f; rewrite mem_iota.
    have mx : x i \in mkseq [eta x] m by apply: map_f; rewrite mem_iota.
    by have := d _ my; rewrite -E => /negP; apply; exact: mx.
case=> ux uy d; split; [apply/mkseq_uniqP | apply/hasPn | apply/mkseq_uniqP].
- by move=> i j; apply: ux.
- move=> z /mapP [j]; rewrite mem_iota => /andP [_ jm] ->; apply/negP => /mapP [i]; rewrite mem_iota => /andP [_ im] E.
  exact: (d _ _ im jm (esym E)).
- by move=> i j; apply: uy.
Qed.

Lemma cauchy_of_mds m x y : distinct m x y -> mds_mx (cauchy_of m x y).
Proof.
case=> ux uy d k f g fi gi.
have -> : mxsub f g (cauchy_of m x y) = \matrix_(i, j) (x (f i) + - y (g j))^-1 by apply/matrixP => i j; rewrite !mxE.
apply: cauchy_unit => [i j E|i j E|i j].
- by apply/fi/val_inj; exact: (ux _ _ (ltn_ord _) (ltn_ord _) E).
- by apply/gi/val_inj; exact: (uy _ _ (ltn_ord _) (ltn_ord _) (oppr_inj E)).
- by rewrite subr_eq0; apply/eqP; apply: d.
Qed.

Variable rc : string -> nat -> F.
Notation X name := (rc (append name "x")).
Notation Y name := (rc (append name "y")).

Lemma attempt_mdsE name m a :
  attempt_mds rc name m false a =
  let x := attempt_of m (X name) a in let y := attempt_of m (Y name) a in
  if size (undup ([seq x i | i <- iota 0 m] ++ [seq y i | i <- iota 0 m])) == (2 * m)%N then
    Ret (if ~~ [exists z : F, root (char_poly (cauchy_of m x y)) z] then Some (cauchy_of m x y) else None)
  else Panic.
Proof.
rewrite /attempt_mds.
rewrite -[[seq X name _ | i <- _]]/([seq attempt_of m (X name) a i | i <- iota 0 m]).
rewrite -[[seq Y name _ | i <- _]]/([seq attempt_of m (Y name) a i | i <- iota 0 m]).
move: (attempt_of m (X name) a) (attempt_of m (Y name) a) => x y; cbv zeta.
case: distinctP => //= d; rewrite matrix_ofE.
have := mds_unit (cauchy_of_mds d); rewrite unitmxE unitfE => -> /=.
by rewrite expected_detE ?eqxx /=; [case: ifP | case: d].
Qed.

Lemma attemptsE name m a n M :
  attempts rc name m false a n = Ret M <-> exists b, [/\ (b < n)%N,
    forall c, (a <= c <= a + b)%N -> distinct m (attempt_of m (X name) c) (attempt_of m (Y name) c),
    forall c, (a <= c < a + b)%N -> exists z, has_eigenvalue (cauchy_of m (attempt_of m (X name) c) (attempt_of m (Y name) c)) z,
    forall z, ~ has_eigenvalue (cauchy_of m (attempt_of m (X name) (a + b)) (attempt_of m (Y name) (a + b))) z &
    M = cauchy_of m (attempt_of m (X name) (a + b)) (attempt_of m (Y name) (a + b))].
Proof.
elim: n a => [|n IH] a /=; first by split=> // -[b []].
rewrite attempt_mdsE; cbv zeta.
case: distinctP => /= [d|d]; last first.
  by split=> // -[b [_ D _ _ _]]; case: d; apply: D; rewrite leqnn leq_addr.
case: existsP => /= [[z /has_eigenvalueP hz]|he].
  rewrite IH; split=> -[b [bn D E N ->]].
    exists b.+1; rewrite addnS -addSn; split=> // c /andP [ac cb].
      by case: (ltngtP a c) ac => [ac' _|//|<- //]; apply: D; rewrite ac'.
    by case: (ltngtP a c) ac => [ac' _|//|<- _]; [apply: E; rewrite ac' | exists z].
  case: b bn D E N => [|b] bn D E N; first by case: (N z); rewrite addn0.
  move: N; rewrite addnS -addSn => N; exists b; split=> // c /andP [ac cb].
    by apply: D; rewrite (ltnW ac) addnS -addSn.
  by apply: E; rewrite (ltnW ac) addnS -addSn.
have nz z : ~ has_eigenvalue (cauchy_of m (attempt_of m (X name) a) (attempt_of m (Y name) a)) z.
  by move/has_eigenvalueP => h; apply: he; exists z.
split=> [[<-]|[b [bn D E N ->]]].
  exists 0%N; rewrite addn0; split=> // c.
    by move=> /andP [ac ca]; have -> : c = a by apply/eqP; rewrite eqn_leq ca.
  by move=> /andP [ac ca]; rewrite leqNgt ca in ac.
case: b bn D E N => [|b] bn D E N; first by rewrite addn0.
by case: (E a); rewrite ?leqnn ?addnS ?ltnS ?leq_addr // => z /nz.
Qed.

(** ** The theorems *)
Theorem matrix_cases name m M : generate_mds_matrix rc name m false = Ret M <->
  exists2 a, (a < 100)%N & chosen (X name) (Y name) a M.
Proof.
rewrite /generate_mds_matrix attemptsE; split.
  case=> a []; rewrite !add0n => a100 D E N ->; by exists a.
by case=> a a100 [D E N ->]; exists a; rewrite !add0n.
Qed.

Theorem matrix_good name m M : generate_mds_matrix rc name m false = Ret M ->
  [/\ mds_mx M, forall z, ~ has_eigenvalue M z &
    forall k (U : 'M[F]_(k, m)), invariant M U -> \rank U <> 1%N /\ ((0 < m)%N -> \rank U <> m.-1)].
Proof.
case/matrix_cases => a _ [D _ N ->].
split=> //; first exact: cauchy_of_mds (D a (leqnn a)).
move=> k U inv; split=> [r1|m0 r1]; first by case: (line_eigen inv r1) => z /N.
by case: (hyperplane_eigen m0 inv r1) => z /N.
Qed.
End Matrices.
