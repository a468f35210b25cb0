(** The reference script computes the Poseidon permutation. *)
From mathcomp Require Import all_ssreflect all_algebra.
From Verif Require Import Base Matrix MatrixSpec MatrixProofs Spec Slia MdsProofs ArcProofs Sage.
Set Implicit Arguments.
Unset Strict Implicit.
Unset Printing Implicit Defensive.
Import GRing.Theory.
Local Open Scope ring_scope.

(** * The optimization, for any function as S-box *)
Section Opt.
Variables (F : fieldType) (t1 : nat) (S : F -> F).
Local Notation t := (1 + t1)%N.
Local Notation vec := 'cV[F]_t.
Local Notation mat := 'M[F]_t.
Local Notation e0 := (e0 F t1).

Definition sb0 (y : vec) : vec := \col_i (if i == 0 then S (y i 0) else y i 0).

Lemma partial_roundE (M : mat) (x c : vec) : partial_round S M x c = M *m sb0 (x + c).
Proof. by []. Qed.

Lemma sb0E y : sb0 y = y + (S (y 0 0) - y 0 0) *: e0.
Proof.
apply/matrixP => i j; rewrite (ord1 j) !mxE eqxx andbT; case: eqP => [->|_].
  by rewrite mulr1 addrC subrK.
by rewrite mulr0 addr0.
Qed.

Lemma d1_0 (N : 'M[F]_t1) (x : vec) : (diag1 N *m x) 0 0 = x 0 0.
Proof.
have -> : (0 : 'I_t) = lshift t1 0 by apply: val_inj.
rewrite mxE big_split_ord big_ord1 /= block_mxEul mxE eqxx mul1r big1 ?addr0 // => i _.
by rewrite block_mxEur mxE mul0r.
Qed.

Lemma d1_e0 (N : 'M[F]_t1) : diag1 N *m e0 = e0.
Proof.
apply/matrixP => i j; rewrite (ord1 j) -colE mxE [RHS]mxE eqxx andbT /diag1.
have E0 : (0 : 'I_t) = lshift t1 0 by apply: val_inj.
rewrite -[i]splitK; case: (split i) => k /=.
  by rewrite E0 block_mxEul mxE (ord1 k) eqxx.
by rewrite E0 block_mxEdl mxE.
Qed.

Lemma sb0_diag1 (N : 'M[F]_t1) y : sb0 (diag1 N *m y) = diag1 N *m sb0 y.
Proof. by rewrite !sb0E d1_0 mulmxDr -scalemxAr d1_e0. Qed.

Lemma sb0_add (y d : vec) : d 0 0 = 0 -> sb0 (y + d) = sb0 y + d.
Proof. by move=> d0; rewrite !sb0E mxE d0 addr0 addrAC. Qed.

Variables (M Mi : mat) (m00 : F) (w : nat -> 'rV[F]_t1) (v : nat -> 'cV[F]_t1) (c d : nat -> vec) (Rf Rp : nat).

(** The optimized permutation *)
Definition opt_round (y : vec) (r : nat) : vec :=
  let y := sb0 y in
  let y := if (r < Rp - 1)%N then y + d (Rf + r.+1)%N 0 0 *: e0 else y in
  sparse m00 (w (Rp - r - 1)) (v (Rp - r - 1)) *m y.
Definition opt_poseidon (x : vec) : vec :=
  let x := foldl (fun x r => full_round S M x (d r)) x (iota 0 Rf) in
  let y := foldl opt_round (Mi *m (x + d Rf)) (iota 0 Rp) in
  foldl (fun x r => full_round S M x (d r)) y (iota (Rf + Rp) Rf).

Lemma eq_in_foldl A B (f g : A -> B -> A) x s :
  (forall y r, List.In r s -> f y r = g y r) -> foldl f x s = foldl g x s.
Proof.
elim: s x => //= r s IH x H; rewrite H; last by left.
by apply: IH => y r' hr; apply: H; right.
Qed.
Lemma In_mem (T : eqType) (x : T) s : List.In x s -> x \in s.
Proof. by elim: s => //= y s IH [->|/IH]; rewrite inE ?eqxx // => ->; rewrite orbT. Qed.

Lemma opt_poseidonE : (0 < Rp)%N ->
  sparse_factorization M Mi m00 w v Rp -> equivalent_constants M c d Rf Rp ->
  forall x, opt_poseidon x = poseidon S M c Rf Rp x.
Proof.
move=> Rp0 [N [N0 EMi Hsp]] [H1 H2 [e [E0 E1 E2 E3]]] x; rewrite /opt_poseidon /poseidon.
rewrite (eq_in_foldl (g := fun x r => full_round S M x (c r)) x); last first.
  by move=> y r /In_mem; rewrite mem_iota => /= rR; rewrite H1.
set x1 := foldl _ x _.
have inv n : (n < Rp)%N -> foldl opt_round (Mi *m (x1 + d Rf)) (iota 0 n) =
    diag1 (N (Rp - n)%N) *m (foldl (fun x r => partial_round S M x (c r)) x1 (iota Rf n) + e n).
  elim: n => [_|n IH nR]; first by rewrite /= subn0 E0 -EMi.
  have E m : iota m n.+1 = iota m n ++ [:: (m + n)%N] by rewrite -{1}addn1 iotaD.
  rewrite !E !foldl_cat IH ?(ltnW nR) // add0n; set xr := foldl _ x1 _ => /=.
  rewrite partial_roundE /opt_round sb0_diag1.
  have -> : xr + e n = (xr + c (Rf + n)%N) + (e n - c (Rf + n)%N) by rewrite -addrA [c _ + _]addrC subrK.
  rewrite sb0_add; last first.
    have -> : (e n - c (Rf + n)%N) 0 0 = e n 0 0 - c (Rf + n)%N 0 0 by rewrite !mxE.
    by rewrite E1 ?(ltnW nR) // subrr.
  have -> : (n < Rp - 1)%N by rewrite ltn_subRL add1n.
  rewrite -[X in _ + _ *: X](d1_e0 (N (Rp - n)%N)) scalemxAr -mulmxDr mulmxA.
  have Rn : (Rp - n = (Rp - n - 1).+1)%N by slia.
  have := Hsp (Rp - n - 1)%N; rewrite -Rn => ->; last by slia.
  have -> : (Rp - n - 1 = Rp - n.+1)%N by slia.
  by rewrite -mulmxA E2 // -mulmxDr -[X in _ *m (_ *m X)]addrA.
have Ep : iota 0 Rp = iota 0 Rp.-1 ++ [:: Rp.-1] by rewrite -{1}(prednK Rp0) -addn1 iotaD.
have Ep' : iota Rf Rp = iota Rf Rp.-1 ++ [:: (Rf + Rp.-1)%N] by rewrite -{1}(prednK Rp0) -addn1 iotaD.
rewrite Ep Ep' !foldl_cat inv ?prednK //=; set xr := foldl _ x1 _.
have -> : (Rp - Rp.-1 = 1)%N by slia.
rewrite E3 /opt_round ifF; last by slia.
rewrite sb0_diag1 mulmxA.
have -> : (Rp - Rp.-1 - 1 = 0)%N by slia.
rewrite Hsp // N0 -mulmxA -partial_roundE.
have -> (z : vec) : diag1 (1%:M : 'M[F]_t1) *m z = z by rewrite /diag1 -scalar_mx_block mul1mx.
apply: eq_in_foldl => y r /In_mem; rewrite mem_iota => /andP [r1 r2].
by rewrite -(subnKC r1) H2 // ltn_subLR.
Qed.
End Opt.

(** * The script *)
Section Script.
Variables (F : fieldType) (t1 alpha R_F R_P : nat) (M : 'M[F]_(1 + t1)) (rc : seq F).
Local Notation t := (1 + t1)%N.
Local Notation S := (fun x : F => x ^+ alpha).
Local Notation R_f := (R_f R_F).
Definition colc (c : nat -> 'rV[F]_t) (r : nat) : 'cV[F]_t := (c r)^T.
Definition arc_col := colc (chunks t1 rc).

Lemma full_stepE c x k r : full_step alpha M c (x, k) r = ((full_round S M x^T (colc c k))^T, k.+1).
Proof.
rewrite /full_step /full_round; congr ((_ *m _)^T, _).
by apply/matrixP => i j; rewrite !mxE.
Qed.

Lemma full_steps c n a x k : foldl (full_step alpha M c) (x, k) (iota a n) =
  ((foldl (fun x r => full_round S M x (colc c r)) x^T (iota k n))^T, (k + n)%N).
Proof.
elim: n a x k => [|n IH] a x k; first by rewrite /= trmxK addn0.
rewrite -[foldl _ (x, k) _]/(foldl (full_step alpha M c) (full_step alpha M c (x, k) a) (iota a.+1 n)).
by rewrite full_stepE IH trmxK (addSnnS k).
Qed.

Lemma perm_originalE x : perm_original alpha R_F R_P M rc x =
  (poseidon S M arc_col R_f R_P x^T)^T.
Proof.
rewrite /perm_original full_steps /poseidon add0n.
set y := foldl _ x^T _; move: (y) => z.
have E n a (y' : 'cV[F]_t) k : foldl (fun (st : 'rV[F]_t * nat) r =>
    let: (state_words, counter) := st in
    let state_words := \row_i (state_words 0 i + chunks t1 rc counter 0 i) in
    let state_words := set_word_0 state_words (state_words 0 0 ^+ alpha) in
    let state_words := (M *m state_words^T)^T in
    (state_words, counter.+1)) (y'^T, k) (iota a n) =
   ((foldl (fun x r => partial_round S M x (arc_col r)) y' (iota k n))^T, (k + n)%N).
  elim: n a y' k => [|n IH] a y' k; first by rewrite addn0.
  rewrite [iota a _]/= [foldl _ _ (a :: _)]/=.
  have -> : (M *m (set_word_0 (\row_i (y'^T 0 i + chunks t1 rc k 0 i))
      ((\row_i (y'^T 0 i + chunks t1 rc k 0 i)) 0 0 ^+ alpha))^T)^T = (partial_round S M y' (arc_col k))^T.
    by congr ((_ *m _)^T); apply/matrixP => i j; rewrite !mxE; case: eqP => // ->; rewrite ?mxE.
  by rewrite IH (addSnnS k).
by rewrite E full_steps trmxK.
Qed.

(** The equivalent matrices *)
Local Notation A := (M^T).

Lemma matrices_stepE i Mi k vs ws :
  matrices_step M i (Mi, mmul_at M k, vs, ws) =
  if drsubmx M \in unitmx then
    Ret (diag1 (Hpow M k.+1), mmul_at M k.+1, rcons vs (v_at M k), rcons ws (w_at M k))
  else Panic.
Proof.
rewrite /matrices_step mmul_blocks block_mxKdr block_mxKur block_mxKdl /sage_inverse unit_HpowS.
have -> : (drsubmx M \in unitmx) = (drsubmx A \in unitmx) by rewrite -trmx_drsub unitmx_tr.
by case: ifP.
Qed.

Lemma matrices_loop xs : drsubmx M \in unitmx -> forall Mi k vs ws,
  for_in xs (matrices_step M) (Mi, mmul_at M k, vs, ws) =
  Ret (if xs is [::] then Mi else diag1 (Hpow M (k + size xs)), mmul_at M (k + size xs),
       vs ++ [seq v_at M i | i <- iota k (size xs)], ws ++ [seq w_at M i | i <- iota k (size xs)]).
Proof.
move=> u; elim: xs => [|x xs IH] Mi k vs ws; first by rewrite !addn0 !cats0.
rewrite /for_in -/for_in matrices_stepE u bind_ret IH !cat_rcons.
have e : (k + size (x :: xs) = k.+1 + size xs)%N by rewrite addnS.
rewrite e; congr (Ret (_, _, _, _)).
by case: xs {IH e} => [|y ys] //; rewrite addn0.
Qed.

Lemma calc_equivalent_matricesE : (0 < R_P)%N ->
  calc_equivalent_matrices R_P M =
  if drsubmx M \in unitmx then
    Ret (diag1 (Hpow M R_P), [seq v_at M i | i <- iota 0 R_P], [seq w_at M i | i <- iota 0 R_P])
  else Panic.
Proof.
move=> p0; rewrite /calc_equivalent_matrices.
have -> : A = mmul_at M 0 by rewrite /mmul_at /Hpow /= /diag1 -scalar_mx_block mulmx1.
have sz : size (rev (iota 0 R_P)) = R_P by rewrite size_rev size_iota.
case: ifP => u.
  rewrite matrices_loop // bind_ret sz add0n.
  by case E: (rev _) => [|x xs] //; move: p0; rewrite -sz E.
case E: (rev _) => [|x xs]; first by move: p0; rewrite -sz E.
by rewrite /for_in -/for_in matrices_stepE u.
Qed.

(** The equivalent constants *)
Lemma constants_stepE i c : constants_step M i c =
  if M \in unitmx then Ret (fun r => if r == i.+1 then row_mx (lsubmx (c i.+1 *m invmx A)) 0
    else if r == i then c i + row_mx 0 (rsubmx (c i.+1 *m invmx A)) else c r) else Panic.
Proof. by rewrite /constants_step /sage_inverse unitmx_tr; case: ifP. Qed.

Lemma head0_tr (x : 'rV[F]_t) : row_mx (lsubmx x) 0 = (head0 x^T)^T.
Proof.
apply/rowP => j; rewrite -[j]splitK; case: (split j) => k /=.
  rewrite row_mxEl !mxE; have -> : lshift t1 k = 0 by apply: val_inj; rewrite (ord1 k).
  by rewrite mulr1.
by rewrite row_mxEr !mxE mulr0.
Qed.
Lemma tail0_tr (x : 'rV[F]_t) : row_mx 0 (rsubmx x) = (tail0 x^T)^T.
Proof.
apply/rowP => j; rewrite -[j]splitK; case: (split j) => k /=.
  rewrite row_mxEl !mxE; have -> : lshift t1 k = 0 by apply: val_inj; rewrite (ord1 k).
  by rewrite mulr1 subrr.
by rewrite row_mxEr !mxE mulr0 subr0.
Qed.

Lemma constants_loop hi c0 a n k c : M \in unitmx -> (a + n + k)%N = hi ->
  (forall r, colc c r = rows_after M c0 hi k r) ->
  exists2 d, for_in (rev (iota a n)) (constants_step M) c = Ret d &
    forall r, colc d r = rows_after M c0 hi (n + k) r.
Proof.
move=> u; elim: n k c => [|n IH] k c E H; first by exists c.
have -> : rev (iota a n.+1) = (a + n)%N :: rev (iota a n) by rewrite -[X in iota _ X]addn1 iotaD rev_cat.
rewrite /for_in -/for_in constants_stepE u bind_ret.
have [||d Ed Hd] := IH k.+1 (fun r => if r == (a + n).+1 then row_mx (lsubmx (c (a + n).+1 *m invmx A)) 0
    else if r == (a + n)%N then c (a + n)%N + row_mx 0 (rsubmx (c (a + n).+1 *m invmx A)) else c r).
- by rewrite -E; slia.
- have Ek : (a + n + k).+1 = hi by rewrite -E; slia.
  move=> r; rewrite -(rows_after_step M c0 Ek).
  have X : (c (a + n).+1 *m invmx A)^T = invmx M *m rows_after M c0 hi k (a + n).+1.
    by rewrite trmx_mul trmx_inv trmxK -H.
  rewrite /colc /step_rows head0_tr tail0_tr X.
  case: (r =P (a + n).+1) => [->|_]; first by rewrite gtn_eqF // trmxK.
  by case: eqP => _; rewrite -!H // linearD /= trmxK.
by exists d; rewrite ?Ed // (addSnnS n).
Qed.

Lemma calc_equivalent_constantsE : ~~ odd R_F -> (0 < R_P)%N ->
  if M \in unitmx then
    exists2 d, calc_equivalent_constants R_F R_P M rc = Ret d &
      forall r, colc d r = opt_rows M arc_col (R_f + R_P).-1 R_f r
  else calc_equivalent_constants R_F R_P M rc = (if (R_P == 1)%N then Ret (chunks t1 rc) else Panic).
Proof.
move=> ev p0; rewrite /calc_equivalent_constants.
have RF : (R_F = R_f + R_f)%N by rewrite /Sage.R_f divn2 addnn -[LHS]odd_double_half (negbTE ev).
have -> : (R_T R_F R_P - 1 - R_f - R_f = R_P.-1)%N by rewrite /R_T {1}RF; slia.
case: ifP => u.
  have [||d Ed Hd] := @constants_loop (R_f + R_P).-1 arc_col R_f R_P.-1 0 (chunks t1 rc) u.
  - by slia.
  - by move=> r; rewrite rows_after0.
  exists d; rewrite ?Ed // => r; rewrite Hd addn0 /opt_rows.
  by have -> : ((R_f + R_P).-1 - R_f = R_P.-1)%N by slia.
case: R_P p0 => // -[|p] _ //.
have -> : rev (iota R_f p.+1) = (R_f + p)%N :: rev (iota R_f p) by rewrite -[X in iota _ X]addn1 iotaD rev_cat.
by rewrite /for_in -/for_in constants_stepE u.
Qed.

(** The permutation *)
Lemma cheap_matrix_mulE (x : 'rV[F]_t) v w m00 :
  cheap_matrix_mul x v w m00 = (sparse m00 w^T v^T *m x^T)^T.
Proof.
have E : x^T = col_mx (x 0 0)%:M (rsubmx x)^T.
  apply/matrixP => i j; rewrite (ord1 j) -[i]splitK; case: (split i) => k /=.
    by rewrite col_mxEu !mxE (ord1 k) eqxx; congr (x _ _); apply: val_inj.
  by rewrite col_mxEd !mxE.
rewrite {1}E /sparse mul_block_col tr_col_mx /cheap_matrix_mul; congr row_mx.
  apply/matrixP => i j; rewrite !ord1 !mxE big_split_ord !big_ord1 /= col_mxEu !mxE !eqxx.
  congr (_ * _ + _); first by congr (x _ _); apply: val_inj.
  by apply: eq_bigr => k _; rewrite col_mxEd !mxE.
apply/matrixP => i j; rewrite !ord1 !mxE !big_ord1 !mxE /= mulr1n mulrC; congr (_ + _).
rewrite (bigD1 j) //= !mxE eqxx mul1r big1 ?addr0 // => k nk.
by rewrite !mxE eq_sym (negbTE nk) mul0r.
Qed.

Lemma optimized_steps (d : nat -> 'rV[F]_t) x : foldl (fun (st : 'rV[F]_t * nat) r =>
    let: (state_words, counter) := st in
    let state_words := set_word_0 state_words (state_words 0 0 ^+ alpha) in
    let st := if (r < R_P - 1)%N then
        (set_word_0 state_words (state_words 0 0 + d counter.+1 0 0), counter.+1)
      else (state_words, counter) in
    let: (state_words, counter) := st in
    (cheap_matrix_mul state_words (nth 0 [seq v_at M i | i <- iota 0 R_P] (R_P - r - 1))
       (nth 0 [seq w_at M i | i <- iota 0 R_P] (R_P - r - 1)) (M 0 0),
     counter)) (x, R_f) (iota 0 R_P) =
  ((foldl (opt_round S (M 0 0) (fun j => (w_at M j)^T) (fun j => (v_at M j)^T) (colc d) R_f R_P) x^T (iota 0 R_P))^T,
   (R_f + R_P.-1)%N).
Proof.
set f := (X in foldl X _ _); set g := opt_round _ _ _ _ _ _ _.
have E n y k : (n + k <= R_P)%N ->
  foldl f (y, (R_f + minn k R_P.-1)%N) (iota k n) = ((foldl g y^T (iota k n))^T, (R_f + minn (k + n) R_P.-1)%N).
  elim: n y k => [|n IH] y k le; first by rewrite /= trmxK addn0.
  rewrite -[iota k n.+1]/(k :: iota k.+1 n) -[foldl f _ _]/(foldl f (f (y, (R_f + minn k R_P.-1)%N) k) (iota k.+1 n)).
  rewrite -[foldl g _ _]/(foldl g (g y^T k) (iota k.+1 n)).
  have -> : f (y, (R_f + minn k R_P.-1)%N) k = ((g y^T k)^T, (R_f + minn k.+1 R_P.-1)%N).
    rewrite /f /g /opt_round.
    have lt : (R_P - k - 1 < R_P)%N by slia.
    have Y : set_word_0 y (y 0 0 ^+ alpha) = (sb0 S y^T)^T.
      by apply/rowP => i; rewrite !mxE; case: eqP => // ->; rewrite ?mxE.
    rewrite !(nth_map 0%N) ?size_iota // nth_iota // add0n Y.
    case: ifP => lk; rewrite cheap_matrix_mulE; last first.
      rewrite trmxK; congr (_, (_ + _)%N).
      by rewrite (minn_idPr _); [rewrite (minn_idPr _)|]; slia.
    have -> : minn k R_P.-1 = k by apply/minn_idPl; slia.
    have -> : minn k.+1 R_P.-1 = k.+1 by apply/minn_idPl; slia.
    rewrite addnS; congr ((_ *m _)^T, _).
    apply/matrixP => i j; rewrite (ord1 j) !mxE eqxx andbT /colc -addnS.
    by case: eqP => [->|_]; rewrite ?mulr1 ?mulr0 ?addr0 ?mxE.
  by rewrite IH ?trmxK ?(addSnnS k) // -(addSnnS n).
have := E R_P x 0%N; rewrite min0n add0n !addn0 => -> //.
by congr (_, (_ + _)%N); apply/minn_idPr; slia.
Qed.

Lemma permE x : ~~ odd R_F -> (0 < R_P)%N ->
  perm alpha R_F R_P M rc x =
  if ((R_P == 1)%N || (M \in unitmx)) && (drsubmx M \in unitmx)
  then Ret (perm_original alpha R_F R_P M rc x) else Panic.
Proof.
move=> ev p0; rewrite /perm.
have [[-> [d -> Hd]]|[-> -> //]] : ((R_P == 1)%N || (M \in unitmx)) /\
    (exists2 d, calc_equivalent_constants R_F R_P M rc = Ret d & equivalent_constants M arc_col (colc d) R_f R_P)
  \/ ((R_P == 1)%N || (M \in unitmx)) = false /\ calc_equivalent_constants R_F R_P M rc = Panic.
  have := calc_equivalent_constantsE ev p0; case: ifP => u.
    rewrite orbT => -[d -> Hd]; left; split=> //; exists d => //.
    case: (opt_rows_equivalent arc_col R_f u p0) => H1 H2 [e [E0 E1 E2 E3]]; split.
    + by move=> r lt; rewrite Hd H1.
    + by move=> r lt; rewrite Hd H2.
    exists e; split=> //; first by rewrite Hd.
    by move=> r lt; rewrite Hd E2.
  rewrite orbF => ->; case: eqP => [E|_]; last by right.
  left; split=> //; exists (chunks t1 rc) => //; split=> //.
  exists (fun r => arc_col (R_f + r)%N); split=> //; first by rewrite addn0.
  by rewrite E.
rewrite bind_ret calc_equivalent_matricesE // andTb; case: ifP => u //.
rewrite bind_ret full_steps add0n; set y := foldl _ x^T _.
rewrite optimized_steps full_steps /=; congr Ret.
rewrite perm_originalE -(opt_poseidonE S p0 (equivalent_factorization R_P u) Hd) /opt_poseidon trmxK.
have -> : (R_f + R_P.-1).+1 = (R_f + R_P)%N by rewrite -addnS prednK.
congr (foldl _ (foldl _ _ _) _)^T.
rewrite trmx_mul; congr (_ *m _).
by apply/matrixP => i j; rewrite (ord1 j) !mxE.
Qed.
End Script.
