(** Instances of C57: matrices that are rejected, and what fails for them. *)
From Coq Require Import ZArith.
From mathcomp Require Import all_ssreflect all_algebra.
From Verif Require Import Base Fq Matrix MatrixSpec Params Spec Cauchy V2Spec TrailsSpec Grain TrailsProofs TrailsAlg1 TrailsCheck TrailsShipped.
Set Implicit Arguments.
Unset Strict Implicit.
Unset Printing Implicit Defensive.
Import GRing.Theory.
Local Open Scope ring_scope.

(** The identity leaves every word-0-free difference inactive. *)
Example identity_rejected (F : fieldType) n (elements : seq F) : accepted (n := n.+1) elements 1%:M = false.
Proof.
apply/negP => /(accepted_sound (unitmx1 _ _)) [H _].
have /matrixP/(_ (lift 0 0) 0)/eqP : delta_mx (lift 0 0) 0 = 0 :> 'cV[F]_n.+2.
  by apply: H => k _; rewrite expr1n mul1mx mxE.
by rewrite !mxE !eqxx oner_eq0.
Qed.

(** Algorithm 1 finds that it is a multiple of itself; for diag(0, 1), of dimension 2, an
    eigenvector that does not touch word 0. *)
Example identity_finding (F : fieldType) n (elements : seq F) : algorithm_1 (n := n.+1) elements 1%:M = (false, 1%N).
Proof.
apply/algorithm_1_fails; exists 1%N; split=> //; last by move=> [|[|i]] //.
by apply: Or31; split=> //; exists 1; rewrite expr1.
Qed.
Example diagonal_finding (F : fieldType) : let M : 'M[F]_2 := \matrix_(i, j) ((i == j) && (i != 0))%:R in
  algorithm_1 (n := 1) [:: 1] M = (false, 2%N).
Proof.
move=> M; apply/algorithm_1_fails; exists 1%N; split=> //; last by move=> [|[|i]] //.
apply: Or32; split=> //; split.
  case=> c; rewrite expr1 => /matrixP E; have := E 0 0; have := E (lift 0 0) (lift 0 0).
  by rewrite !mxE /= => <- /eqP; rewrite eq_sym oner_eq0.
exists (delta_mx (lift 0 0) 0), 1; split.
- by apply/eqP => /matrixP/(_ (lift 0 0) 0)/eqP; rewrite !mxE !eqxx oner_eq0.
- by case=> // _; rewrite expr0 mul1mx mxE.
- by rewrite inE.
apply/matrixP => i j; rewrite expr1 !mxE !big_ord_recl big_ord0 !mxE !ord1 /=.
by case: i => [[|[|i]] hi] //=; rewrite !(mulr0, mulr1, mul0r, mul1r, add0r, addr0).
Qed.

(** circ(2,1,1) is invertible and MDS over Fq; the vectors (a, b, b) are a stable
    subspace that contains all of word 0, so that algorithm 2 rejects it. *)
Definition circ211 (F : fieldType) : 'M[F]_3 := \matrix_(i, j) (if i == j then 2 else 1)%N%:R.
Example circ211_active (F : fieldType) : ~ no_active_subspace (circ211 F) 1.
Proof.
pose P (x : 'cV[F]_3) := x (lift 0 0) 0 = x (lift 0 (lift 0 0)) 0.
move=> /(_ P) H; have : P (delta_mx (lift 0 0) 0); last first.
  by rewrite /P !mxE /= => /eqP; rewrite oner_eq0.
apply: H; rewrite /P.
- by split=> [|a x y]; rewrite !mxE // => -> ->.
- by move=> x; rewrite expr1 !mxE !big_ord_recl !big_ord0 !mxE /= => ->; rewrite [X in _ + X]addrCA.
- by rewrite !mxE.
Qed.
Example circ211_rejected (F : fieldType) : algorithm_2 (n := 2) (circ211 F) = Some false.
Proof.
by have [[] [E [H _]]] := algorithm_2P (n := 2) (circ211 F); [case: (circ211_active (H isT)) | exact: E].
Qed.

(** Width 3: for the matrix of rate 2, periods 1 to 12. *)
Example cauchy_3 : trail_free (cauchy_mx Fq_fieldType 3) 12.
Proof. exact: (@cauchy_trail_free 2). Qed.

(** A difference that is inactive in the first of three rounds is not in the second or third. *)
Example cauchy_3_inactive (a b : Fq) : let x := \col_i [:: 0; a; b]`_i in let M := cauchy_mx Fq_fieldType 3 in
  (M *m x) 0 0 = 0 -> (M ^+ 2 *m x) 0 0 = 0 -> a = 0 /\ b = 0.
Proof.
move=> x M h1 h2; have [/(_ x) H _ _] := cauchy_3 (isT : (0 < 1 <= 12)%N).
have : x = 0 by apply: H => -[|[|[|//]]] _; rewrite mul1n; [rewrite expr0 mul1mx mxE | rewrite expr1 | ].
by move/matrixP => E; have := E (lift 0 0) 0; have := E (lift 0 (lift 0 0)) 0; rewrite !mxE /= => -> ->.
Qed.
