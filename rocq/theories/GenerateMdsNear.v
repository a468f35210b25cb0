(** Proofs about vendor/generate_mds.sage: the near-MDS matrices. *)
From Coq Require Import ZArith String.
From mathcomp Require Import all_ssreflect all_algebra.
From Verif Require Import Base Cauchy ActiveSpec GenerateMds GenerateMdsSpec GenerateMdsProofs.
Set Implicit Arguments.
Unset Strict Implicit.
Unset Printing Implicit Defensive.
Import GRing.Theory.
Local Open Scope ring_scope.
Local Open Scope rust_scope.

Section Near.
Variable F : fieldType.
(** All entries 1 but those right of the diagonal, cyclically, respectively on the diagonal *)
Definition near3 : 'M[F]_3 := \matrix_(i, j) (if (j == i.+1 %% 3 :> nat)%N then 0 else 1).
Definition near4 : 'M[F]_4 := \matrix_(i, j) (if i == j then 0 else 1).

Lemma wt_sum n (x : 'cV[F]_n) : wt x = (\sum_(i < n) (x i 0%R != 0%R))%N.
Proof. by rewrite /wt -sum1_card big_mkcond; apply: eq_bigr => i _; rewrite inE; case: (x i 0 != 0). Qed.

Lemma near3_branch : branch near3 3.
Proof.
move=> x; have: (x != 0) = [|| x ord0 0 != 0, x (lift ord0 ord0) 0 != 0 | x (lift ord0 (lift ord0 ord0)) 0 != 0].
  apply/idP/idP; last first.
    by case/or3P; apply: contraNneq => ->; rewrite mxE.
  apply: contraNT; rewrite !negb_or !negbK => /and3P [/eqP e0 /eqP e1 /eqP e2].
  apply/eqP/colP => i; rewrite mxE; case: i => [[|[|[|//]]] hi].
  - by rewrite -[RHS]e0; congr (x _ _); apply/val_inj.
  - by rewrite -[RHS]e1; congr (x _ _); apply/val_inj.
  - by rewrite -[RHS]e2; congr (x _ _); apply/val_inj.
move=> ->; rewrite !wt_sum !big_ord_recl !big_ord0 !mxE !big_ord_recl !big_ord0 !mxE /=.
set a := x _ _; set b := x _ _; set c := x _ _.
rewrite !mul1r !mul0r !addr0 !add0r.
case: (eqVneq a 0) => [->|a0]; case: (eqVneq b 0) => [->|b0]; case: (eqVneq c 0) => [->|c0];
  rewrite ?addr0 ?add0r ?eqxx ?a0 ?b0 ?c0 //= => _; by do ?case: (_ == _).
Qed.

Lemma near3_tight : exists2 x : 'cV[F]_3, x != 0 & (wt x + wt (near3 *m x) = 3)%N.
Proof.
exists (delta_mx 0 0); first by apply/eqP => /colP /(_ 0); rewrite !mxE /=; apply/eqP/oner_neq0.
rewrite !wt_sum !big_ord_recl !big_ord0 !mxE !big_ord_recl !big_ord0 !mxE /= !mulr0 !addr0 !mulr1.
by rewrite eqxx oner_neq0.
Qed.

Lemma near4_branch : branch near4 4.
Proof.
move=> x; set o1 := lift ord0 ord0 : 'I_4; set o2 := lift ord0 (lift ord0 ord0) : 'I_4.
set o3 := lift ord0 (lift ord0 (lift ord0 ord0)) : 'I_4.
have: (x != 0) = [|| x ord0 0 != 0, x o1 0 != 0, x o2 0 != 0 | x o3 0 != 0].
  apply/idP/idP; last first.
    by case/or4P; apply: contraNneq => ->; rewrite mxE.
  apply: contraNT; rewrite !negb_or !negbK => /and4P [/eqP e0 /eqP e1 /eqP e2 /eqP e3].
  apply/eqP/colP => i; rewrite mxE; case: i => [[|[|[|[|//]]]] hi].
  - by rewrite -[RHS]e0; congr (x _ _); apply/val_inj.
  - by rewrite -[RHS]e1; congr (x _ _); apply/val_inj.
  - by rewrite -[RHS]e2; congr (x _ _); apply/val_inj.
  - by rewrite -[RHS]e3; congr (x _ _); apply/val_inj.
move=> ->; rewrite !wt_sum !big_ord_recl !big_ord0 !mxE !big_ord_recl !big_ord0 !mxE /=.
rewrite -/o1 -/o2 -/o3; move: (x ord0 0) (x o1 0) (x o2 0) (x o3 0) => a b c d.
rewrite !mul1r !mul0r !addr0 !add0r.
have key (u v w : F) : u != 0 -> [|| u + v != 0, u + w != 0, v + w != 0 | u + (v + w) != 0].
  move=> u0; apply/negPn/negP; rewrite !negb_or !negbK => /and4P [_ _ /eqP -> ]; rewrite addr0.
  exact/negP.
case: (eqVneq a 0) => [->|a0]; case: (eqVneq b 0) => [->|b0]; case: (eqVneq c 0) => [->|c0]; case: (eqVneq d 0) => [->|d0];
  rewrite ?addr0 ?add0r ?eqxx ?a0 ?b0 ?c0 ?d0 //= => _; try by do ?case: (_ == _).
- by have := key b c d b0; do ?case: (_ == _).
- by have := key a c d a0; do ?case: (_ == _).
- by have := key a b d a0; do ?case: (_ == _).
- by have := key a b c a0; do ?case: (_ == _).
Qed.

Lemma near4_tight : exists2 x : 'cV[F]_4, x != 0 & (wt x + wt (near4 *m x) = 4)%N.
Proof.
exists (delta_mx 0 0); first by apply/eqP => /colP /(_ 0); rewrite !mxE /=; apply/eqP/oner_neq0.
rewrite !wt_sum !big_ord_recl !big_ord0 !mxE !big_ord_recl !big_ord0 !mxE /= !mulr0 !addr0 !mulr1.
by rewrite eqxx oner_neq0.
Qed.

Lemma ones_eigen n (M : 'M[F]_n.+1) z : (forall i, \sum_j M i j = z) -> has_eigenvalue M z.
Proof.
move=> H; exists (const_mx 1); first by apply/eqP => /colP /(_ 0); rewrite !mxE; apply/eqP/oner_neq0.
by apply/colP => i; rewrite !mxE mulr1 -[RHS](H i); apply: eq_bigr => j _; rewrite mxE mulr1.
Qed.

Lemma near3_eigen : has_eigenvalue near3 2%:R.
Proof.
apply: ones_eigen => i; rewrite !big_ord_recl big_ord0 !mxE.
by case: i => [[|[|[|//]]] hi] /=; rewrite ?add0r ?addr0.
Qed.
Lemma near4_eigen : has_eigenvalue near4 3%:R.
Proof.
apply: ones_eigen => i; rewrite !big_ord_recl big_ord0 !mxE.
by case: i => [[|[|[|[|//]]]] hi] /=; rewrite ?add0r ?addr0.
Qed.

Lemma zero_not_mds n (M : 'M[F]_n) i j : M i j = 0 -> ~ mds_mx M.
Proof.
move=> z /(_ 1%N (fun _ => i) (fun _ => j)) H; have := H _ _; rewrite unitmxE det_mx11 mxE z unitr0.
by move=> /(_ _ _) h; suff: false by []; apply: h => a b; rewrite !ord1.
Qed.

Lemma eigen0 n (M : 'M[F]_n) : has_eigenvalue M 0 -> M \notin unitmx.
Proof.
case=> v v0 E; apply: contraNN v0 => u; apply/eqP.
by rewrite -[v](mulKmx u) E scale0r mulmx0.
Qed.

Lemma near3_unit : near3 \in unitmx = (2%:R != 0 :> F).
Proof.
case: (eqVneq (2%:R : F) 0) => [z|n2].
  by apply/negbTE/eigen0; rewrite -z; exact: near3_eigen.
pose B : 'M[F]_3 := \matrix_(i, j) (if (j == (i + 2) %% 3 :> nat)%N then - 2%:R^-1 else 2%:R^-1).
suff /mulmx1_unit [] : near3 *m B = 1%:M by [].
have h : 2%:R^-1 + 2%:R^-1 = 1 :> F by rewrite -[RHS](mulfV n2) {3}(natrD _ 1 1) mulrDl mul1r.
apply/matrixP => i j; rewrite !mxE !big_ord_recl big_ord0 !mxE.
by case: i => [[|[|[|//]]] hi]; case: j => [[|[|[|//]]] hj] /=; rewrite ?mul0r ?mul1r ?add0r ?addr0 ?(subrr, addNr) ?h.
Qed.

Lemma near4_unit : near4 \in unitmx = (3%:R != 0 :> F).
Proof.
case: (eqVneq (3%:R : F) 0) => [z|n3].
  by apply/negbTE/eigen0; rewrite -z; exact: near4_eigen.
have E : near4 = const_mx 1 - 1%:M.
  by apply/matrixP => i j; rewrite !mxE; case: eqP; rewrite ?subrr ?subr0.
have J : (const_mx 1 : 'M[F]_4) *m (const_mx 1 : 'M[F]_4) = 4%:R *: const_mx 1.
  apply/matrixP => i j; rewrite !mxE mulr1 (eq_bigr (fun _ => 1)) => [|k _]; last by rewrite !mxE mulr1.
  by rewrite sumr_const card_ord.
suff /mulmx1_unit [] : near4 *m (3%:R^-1 *: const_mx 1 - 1%:M) = 1%:M by [].
rewrite E mulmxBl mul1mx mulmxBr mulmx1 -scalemxAr J scalerA.
have -> : 3%:R^-1 * 4%:R = 1 + 3%:R^-1 :> F by rewrite (natrD _ 3 1) mulrDr mulVf // mulr1.
by rewrite scalerDl scale1r [const_mx 1 + _]addrC addrK opprB addrC subrK.
Qed.
End Near.

Section Generated.
Variables (F : finFieldType) (rc : string -> nat -> F) (name : string).
Notation X := (rc (append name "x")).
Notation Y := (rc (append name "y")).

Lemma near_of_3 : matrix_of 3 [:: [:: 1; 0; 1]; [:: 1; 1; 0]; [:: 0; 1; 1]] = near3 F.
Proof. by apply/matrixP => i j; rewrite !mxE; case: i => [[|[|[|//]]] hi]; case: j => [[|[|[|//]]] hj]. Qed.
Lemma near_of_4 : matrix_of 4 [seq [seq if x != y then 1 else 0 | x <- iota 0 4] | y <- iota 0 4] = near4 F.
Proof. by apply/matrixP => i j; rewrite !mxE; case: i => [[|[|[|[|//]]]] hi]; case: j => [[|[|[|[|//]]]] hj]. Qed.

Lemma optimizedE m : generate_mds_matrix rc name m true =
  if size (undup ([seq X i | i <- iota 0 m] ++ [seq Y i | i <- iota 0 m])) == (2 * m)%N
  then near <- near_mds F m ;; Ret (matrix_of m near) else Panic.
Proof.
rewrite /generate_mds_matrix /attempts /attempt_mds !mul0n; case: ifP => // _ /=.
by case: near_mds.
Qed.

Theorem optimized_3 M : generate_mds_matrix rc name 3 true = Ret M <-> distinct 3 X Y /\ M = near3 F.
Proof. by rewrite optimizedE; case: distinctP => d /=; rewrite ?near_of_3; split=> [|[]] // => [[<-]|_ ->]. Qed.
Theorem optimized_4 M : generate_mds_matrix rc name 4 true = Ret M <-> distinct 4 X Y /\ M = near4 F.
Proof. by rewrite optimizedE; case: distinctP => d; rewrite /near_mds -?[bind _ _]/(Ret _) ?near_of_4; split=> [|[]] // => [[<-]|_ ->]. Qed.
Theorem optimized_other m : m <> 3%N -> m <> 4%N -> generate_mds_matrix rc name m true = Panic.
Proof.
by move=> /eqP /negbTE m3 /eqP /negbTE m4; rewrite optimizedE /near_mds m3 m4 /=; case: ifP.
Qed.

Theorem near_good m M : generate_mds_matrix rc name m true = Ret M ->
  [/\ (m == 3%N) || (m == 4%N), branch M m, exists2 x, x != 0 & (wt x + wt (M *m x) = m)%N &
      M \in unitmx = (m.-1%:R != 0 :> F)].
Proof.
case: (m =P 3%N) M => [->|m3] M.
  by move=> /optimized_3 [_ ->]; split; [|exact: near3_branch|exact: near3_tight|exact: near3_unit].
case: (m =P 4%N) M => [->|m4] M; last by rewrite optimized_other.
by move=> /optimized_4 [_ ->]; split; [|exact: near4_branch|exact: near4_tight|exact: near4_unit].
Qed.

Theorem near_bad m M : generate_mds_matrix rc name m true = Ret M ->
  ~ mds_mx M /\ has_eigenvalue M m.-1%:R.
Proof.
case: (m =P 3%N) M => [->|m3] M.
  move=> /optimized_3 [_ ->]; split; last exact: near3_eigen.
  by apply: (@zero_not_mds _ _ _ ord0 (lift ord0 ord0)); rewrite mxE.
case: (m =P 4%N) M => [->|m4] M; last by rewrite optimized_other.
move=> /optimized_4 [_ ->]; split; last exact: near4_eigen.
by apply: (@zero_not_mds _ _ _ ord0 ord0); rewrite mxE eqxx.
Qed.
End Generated.
