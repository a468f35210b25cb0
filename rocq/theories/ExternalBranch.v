(** The branch number of the external matrix of Poseidon2 (v2/external.rs). *)
From Coq Require Import ZArith NArith Lia.
From mathcomp Require Import all_ssreflect all_algebra.
From Verif Require Import Base Slia Matrix MatrixSpec Cauchy MatrixProofs ActiveSpec ActiveProofs BranchSpec V2 V2Spec V2Proofs Fq.
Set Implicit Arguments.
Unset Strict Implicit.
Unset Printing Implicit Defensive.
Import GRing.Theory.
Local Open Scope ring_scope.

(** * Weights *)
Section Weights.
Variables (F : fieldType) (n : nat).
Implicit Types x y : 'cV[F]_n.

Lemma wt_eq0 x : (wt x == 0%N) = (x == 0).
Proof.
apply/idP/eqP => [/eqP/card0_eq E|->]; last first.
  by apply/eqP/eq_card0 => i; rewrite !inE mxE eqxx.
by apply/colP => i; have := E i; rewrite !inE mxE => /negbFE/eqP.
Qed.
Lemma wt_gt0 x : (0 < wt x)%N = (x != 0).
Proof. by rewrite lt0n wt_eq0. Qed.
Lemma wt_le x : (wt x <= n)%N.
Proof. by rewrite /wt -[X in (_ <= X)%N]card_ord max_card. Qed.
Lemma wt_add x y : (wt (x + y) <= wt x + wt y)%N.
Proof.
rewrite /wt -cardUI; apply: leq_trans (leq_addr _ _); apply: subset_leq_card.
apply/subsetP => i; rewrite !inE !mxE; apply: contraR; rewrite negb_or !negbK.
by case/andP=> /eqP -> /eqP ->; rewrite addr0.
Qed.
Lemma wt_scale (k : F) x : (wt (k *: x) <= wt x)%N.
Proof.
apply: subset_leq_card; apply/subsetP => i; rewrite !inE !mxE; apply: contraNN => /eqP ->.
by rewrite mulr0.
Qed.
Lemma wt_scaleE (k : F) x : k != 0 -> wt (k *: x) = wt x.
Proof. by move=> k0; apply: eq_card => i; rewrite !inE !mxE mulf_eq0 negb_or k0. Qed.
Lemma wt_sum (I : finType) (f : I -> 'cV[F]_n) (k : I -> F) :
  (wt (\sum_i k i *: f i) <= \sum_i wt (f i))%N.
Proof.
elim/big_ind2: _ => [|x x' y y' Hx Hy|i _]; last exact: wt_scale.
  by rewrite leqn0 wt_eq0.
exact: leq_trans (wt_add _ _) (leq_add Hx Hy).
Qed.
End Weights.

(** * Blocks *)
Lemma mul_weight k u : (0 < k)%N -> (0 < u)%N -> (k + u.-1 <= k * u)%N.
Proof. by case: u => // u; case: k => // k _ _ /=; rewrite mulnS leq_add2l mulSn leq_addr. Qed.
Lemma small_weight d w v : (0 < d)%N -> (d * maxn 1 (5 - w) <= v)%N -> (w < 4)%N -> (d + 4 <= w + v)%N.
Proof.
move=> d0 H w4; apply: leq_trans (leq_add (leqnn w) H).
by case: w w4 {H} => [|[|[|[|w]]]] // _; rewrite /maxn /=; slia.
Qed.
Section Blocks.
Variables (F : fieldType) (M : 'M[F]_4).
Hypothesis brM : branch M 5.
Variables (d : nat) (a : 'I_d -> 'cV[F]_4).
Hypothesis small : forall m, (0 < m <= d.+1)%N -> m%:R != 0 :> F.
Let s := \sum_i a i.
Let b i := a i + s.
Let W := (\sum_i wt (a i))%N.
Let V := (\sum_i wt (M *m b i))%N.

Lemma wt_image x : x != 0 -> (0 < wt (M *m x))%N.
Proof. by move=> x0; have := brM x0; have := wt_le x; slia. Qed.

Lemma sum_zero : s = 0 -> (exists i, a i != 0) -> (10 <= W + V)%N.
Proof.
move=> s0 [i ai].
have [j /andP [ji aj]] : exists j, (j != i) && (a j != 0).
  apply/existsP; apply: contraTT ai; rewrite negb_exists negbK => /forallP H.
  rewrite -s0 /s (bigD1 i) //= big1 ?addr0 // => j ji.
  by have := H j; rewrite ji /= negbK => /eqP.
rewrite /W /V -big_split (bigD1 i) //= (bigD1 j) //= addnA.
apply: leq_trans (leq_addr _ _).
by rewrite /b s0 !addr0; have := brM ai; have := brM aj; slia.
Qed.

Lemma bsum : \sum_i b i = (d.+1)%:R *: s.
Proof.
rewrite /b big_split /= sumr_const card_ord -/s [in RHS]scaler_nat mulrS //.
Qed.

(** The words of the states are linear combinations of each other. *)
Lemma wt_b i : (wt (b i) <= W)%N.
Proof.
rewrite [b i](_ : _ = \sum_j (1 + (j == i)%:R) *: a j); first exact: wt_sum.
under eq_bigr do rewrite scalerDl scale1r.
rewrite big_split /= -/s addrC /b; congr (_ + _).
by rewrite (bigD1 i) //= eqxx scale1r big1 ?addr0 // => j /negbTE ->; rewrite scale0r.
Qed.
Lemma wt_Ma i : (wt (M *m a i) <= V)%N.
Proof.
have d1 : (d.+1)%:R != 0 :> F by apply: small; rewrite leqnn.
rewrite (_ : M *m a i = \sum_j ((j == i)%:R - (d.+1)%:R^-1) *: (M *m b j)); first exact: wt_sum.
under eq_bigr do rewrite scalerBl.
rewrite sumrB (bigD1 i) //= eqxx scale1r big1 ?addr0; last by move=> j /negbTE ->; rewrite scale0r.
rewrite -scaler_sumr -mulmx_sumr bsum -scalemxAr scalerA mulVf // scale1r -mulmxBr.
by rewrite /b addrK.
Qed.

Lemma sum_nonzero : s != 0 -> (0 < d)%N -> (d + 4 <= W + V)%N.
Proof.
move=> s0 d0.
pose K := [pred i | b i == 0]; pose Z := [pred i | a i == 0]; pose R := [pred i | (b i != 0) && (a i != 0)].
pose u := wt s; pose v := wt (M *m s).
have uv : (5 <= u + v)%N by exact: brM.
have u0 : (0 < u)%N by rewrite wt_gt0.
have v0 : (0 < v)%N by exact: wt_image.
have KZ i : b i = 0 -> a i != 0.
  by move=> bi; apply: contraNN s0 => /eqP ai; rewrite -bi /b ai add0r.
have aK i : b i = 0 -> a i = - s by move=> bi; apply/eqP; rewrite -addr_eq0 -/(b i) bi.
have bZ i : a i = 0 -> b i = s by rewrite /b => ->; rewrite add0r.
have dE : (#|K| + #|Z| + #|R| = d)%N.
  have <- : (#|[predU K & Z]| = #|K| + #|Z|)%N.
    rewrite -cardUI -[LHS]addn0; congr addn; symmetry; apply: eq_card0 => i; rewrite !inE.
    by apply/negbTE/negP => /andP [/eqP /KZ H /eqP E]; rewrite E eqxx in H.
  rewrite -[RHS]card_ord -(cardC [predU K & Z]); congr addn; apply: eq_card => i.
  by rewrite !inE negb_or.
have splitsum (g : 'I_d -> nat) : (\sum_i g i = \sum_(i in K) g i + (\sum_(i in Z) g i + \sum_(i in R) g i))%N.
  rewrite (bigID (mem K)) /=; congr addn.
  rewrite (bigID (mem Z)) /=; congr addn; apply: eq_bigl => i; rewrite !inE //.
  by case E: (a i == 0); rewrite ?andbT ?andbF //; apply/negP => /eqP /KZ; rewrite E.
have WK : (W = #|K| * u + \sum_(i in R) wt (a i))%N.
  rewrite /W splitsum; congr addn.
    rewrite -sum_nat_const; apply: eq_bigr => i /eqP /aK ->.
    by rewrite -scaleN1r wt_scaleE // oppr_eq0 oner_eq0.
  by rewrite big1 // => i /eqP ->; apply/eqP; rewrite wt_eq0.
have VZ : (V = #|Z| * v + \sum_(i in R) wt (M *m b i))%N.
  rewrite /V splitsum big1 ?add0n; last by move=> i /eqP ->; rewrite mulmx0; apply/eqP; rewrite wt_eq0.
  by congr addn; rewrite -sum_nat_const; apply: eq_bigr => i /eqP /bZ ->.
have WR : (#|R| <= \sum_(i in R) wt (a i))%N.
  by rewrite -sum1_card; apply: leq_sum => i /andP [_ ai]; rewrite wt_gt0.
have VR : (#|R| <= \sum_(i in R) wt (M *m b i))%N.
  by rewrite -sum1_card; apply: leq_sum => i /andP [bi _]; apply: wt_image.
have sR : \sum_(i in R) a i = (#|K|.+1)%:R *: s.
  have : s = - (#|K|%:R *: s) + \sum_(i in R) a i.
    rewrite {1}/s (bigID (mem K)) /=; congr (_ + _).
      rewrite (eq_bigr (fun _ => - s)); last by move=> i /eqP /aK.
      by rewrite sumr_const mulNrn scaler_nat.
    rewrite (bigID (mem Z)) /= big1 ?add0r; last by move=> i /andP [_ /eqP].
    by apply: eq_bigl => i; rewrite !inE.
  by move=> E; rewrite mulrSr scalerDl scale1r {2}E addrA addrN add0r.
have [r0|r1|r2] : [\/ #|R| = 0%N, #|R| = 1%N | (2 <= #|R|)%N].
- by case: #|R| => [|[|n]]; [constructor 1 | constructor 2 | constructor 3].
- (* the blocks cannot cancel *)
  have E : (#|K|.+1)%:R *: s = 0.
    by rewrite -sR big_pred0 // => i; apply: (card0_eq r0).
  have k0 : (#|K|.+1)%:R != 0 :> F.
    by apply: small; rewrite /= ltnS -[X in (_ <= X)%N]card_ord max_card.
  by move/eqP: E; rewrite scaler_eq0 (negbTE k0) (negbTE s0).
- (* one block: a multiple of s *)
  have [i Ri] := mem_card1 r1.
  have dE1 : (#|K| + #|Z| + 1 = d)%N by rewrite -r1.
  have ai : a i = (#|K|.+1)%:R *: s by rewrite -sR (big_pred1 i).
  have bi : b i = (#|K|.+2)%:R *: s by rewrite /b ai [in RHS]mulrSr scalerDl scale1r.
  have wR : (\sum_(i in R) wt (a i) = u)%N.
    rewrite (big_pred1 i) // ai wt_scaleE //; apply: small; move: dE1; clear; move: #|K| #|Z| => k z; slia.
  have vR : (\sum_(i in R) wt (M *m b i) = v)%N.
    rewrite (big_pred1 i) // bi -scalemxAr wt_scaleE //; apply: small; move: dE1; clear; move: #|K| #|Z| => k z; slia.
  rewrite WK VZ wR vR.
  have hK : (#|K| <= #|K| * u)%N by rewrite -[X in (X <= _)%N]muln1 leq_mul2l u0 orbT.
  have hZ : (#|Z| <= #|Z| * v)%N by rewrite -[X in (X <= _)%N]muln1 leq_mul2l v0 orbT.
  move: dE1 hK hZ uv; clearbody u v; clear; move: #|K| #|Z| => k z; move: (k * u)%N (z * v)%N => x y; slia.
have [k0|z0|[kp zp]] : [\/ #|K| = 0%N, #|Z| = 0%N | (0 < #|K|)%N /\ (0 < #|Z|)%N].
- by case: #|K| => [|k]; [constructor 1|case: #|Z| => [|z]; [constructor 2|constructor 3]].
- have nb i : b i != 0 by have := card0_eq k0 i; rewrite !inE => ->.
  have Vd : (d * maxn 1 (5 - W) <= V)%N.
    rewrite -[X in (X * _ <= _)%N](card_ord d) -sum_nat_const; apply: leq_sum => i _.
    rewrite geq_max (wt_image (nb i)) /=.
    by have := brM (nb i); have := wt_b i; clear; slia.
  case: (leqP 4 W) => W4.
    have : (d <= V)%N by apply: leq_trans Vd; rewrite -{1}[d]muln1 leq_mul2l leq_maxl orbT.
    by move: W4; clear; slia.
  exact: small_weight d0 Vd W4.
- have na i : a i != 0 by have := card0_eq z0 i; rewrite !inE => ->.
  have Wd : (d * maxn 1 (5 - V) <= W)%N.
    rewrite -[X in (X * _ <= _)%N](card_ord d) -sum_nat_const; apply: leq_sum => i _.
    rewrite geq_max wt_gt0 na /=.
    by have := brM (na i); have := wt_Ma i; clear; slia.
  case: (leqP 4 V) => V4.
    have : (d <= W)%N by apply: leq_trans Wd; rewrite -{1}[d]muln1 leq_mul2l leq_maxl orbT.
    by move: V4; clear; slia.
  rewrite [(W + V)%N]addnC; exact: small_weight d0 Wd V4.
have hK : (#|K| + u.-1 <= #|K| * u)%N.
  exact: mul_weight.
have hZ : (#|Z| + v.-1 <= #|Z| * v)%N.
  exact: mul_weight.
move: hK hZ WR VR r2 dE uv u0 v0 kp zp; rewrite WK VZ.
clearbody u v; clear.
move: (#|K| * u)%N (#|Z| * v)%N (\sum_(i in R) wt (a i))%N (\sum_(i in R) wt (M *m b i))%N => x y z w.
move: #|K| #|Z| #|R| => k l r; slia.
Qed.
End Blocks.

(** * The state as blocks *)
Section State.
Variable F : fieldType.
Local Notation col g a := (\col_(r < 4) g (nat_of_ord a) (nat_of_ord r) : 'cV[F]_4).

Lemma wtE n (x : 'cV[F]_n) : wt x = (\sum_i (x i 0%R != 0%R))%N.
Proof.
by rewrite /wt -sum1_card big_mkcond /=; apply: eq_bigr => i _; rewrite inE; case: (_ != _).
Qed.

Lemma block_sum_nat d (g : nat -> nat -> nat) :
  (\sum_(k < d * 4) g (k %/ 4) (k %% 4) = \sum_(a < d) \sum_(r < 4) g a r)%N.
Proof.
rewrite -(big_mkord xpredT (fun k => g (k %/ 4)%N (k %% 4)%N)) big_nat_mul big_mkord.
apply: eq_bigr => a _; rewrite mulSn -{1}[(a * 4)%N]add0n big_addn addnK big_mkord.
by apply: eq_bigr => r _; rewrite addnC divnMDl // divn_small // addn0 modnMDl modn_small.
Qed.

Lemma wt_blocks d (x : 'cV[F]_(d * 4)) (g : nat -> nat -> F) :
  (forall k, x k 0 = g (k %/ 4)%N (k %% 4)%N) -> wt x = (\sum_(a < d) wt (col g a))%N.
Proof.
move=> E; rewrite wtE (eq_bigr (fun k : 'I_(d * 4) => (fun a r => nat_of_bool (g a r != 0)) (k %/ 4)%N (k %% 4)%N)).
  rewrite (block_sum_nat d (fun a r => nat_of_bool (g a r != 0))); apply: eq_bigr => a _.
  by rewrite wtE; apply: eq_bigr => r _; rewrite mxE.
by move=> k _; rewrite E.
Qed.

Lemma wt_external d (x : 'cV[F]_(d * 4)) (g : nat -> nat -> F) :
  (forall k, x k 0 = g (k %/ 4)%N (k %% 4)%N) ->
  wt (external_mx F d *m x) = (\sum_(a < d) wt (M4 F *m (col g a + \sum_(c < d) col g c)))%N.
Proof.
move=> E.
rewrite (wt_blocks (g := fun a i => \sum_(r < 4) (m4 i r)%:R * (g a r + \sum_(c < d) g c r))).
  apply: eq_bigr => a _; congr wt; apply/colP => i; rewrite !mxE; apply: eq_bigr => r _.
  by rewrite !mxE summxE; congr (_ * (_ + _)); apply: eq_bigr => c _; rewrite mxE.
move=> k; rewrite (external_mulE (b := fun a r _ => g a r)) //.
by move=> k' j; rewrite ord1 E.
Qed.

Lemma state_blocks d (x : 'cV[F]_(d * 4)) :
  exists g : nat -> nat -> F, forall k, x k 0 = g (k %/ 4)%N (k %% 4)%N.
Proof.
exists (fun a r => if insub (a * 4 + r)%N is Some k then x k 0 else 0) => k.
by rewrite -divn_eq valK.
Qed.

(** ** The bound *)
Lemma external_branch d : (0 < d)%N -> branch (M4 F) 5 ->
  (forall m, (0 < m <= d.+1)%N -> m%:R != 0 :> F) -> branch (external_mx F d) (minn (d + 4) 10).
Proof.
move=> d0 br small x x0; have [g E] := state_blocks x.
rewrite (wt_blocks E) (wt_external E).
have nz : exists a : 'I_d, col g a != 0.
  apply/existsP; apply: contraNT x0; rewrite negb_exists => /forallP H.
  rewrite -wt_eq0 (wt_blocks E) big1 // => a _; apply/eqP; rewrite wt_eq0.
  by have := H a; rewrite negbK.
case: (eqVneq (\sum_(c < d) col g c) 0) => s0.
  by apply: leq_trans (geq_minr _ _) _; apply: (sum_zero br).
by apply: leq_trans (geq_minl _ _) _; apply: (sum_nonzero br).
Qed.

(** ** The bound is attained *)
Local Notation e0 k := (\col_(r < 4) (if (r : nat) == 0%N then k else 0) : 'cV[F]_4).

Lemma wt_e0 (k : F) : wt (e0 k) = (k != 0).
Proof. by rewrite wtE !big_ord_recl big_ord0 !mxE /= eqxx; case: (k == 0). Qed.
Lemma wt_M4e0 (k : F) : (forall m, (0 < m <= 5)%N -> m%:R != 0 :> F) -> wt (M4 F *m e0 k) = (4 * (k != 0)%R)%N.
Proof.
move=> small; have E i : (M4 F *m e0 k) i 0 = (m4 i 0)%:R * k.
  by rewrite mxE !big_ord_recl big_ord0 !mxE /= !mulr0 !addr0.
by rewrite wtE !big_ord_recl big_ord0 !E /= !mulf_eq0 !negb_or !small //=.
Qed.
Lemma sum_e0 d (c : nat -> F) : \sum_(a < d) e0 (c a) = e0 (\sum_(a < d) c a).
Proof.
apply/colP => i; rewrite summxE mxE (eq_bigr (fun a : 'I_d => if (i : nat) == 0%N then c a else 0)).
  by case: eqP => // _; rewrite big1.
by move=> a _; rewrite mxE.
Qed.

Lemma first_words d (c : nat -> F) : (forall m, (0 < m <= 5)%N -> m%:R != 0 :> F) ->
  exists x : 'cV[F]_(d * 4), wt x = (\sum_(a < d) (c a != 0)%R)%N /\
    wt (external_mx F d *m x) = (\sum_(a < d) 4 * (c a + \sum_(i < d) c i != 0)%R)%N.
Proof.
move=> small; pose g (a r : nat) : F := if r == 0%N then c a else 0.
exists (\col_k g (k %/ 4)%N (k %% 4)%N).
have E k : (\col_(k < d * 4) g (k %/ 4)%N (k %% 4)%N) k 0 = g (k %/ 4)%N (k %% 4)%N by rewrite mxE.
rewrite (wt_blocks E) (wt_external E); split; apply: eq_bigr => a _; first exact: wt_e0.
rewrite (sum_e0 d c) (_ : _ + _ = e0 (c a + \sum_(i < d) c i)) ?wt_M4e0 //.
by apply/colP => i; rewrite !mxE /g; case: eqP => // _; rewrite addr0.
Qed.

Lemma attained d : (0 < d)%N -> (forall m, (0 < m <= maxn 5 d.+1)%N -> m%:R != 0 :> F) ->
  exists x : 'cV[F]_(d * 4), x != 0 /\ (wt x + wt (external_mx F d *m x) = minn (d + 4) 10)%N.
Proof.
move=> d0 small.
have small5 m : (0 < m <= 5)%N -> m%:R != 0 :> F.
  by move=> /andP [m0 m5]; apply: small; rewrite m0 /= leq_max m5.
have smalld m : (0 < m <= d.+1)%N -> m%:R != 0 :> F.
  by move=> /andP [m0 m5]; apply: small; rewrite m0 /= leq_max m5 orbT.
suff [x H] : exists x : 'cV[F]_(d * 4), (wt x + wt (external_mx F d *m x) = minn (d + 4) 10)%N.
  exists x; split=> //; apply: contra_eq_neq H => ->; rewrite mulmx0 (_ : wt 0 = 0%N); last by apply/eqP; rewrite wt_eq0.
  by rewrite eq_sym -lt0n leq_min addn_gt0 d0.
case: d d0 smalld {small} => // d _ small.
have n1 : -1 != 0 :> F by rewrite oppr_eq0 oner_eq0.
case: (leqP d 5) => d5.
- have -> : minn (d.+1 + 4) 10 = (d.+1 + 4)%N by apply/minn_idPl; move: d5; clear; slia.
  pose c (a : nat) : F := if a == 0%N then (d.+1)%:R else -1.
  have S : \sum_(i < d.+1) c i = 1.
    rewrite big_ord_recl /= (eq_bigr (fun _ => -1)) // sumr_const card_ord mulNrn /c /= mulrS -addrA addrN addr0 //.
  have [x [Ex Ey]] := first_words d.+1 c small5.
  exists x; rewrite Ex Ey S; congr addn.
    rewrite (eq_bigr (fun _ => 1%N)) ?sum1_card ?card_ord // => i _.
    by rewrite /c; case: (nat_of_ord i == 0%N); [rewrite (small d.+1) //= leqnSn | rewrite n1].
  rewrite big_ord_recl /= /c -mulrSr small ?leqnn // big1 // => i _.
  by rewrite /= addNr eqxx.
- have -> : minn (d.+1 + 4) 10 = 10%N by apply/minn_idPr; move: d5; clear; slia.
  case: d d5 small => // d _ small.
  pose c (a : nat) : F := if a == 0%N then 1 else if a == 1%N then -1 else 0.
  have S : \sum_(i < d.+2) c i = 0.
    by rewrite !big_ord_recl /= big1 // addr0 addrN.
  have [x [Ex Ey]] := first_words d.+2 c small5.
  exists x; rewrite Ex Ey S !big_ord_recl /= /c /= !addr0 n1 oner_eq0 /=.
  by rewrite !big1 // => i _; rewrite /= ?addr0 eqxx.
Qed.

Lemma external_branch_number d : (0 < d)%N -> (forall m, (0 < m <= maxn 64 d.+1)%N -> m%:R != 0 :> F) ->
  branch_number (external_mx F d) (minn (d + 4) 10).
Proof.
move=> d0 small; split.
  apply: external_branch => // [|m /andP [m0 ml]]; last by apply: small; rewrite m0 leq_max ml orbT.
  by apply: mds_branch; apply: M4_mds => m /andP [m0 ml]; apply: small; rewrite m0 leq_max ml.
apply: attained => // m /andP [m0 ml]; apply: small; rewrite m0 /=; apply: leq_trans ml _.
by rewrite geq_max !leq_max leqnn orbT.
Qed.

Lemma M4_branch_number : (forall m, (0 < m <= 64)%N -> m%:R != 0 :> F) -> branch_number (M4 F) 5.
Proof.
move=> small; split; first by apply: mds_branch; apply: M4_mds.
exists (e0 1); rewrite -wt_gt0 wt_e0 wt_M4e0 ?oner_eq0 //.
by move=> m /andP [m0 ml]; apply: small; rewrite m0 (leq_trans ml).
Qed.

(** ** What the generator returns *)
Lemma generated_branch t m : (forall k, (0 < k <= maxn 64 (t %/ 4).+1)%N -> k%:R != 0 :> F) ->
  external_generate F t = Ret m -> branch_number (toM t t m) (minn (t %/ 4 + 4) 10).
Proof.
move=> small; rewrite external_generateE; case: andP => // -[t3 /eqP t0] [<-].
have [d [Et d0]] : exists d, t = (d * 4)%N /\ (0 < d)%N.
  by exists (t %/ 4)%N; rewrite {1}(divn_eq t 4) t0 addn0 divn_gt0.
subst t; move: small; rewrite mulnK // => small.
case: eqP => [d4|_]; last by rewrite toM_ofM; exact: external_branch_number.
have d1 : d = 1%N by apply/eqP; rewrite -(eqn_pmul2r (m := 4)) // d4.
subst d; rewrite (toM_ofM (M4 F)); apply: M4_branch_number => k /andP [m0 ml]; apply: small.
by rewrite m0 leq_max ml.
Qed.
End State.

(** * The field of the project *)
Lemma nonzero_Fq m : (0 < m)%N -> (Z.of_nat m < q)%Z -> m%:R != 0 :> Fq.
Proof.
move=> m0 mq; rewrite -Fq_of_Z_nat Fq_of_Z_eq0; apply/negP => /Z.eqb_eq.
rewrite Z.mod_small; first by move: m0; rewrite -[0%N]/(Z.to_nat 0) => /ltP; lia.
by split; [exact: Nat2Z.is_nonneg | exact: mq].
Qed.

Lemma Fq_branch t : (Z.of_nat t < q)%Z -> (3 < t)%N -> (t %% 4 == 0)%N ->
  exists2 m, external_generate Fq_fieldType t = Ret m & branch_number (toM t t m) (minn (t %/ 4 + 4) 10).
Proof.
move=> tq t3 t4.
have [m E] : exists m, external_generate Fq_fieldType t = Ret m.
  by rewrite external_generateE t3 t4 /=; eexists; reflexivity.
exists m => //; apply: generated_branch E => k /andP [k0 kl]; apply: nonzero_Fq => //.
have : (k <= maxn 64 t)%N.
  apply: leq_trans kl _; rewrite geq_max leq_maxl /= leq_max; apply/orP; right.
  by apply: ltn_Pdiv => //; apply: leq_trans t3.
rewrite leq_max => /orP [] /leP H; last by apply: Z.le_lt_trans tq; apply/Nat2Z.inj_le.
apply: (Z.le_lt_trans _ 64); last by [].
by rewrite -[64%Z]/(Z.of_nat 64); apply/Nat2Z.inj_le.
Qed.

(** Width 28 is the first one at which the branch number is not the number of blocks plus four. *)
Lemma branch_blocks t : (3 < t)%N -> (t %% 4 == 0)%N -> (minn (t %/ 4 + 4) 10 == t %/ 4 + 4)%N = (t <= 24)%N.
Proof.
move=> t3 /eqP t4; have Et := divn_eq t 4; rewrite t4 addn0 in Et.
move: Et; move: (t %/ 4)%N => d; rewrite /minn => ->; case: ltnP => H; first by rewrite eqxx; apply/esym; move: H; clear; slia.
by apply/eqP/idP; move: H; clear; slia.
Qed.
