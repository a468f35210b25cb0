(** Checking by computation whether a matrix over the field of the project has eigenvalues:
    an eigenvector is given, or a polynomial that is zero on the matrix and coprime to
    x^q - x. *)
From Coq Require Import ZArith Lia.
From Bignums Require Import BigZ.
From mathcomp Require Import all_ssreflect all_algebra.
From Verif Require Import Fq PrimeField BigField GenerateMdsSpec.
Set Implicit Arguments.
Unset Strict Implicit.
Unset Printing Implicit Defensive.
Import GRing.Theory.
Local Open Scope ring_scope.
Delimit Scope Z_scope with Z.

Local Notation num := BigZ.t.
Local Notation zero := BigZ.zero.

Lemma phiD a b : phi (BigZ.add a b) = phi a + phi b.
Proof. by rewrite /phi BigZ.spec_add Fq_of_Z_add. Qed.
Lemma phiB a b : phi (BigZ.sub a b) = phi a - phi b.
Proof. by rewrite /phi BigZ.spec_sub Fq_of_Z_sub. Qed.
Lemma phiM a b : phi (BigZ.mul a b) = phi a * phi b.
Proof. by rewrite /phi BigZ.spec_mul Fq_of_Z_mul. Qed.
Definition red (a : num) : num := BigZ.modulo a bq.
Lemma phi_red a : phi (red a) = phi a.
Proof. by rewrite /phi /red BigZ.spec_modulo bqE Fq_of_Z_mod. Qed.
Lemma phi_zero : phi zero = 0. Proof. exact: phi0. Qed.
Lemma phi_one : phi BigZ.one = 1. Proof. exact: phi1. Qed.
Lemma phi_minus_one : phi BigZ.minus_one = -1.
Proof. by rewrite -[BigZ.minus_one]/(BigZ.opp BigZ.one) /phi BigZ.spec_opp Fq_of_Z_opp. Qed.

Definition is_zero (a : num) : bool := BigZ.eqb (red a) zero.
Lemma is_zeroP a : is_zero a -> phi a = 0.
Proof. by rewrite /is_zero BigZ.spec_eqb => /Z.eqb_eq E; rewrite -phi_red /phi E. Qed.

Lemma pos_succ (n : Z) : (1 < n)%Z -> Pos.to_nat (Z.to_pos n) = (Z.to_nat (n - 1)).+1.
Proof. by move=> h; rewrite -Z2Nat.inj_pos Z2Pos.id; lia. Qed.
Lemma q_gt1 : (1 < q)%Z. Proof. exact: (@pf_p_gt1 Fq_pf). Qed.

(** * Lists: polynomials (constant term first) and rows *)
Fixpoint padd (p r : seq num) : seq num :=
  match p, r with
  | a :: p', b :: r' => BigZ.add a b :: padd p' r'
  | [::], _ => r
  | _, [::] => p
  end.
Definition scale (c : num) (p : seq num) : seq num := [seq BigZ.mul c a | a <- p].

Lemma size_padd p r : size (padd p r) = maxn (size p) (size r).
Proof. by elim: p r => [|a p IH] [|b r] //=; rewrite ?maxn0 ?max0n // IH maxnSS. Qed.

Section Poly.
Variables (m : nat) (g : seq num).

(** The product with x modulo x^m - g *)
Definition mulx (p : seq num) : seq num := padd (zero :: take m.-1 p) (scale (red (nth zero p m.-1)) g).
Definition mulmod (a b : seq num) : seq num :=
  map red (foldr (fun c acc => padd (scale c b) (mulx acc)) [::] a).
(** x^n *)
Fixpoint xpow (n : positive) : seq num :=
  match n with
  | xH => [:: zero; BigZ.one]
  | xO n' => let r := xpow n' in mulmod r r
  | xI n' => let r := xpow n' in mulx (mulmod r r)
  end.
(** [w] is the inverse of x^q - x modulo x^m - g *)
Definition no_root (w : seq num) : bool :=
  let r := padd (xpow (Z.to_pos q)) [:: zero; BigZ.minus_one] in
  [&& (1 < m)%N, (size g <= m)%N, (size w <= m)%N & all is_zero (padd (mulmod w (map red r)) [:: BigZ.minus_one])].

Variable z : Fq.
Fixpoint ev (p : seq num) : Fq := if p is a :: p' then phi a + z * ev p' else 0.

Lemma ev_padd p r : ev (padd p r) = ev p + ev r.
Proof.
elim: p r => [|a p IH] [|b r] //=; rewrite ?add0r ?addr0 //.
by rewrite IH phiD mulrDr addrACA.
Qed.
Lemma ev_scale c p : ev (scale c p) = phi c * ev p.
Proof. by elim: p => [|a p IH] /=; rewrite ?mulr0 // IH phiM mulrDr mulrCA. Qed.
Lemma ev_red p : ev (map red p) = ev p.
Proof. by elim: p => [|a p IH] //=; rewrite IH phi_red. Qed.
Lemma ev_zero p : all is_zero p -> ev p = 0.
Proof. by elim: p => [|a p IH] //= /andP [/is_zeroP -> /IH ->]; rewrite mulr0 addr0. Qed.
Lemma ev_split k p : (size p <= k.+1)%N -> ev p = ev (take k p) + z ^+ k * phi (nth zero p k).
Proof.
elim: k p => [|k IH] [|a p] //=; rewrite ?phi_zero ?mulr0 ?addr0 //.
  by case: p => //= _; rewrite mulr0 addr0 add0r expr0 mul1r.
by rewrite ltnS => /IH ->; rewrite mulrDr addrA exprS mulrA.
Qed.

Hypothesis m1 : (1 < m)%N.
Hypothesis gm : (size g <= m)%N.
Hypothesis zg : z ^+ m = ev g.

Lemma size_mulx p : (size p <= m)%N -> (size (mulx p) <= m)%N.
Proof.
move=> sp; rewrite size_padd size_map geq_max gm andbT /= size_take.
have mm : (m.-1 < m)%N by rewrite prednK // ltnW.
by case: (ltnP m.-1 (size p)) => // H; exact: leq_ltn_trans H mm.
Qed.
Lemma ev_mulx p : (size p <= m)%N -> ev (mulx p) = z * ev p.
Proof.
move=> sp; have mE : m.-1.+1 = m by rewrite prednK // ltnW.
have zE : z ^+ m = z * z ^+ m.-1 by rewrite -exprS mE.
rewrite ev_padd ev_scale phi_red -zg /= phi_zero add0r zE.
rewrite [in RHS](@ev_split m.-1) ?mE // mulrDr; congr (_ + _).
by rewrite mulrC mulrA.
Qed.

Lemma foldr_ok a b : (size b <= m)%N ->
  let r := foldr (fun c acc => padd (scale c b) (mulx acc)) [::] a in
  (size r <= m)%N /\ ev r = ev a * ev b.
Proof.
move=> sb; elim: a => [|c a [IH1 IH2]] /=; first by rewrite mul0r.
split; first by rewrite size_padd size_map geq_max sb size_mulx.
by rewrite ev_padd ev_scale ev_mulx // IH2 mulrDl mulrA.
Qed.
Lemma mulmod_ok a b : (size b <= m)%N -> (size (mulmod a b) <= m)%N /\ ev (mulmod a b) = ev a * ev b.
Proof. by move=> sb; have [h1 h2] := foldr_ok a sb; rewrite /mulmod size_map ev_red. Qed.

Lemma xpow_ok n : (size (xpow n) <= m)%N /\ ev (xpow n) = z ^+ Pos.to_nat n.
Proof.
elim: n => [n [s1 s2]|n [s1 s2]|]; cbn [xpow].
- have [h1 h2] := mulmod_ok (xpow n) s1.
  split; first exact: size_mulx.
  by rewrite ev_mulx // h2 s2 Pos2Nat.inj_xI exprS -exprD addnn -mul2n.
- have [h1 h2] := mulmod_ok (xpow n) s1; split=> //.
  by rewrite h2 s2 Pos2Nat.inj_xO -exprD addnn -mul2n.
- by split=> //=; rewrite phi_zero phi_one mulr0 addr0 add0r mulr1.
Qed.

Lemma fermat_Fq : z ^+ Pos.to_nat (Z.to_pos q) = z.
Proof.
rewrite (pos_succ q_gt1) exprS; case: (eqVneq z 0) => [->|z0]; first by rewrite mul0r.
by rewrite (@pf_fermat Fq_pf z z0) mulr1.
Qed.

Lemma no_rootP w : ~~ no_root w.
Proof.
apply/negP => /and4P [_ _ sw] /ev_zero; rewrite ev_padd.
set r := map red _.
have [s1 s2] := xpow_ok (Z.to_pos q).
have sr : (size r <= m)%N by rewrite size_map size_padd geq_max s1.
have [_ ->] := mulmod_ok w sr.
rewrite ev_red ev_padd s2 fermat_Fq /= phi_zero phi_minus_one !mulr0 !addr0 add0r mulrN1 subrr mulr0 add0r.
by move/eqP; rewrite oppr_eq0 oner_eq0.
Qed.
End Poly.

(** * Matrices, lists of rows *)
Section Mat.
Variable M : seq (seq num).
Definition vecmat (r : seq num) : seq num := map red (foldr (fun p acc => padd (scale p.1 p.2) acc) [::] (zip r M)).
(** g(M) applied to a row *)
Fixpoint comb (g : seq num) (r : seq num) : seq num :=
  if g is c :: g' then padd (scale c r) (comb g' (vecmat r)) else [::].
Definition unit_row (m i : nat) : seq num := [seq if k == i then BigZ.one else zero | k <- iota 0 m].
(** M^m = g(M) *)
Definition annihilated (m : nat) (g : seq num) : bool :=
  all (fun i => let r := unit_row m i in
    all is_zero (padd (iter m vecmat r) (scale BigZ.minus_one (comb g r)))) (iota 0 m).
Definition square (m : nat) : bool := (size M == m) && all (fun r => size r == m) M.

(** [v] is an eigenvector for [z] *)
Definition dot_b (r v : seq num) : num := foldr (fun p acc => BigZ.add (BigZ.mul p.1 p.2) acc) zero (zip r v).
Definition eigenvector (m : nat) (z : num) (v : seq num) : bool :=
  [&& size v == m, BigZ.eqb (nth zero v 0) BigZ.one & all (fun p => is_zero (BigZ.sub (dot_b p.1 v) (BigZ.mul z p.2))) (zip M v)].
End Mat.

Definition to_mx (m : nat) (M : seq (seq num)) : 'M[Fq]_m := \matrix_(i, j) phi (nth zero (nth [::] M i) j).

Section Dot.
Variables (m : nat) (M : seq (seq num)) (z : Fq) (v : 'cV[Fq]_m).
Hypothesis sq : square M m.
Hypothesis E : to_mx m M *m v = z *: v.

Definition dot (r : seq num) : Fq := \sum_(j < m) phi (nth zero r j) * v j 0.

Lemma nth_padd p r k : phi (nth zero (padd p r) k) = phi (nth zero p k) + phi (nth zero r k).
Proof.
elim: p r k => [|a p IH] [|b r] [|k] //=; rewrite ?nth_nil ?phi_zero ?add0r ?addr0 //.
by rewrite phiD.
Qed.
Lemma nth_scale c p k : phi (nth zero (scale c p) k) = phi c * phi (nth zero p k).
Proof.
elim: p k => [|a p IH] [|k] //=; rewrite ?nth_nil ?phi_zero ?mulr0 //; exact: phiM.
Qed.
Lemma nth_red p k : phi (nth zero (map red p) k) = phi (nth zero p k).
Proof. by elim: p k => [|a p IH] [|k] //=; exact: phi_red. Qed.

Lemma dot_padd p r : dot (padd p r) = dot p + dot r.
Proof. by rewrite -big_split; apply: eq_bigr => j _; rewrite nth_padd mulrDl. Qed.
Lemma dot_scale c p : dot (scale c p) = phi c * dot p.
Proof. by rewrite mulr_sumr; apply: eq_bigr => j _; rewrite nth_scale mulrA. Qed.
Lemma dot_red p : dot (map red p) = dot p.
Proof. by apply: eq_bigr => j _; rewrite nth_red. Qed.
Lemma dot_nil : dot [::] = 0.
Proof. by apply: big1 => j _; rewrite nth_nil phi_zero mul0r. Qed.
Lemma dot_zero p : all is_zero p -> dot p = 0.
Proof.
move=> h; apply: big1 => j _; case: (ltnP j (size p)) => hj; last by rewrite nth_default // phi_zero mul0r.
by rewrite (is_zeroP (elimT (all_nthP zero) h j hj)) mul0r.
Qed.
Lemma dot_row (i : 'I_m) : dot (nth [::] M i) = z * v i 0.
Proof.
have := congr1 (fun u : 'cV[Fq]_m => u i 0) E; rewrite !mxE => <-.
by apply: eq_bigr => j _; rewrite mxE.
Qed.

Lemma dot_rows (k : nat) (N : seq (seq num)) (r : seq num) :
  (forall i, (i < size N)%N -> dot (nth [::] N i) = z * (if insub (k + i)%N is Some o then v (o : 'I_m) 0 else 0)) ->
  (size r <= size N)%N ->
  dot (foldr (fun p acc => padd (scale p.1 p.2) acc) [::] (zip r N)) =
  z * \sum_(i < size r) phi (nth zero r i) * (if insub (k + i)%N is Some o then v (o : 'I_m) 0 else 0).
Proof.
elim: r k N => [|a r IH] k [|R N] //= H; rewrite ?big_ord0 ?mulr0 ?dot_nil // => sr.
rewrite big_ord_recl dot_padd dot_scale (H 0%N) //= addn0 mulrDr mulrCA; congr (_ + _).
rewrite (IH k.+1) //; last by move=> i hi; rewrite (H i.+1) // addnS.
by congr (_ * _); apply: eq_bigr => i _; rewrite /bump /= add1n addnS.
Qed.

Lemma dot_vecmat r : size r = m -> dot (vecmat M r) = z * dot r.
Proof.
case/andP: sq => /eqP sM _ sr; rewrite /vecmat dot_red (@dot_rows 0).
- rewrite sr; congr (_ * _); apply: eq_bigr => j _; rewrite add0n.
  by rewrite (insubT (fun i => i < m)%N (ltn_ord j)) /=; congr (_ * v _ _); apply: val_inj.
- rewrite sM => i hi; rewrite add0n (insubT (fun i => i < m)%N hi) /=; exact: (dot_row (Ordinal hi)).
- by rewrite sM sr.
Qed.

Lemma size_rows r N : (0 < size r)%N -> size r = size N -> all (fun R => size R == m) N ->
  size (foldr (fun p acc => padd (scale p.1 p.2) acc) [::] (zip r N)) = m.
Proof.
elim: r N => [|a r IH] [|R N] //= _ [] E1 /andP [/eqP sR aN].
rewrite size_padd size_map sR.
case: r E1 IH => [|b r] E1 IH; first by case: N E1 aN => // _ _; rewrite /= maxn0.
by rewrite IH ?maxnn.
Qed.
Lemma size_vecmat r : (0 < m)%N -> size r = m -> size (vecmat M r) = m.
Proof.
move=> m0; case/andP: sq => /eqP sM aM sr.
by rewrite /vecmat size_map size_rows // ?sr ?sM.
Qed.

Lemma dot_iter k r : (0 < m)%N -> size r = m -> size (iter k (vecmat M) r) = m /\ dot (iter k (vecmat M) r) = z ^+ k * dot r.
Proof.
move=> m0 sr; elim: k => [|k [IH1 IH2]] /=; first by rewrite expr0 mul1r.
by rewrite size_vecmat // dot_vecmat // IH2 exprS mulrA.
Qed.
Lemma dot_comb g r : (0 < m)%N -> size r = m -> dot (comb M g r) = ev z g * dot r.
Proof.
move=> m0; elim: g r => [|c g IH] r sr /=; first by rewrite dot_nil mul0r.
by rewrite dot_padd dot_scale IH ?size_vecmat // dot_vecmat // mulrDl mulrCA !mulrA.
Qed.
Lemma dot_unit i : dot (unit_row m i) = if insub i is Some o then v (o : 'I_m) 0 else 0.
Proof.
have N (j : 'I_m) : phi (nth zero (unit_row m i) j) = (nat_of_ord j == i)%:R.
  by rewrite /unit_row (nth_map 0%N) ?size_iota // nth_iota //; case: eqP; rewrite ?phi_one ?phi_zero.
case: insubP => [o _ oi|hi].
  rewrite /dot (bigD1 o) //= N oi eqxx mul1r big1 ?addr0 // => j jo.
  by rewrite N -oi (negbTE (_ : nat_of_ord j != o)) ?mul0r.
by apply: big1 => j _; rewrite N; case: eqP => [ji|]; rewrite ?mul0r // -ji ltn_ord in hi.
Qed.

Lemma annihilated_root g : annihilated M m g -> v != 0 -> z ^+ m = ev z g.
Proof.
move=> /allP A v0.
have [i vi] : exists i, v i 0 != 0.
  apply/existsP; rewrite -negb_forall; apply: contraNN v0 => /forallP H.
  by apply/eqP/colP => i; rewrite mxE; apply/eqP.
have m0 : (0 < m)%N by case: m i {v0 vi A} => [[]|].
have := A i; rewrite mem_iota ltn_ord => /(_ isT) /dot_zero.
have su : size (unit_row m i) = m by rewrite size_map size_iota.
rewrite dot_padd dot_scale (dot_iter m m0 su).2 dot_comb // phi_minus_one mulN1r dot_unit.
rewrite (insubT (fun i => i < m)%N (ltn_ord i)) /= (_ : Sub _ _ = i); last exact: val_inj.
by move/eqP; rewrite -mulrBl mulf_eq0 (negbTE vi) orbF subr_eq0 => /eqP.
Qed.
End Dot.

Theorem no_eigenvalue m M g w : [&& square M m, annihilated M m g & no_root m g w] ->
  forall z, ~ has_eigenvalue (to_mx m M) z.
Proof.
case/and3P=> sq A R z [v v0 E]; have zg := annihilated_root sq E A v0.
by case/and4P: (R) => m1 gm _ _; have := no_rootP m1 gm zg w; rewrite R.
Qed.

Theorem an_eigenvalue m M z v : square M m && eigenvector M m z v -> (0 < m)%N ->
  has_eigenvalue (to_mx m M) (phi z).
Proof.
case/andP=> /andP [/eqP sM aM] /and3P [/eqP sv v1 A] m0.
exists (\col_i phi (nth zero v i)).
  apply/eqP => /colP /(_ (Ordinal m0)); rewrite !mxE /=.
  move: v1; rewrite BigZ.spec_eqb => /Z.eqb_eq v1; rewrite /phi v1 => /eqP.
  by rewrite (_ : Fq_of_Z _ = 1) ?oner_eq0.
apply/colP => i; rewrite !mxE.
have hi : (i < size M)%N by rewrite sM.
have hz : (i < size (zip M v))%N by rewrite size_zip sM sv minnn.
have := elimT (all_nthP ([::], zero)) A i hz; rewrite nth_zip ?sM ?sv // => /is_zeroP /=.
rewrite phiB phiM => /eqP; rewrite subr_eq0 => /eqP <-.
have -> : \sum_j (to_mx m M) i j * (\col_i0 phi (nth zero v i0)) j 0 = \sum_(j < m) phi (nth zero (nth [::] M i) j) * phi (nth zero v j).
  by apply: eq_bigr => j _; rewrite !mxE.
have := eqP (elimT (all_nthP [::]) aM i hi); rewrite -[in RHS]sv => sR.
rewrite /dot_b; move: (nth [::] M i) sR => R sR.
clear A v1 hz aM hi i m0 sM; subst m.
elim: v R sR => [|b v IH] [|a R] //= sR; first by rewrite big_ord0 phi_zero.
by case: sR => sR; rewrite big_ord_recl /= IH // phiD phiM.
Qed.
