(** Affine symmetries of the power maps and of full rounds with the Cauchy matrix. *)
From Coq Require Import NArith Lia.
From mathcomp Require Import all_ssreflect all_algebra.
From Verif Require Import Cauchy SymmetrySpec.
Set Implicit Arguments.
Unset Strict Implicit.
Unset Printing Implicit Defensive.
Import GRing.Theory.
Local Open Scope ring_scope.
Delimit Scope N_scope with num.

(** * The power maps *)
Section Powers.
Variables (F : fieldType) (e : nat) (rs : seq F).
Hypotheses (e2 : (2 <= e)%N) (e0 : e%:R != 0 :> F) (urs : uniq rs) (srs : size rs = e.+1).

(** A power of an affine function that is a multiple of the power and a constant *)
Lemma line (al g b c : F) : (forall u, (al * u + g) ^+ e = b * u ^+ e + c) -> al != 0 -> g = 0.
Proof.
move=> H al0; pose p : {poly F} := (al *: 'X + g%:P) ^+ e - (b *: 'X^e + c%:P).
have p0 : p = 0.
  apply: (@roots_geq_poly_eq0 _ p rs).
  - apply/allP => u _; rewrite rootE /p hornerD hornerN !horner_exp !hornerE !hornerXn.
    by rewrite subr_eq0; apply/eqP; rewrite -H.
  - exact: urs.
  rewrite srs; apply: leq_trans (size_add _ _) _; rewrite size_opp geq_max; apply/andP; split.
    apply: leq_trans (size_exp_leq _ _) _.
    have s : (size (al *: 'X + g%:P)%R <= 2)%N.
      apply: leq_trans (size_add _ _) _; rewrite geq_max (leq_trans (size_scale_leq _ _)) ?size_polyX //=.
      exact: leq_trans (size_polyC_leq1 _) _.
    by rewrite ltnS; case: (size _) s => [|[|[|k]]] //= _; rewrite ?mul0n ?mul1n.
  apply: leq_trans (size_add _ _) _; rewrite geq_max; apply/andP; split.
    by apply: leq_trans (size_scale_leq _ _) _; rewrite size_polyXn.
  by apply: leq_trans (size_polyC_leq1 _) _.
have := congr1 (fun r : {poly F} => r^`().[0]) p0.
rewrite /p !derivE horner0 /=.
rewrite !(hornerD, hornerN, hornerZ, hornerMn, hornerM, horner_exp, hornerX, hornerC, hornerXn).
rewrite deriv_exp !derivE !(hornerD, hornerN, hornerZ, hornerMn, hornerM, horner_exp, hornerX, hornerC).
have -> : 0 ^+ e.-1 = 0 :> F by rewrite expr0n -subn1 subn_eq0 leqNgt e2.
rewrite mul0rn !mulr0 !addr0 subr0 add0r mulr1 -mulr_natr => /eqP.
by rewrite !mulf_eq0 (negPf al0) (negPf e0) orbF expf_eq0 => /andP [_ /eqP].
Qed.

Theorem power_symmetry t (A B : 'M[F]_t) (a b : 'cV[F]_t) : carries (powers e) A a B b ->
  forall i j, A i j != 0 -> a i 0 = 0 /\ forall k, k != j -> A i k = 0.
Proof.
move=> H i j aij.
have L k v : k != j -> A i k * v + a i 0 = 0.
  move=> kj; apply: (@line (A i j) _ (B i j) (B i k * v ^+ e + b i 0)) aij => u.
  have := congr1 (fun x : 'cV_t => x i 0) (H (u *: delta_mx j 0 + v *: delta_mx k 0)).
  rewrite !mxE.
  have S (C : 'M[F]_t) (f : F -> F) : f 0 = 0 ->
      \sum_l C i l * f ((u *: delta_mx j 0 + v *: delta_mx k 0 : 'cV[F]_t) l 0) = C i j * f u + C i k * f v.
    move=> f0; rewrite (bigD1 j) //= (bigD1 k) //= big1 ?addr0.
      by rewrite !mxE !eqxx (negPf kj) [j == k]eq_sym (negPf kj) /= !mulr1 !mulr0 addr0 add0r.
    by move=> l /andP [lj lk]; rewrite !mxE (negPf lj) (negPf lk) /= !mulr0 addr0 f0 mulr0.
  rewrite (S A id) // => E; rewrite addrA E addrA; congr (_ + _).
  have -> : \sum_l B i l * powers e (u *: delta_mx j 0 + v *: delta_mx k 0) l 0
      = \sum_l B i l * (fun x => x ^+ e) ((u *: delta_mx j 0 + v *: delta_mx k 0 : 'cV[F]_t) l 0).
    by apply: eq_bigr => l _; rewrite mxE.
  by rewrite (S B (fun x => x ^+ e)) // expr0n; case: (e) e2.
have a0 : a i 0 = 0.
  case: (pickP (fun k => k != j)) => [k kj|none]; first by have := L k 0 kj; rewrite mulr0 add0r.
  apply: (@line (A i j) _ (B i j) (b i 0)) aij => u.
  have := congr1 (fun x : 'cV_t => x i 0) (H (u *: delta_mx j 0)); rewrite !mxE => E.
  have S (C : 'M[F]_t) (x : 'cV[F]_t) : \sum_l C i l * x l 0 = C i j * x j 0.
    by rewrite (bigD1 j) //= big1 ?addr0 // => l lj; have := none l; rewrite lj.
  by move: E; rewrite !S !mxE !eqxx /= mulr1.
by split=> // k kj; have := L k 1 kj; rewrite mulr1 a0 addr0.
Qed.
End Powers.

(** * Monomial matrices *)
(** Row [i] has one entry, [d i] in column [f i]. *)
Definition mono (F : fieldType) t (f : 'I_t -> 'I_t) (d : 'I_t -> F) : 'M[F]_t := \matrix_(i, j) (if j == f i then d i else 0).

Lemma monoE (F : fieldType) t (A : 'M[F]_t) : A \in unitmx ->
  (forall i j, A i j != 0 -> forall k, k != j -> A i k = 0) ->
  exists f d, [/\ A = mono f d, injective f & forall i, d i != 0].
Proof.
move=> u H.
have nz i : {j | A i j != 0}.
  case: (pickP (fun j => A i j != 0)) => [j h|z]; first by exists j.
  have : row i A = 0 by apply/rowP => j; rewrite !mxE; apply/eqP; have := z j => /negbFE.
  move/(congr1 (mulmx^~ (invmx A))); rewrite -row_mul mulmxV // mul0mx => /rowP /(_ i).
  by rewrite !mxE eqxx => /eqP; rewrite oner_eq0.
pose f i := sval (nz i); have fP i : A i (f i) != 0 := svalP (nz i).
exists f, (fun i => A i (f i)); split=> //.
  by apply/matrixP => i j; rewrite mxE; case: eqP => [-> //|/eqP n]; exact: H (fP i) _ n.
move=> i i' e; apply/eqP/negPn/negP => n.
pose w : 'rV[F]_t := A i' (f i') *: delta_mx 0 i - A i (f i) *: delta_mx 0 i'.
have w0 : w *m A = 0.
  rewrite mulmxBl -!scalemxAl -!rowE; apply/rowP => j; rewrite !mxE.
  case: (eqVneq j (f i)) => [->|n1]; first by rewrite e mulrC subrr.
  by rewrite (H _ _ (fP i) _ n1) (H _ _ (fP i') _ (_ : j != f i')) -?e // !mulr0 subrr.
have : w = 0 by rewrite -[w]mulmx1 -(mulmxV u) mulmxA w0 mul0mx.
move/rowP/(_ i); rewrite !mxE !eqxx (negPf n) /= mulr1 mulr0 subr0.
by move/eqP; exact/negP.
Qed.

(** * The Cauchy matrix *)
Local Close Scope ring_scope.
Section Search.
Variable t : nat.
Definition entry (i j : nat) : N := N.of_nat (i + j + t).
(** The entries at positions (0, 0), (i, 0), (0, j), (i, j) before and after moving rows by
    [s] and columns by [p]: the quotients form a matrix of rank 1. *)
Definition rank1 (s p : seq nat) (i j : nat) : bool :=
  N.eqb (entry 0 0 * entry i j * (entry (nth 0%N s 0) (nth 0%N p j) * entry (nth 0%N s i) (nth 0%N p 0)))%num
        (entry 0 j * entry i 0 * (entry (nth 0%N s 0) (nth 0%N p 0) * entry (nth 0%N s i) (nth 0%N p j)))%num.
Definition fits (sp : seq nat * seq nat) : bool :=
  let k := (size sp.1).-1 in
  [&& uniq sp.1, uniq sp.2 & all (fun i => rank1 sp.1 sp.2 k i && rank1 sp.1 sp.2 i k) (iota 0 k.+1)].
Definition extend (sp : seq nat * seq nat) : seq (seq nat * seq nat) :=
  filter fits [seq (rcons sp.1 a, rcons sp.2 b) | a <- iota 0 t, b <- iota 0 t].
Definition search (k : nat) : seq (seq nat * seq nat) := iter k (fun l => flatten (map extend l)) [:: ([::], [::])].

Variables s p : nat -> nat.
Hypotheses (st : forall i, (i < t)%N -> (s i < t)%N) (pt : forall i, (i < t)%N -> (p i < t)%N).
Hypotheses (si : {in gtn t &, injective s}) (pi : {in gtn t &, injective p}).
Hypothesis rank : forall i j, (i < t)%N -> (j < t)%N ->
  (entry 0 0 * entry i j * (entry (s 0) (p j) * entry (s i) (p 0)))%num
  = (entry 0 j * entry i 0 * (entry (s 0) (p 0) * entry (s i) (p j)))%num.

Lemma searched k : (k <= t)%N -> (mkseq s k, mkseq p k) \in search k.
Proof.
elim: k => [|k IH] kt; first by rewrite inE.
apply/flattenP; exists (extend (mkseq s k, mkseq p k)).
  by apply: map_f; apply: IH; exact: ltnW.
have R (g : nat -> nat) : mkseq g k.+1 = rcons (mkseq g k) (g k).
  by rewrite /mkseq -[k.+1]addn1 iotaD map_cat cats1.
rewrite /extend mem_filter; apply/andP; split; last first.
  apply/allpairsP; exists (s k, p k); rewrite /= !mem_iota /= !R; split=> //; [exact: st | exact: pt].
rewrite /fits; cbn [fst snd]; rewrite size_mkseq -pred_Sn; apply/and3P; split.
- rewrite map_inj_in_uniq ?iota_uniq // => i j; rewrite !mem_iota /= => hi hj; apply: si; exact: leq_trans kt.
- rewrite map_inj_in_uniq ?iota_uniq // => i j; rewrite !mem_iota /= => hi hj; apply: pi; exact: leq_trans kt.
apply/allP => i; rewrite mem_iota => /= hi; have it : (i < t)%N by exact: leq_trans hi kt.
by rewrite /rank1 !nth_mkseq //; apply/andP; split; apply/N.eqb_eq; apply: rank.
Qed.
End Search.

Local Open Scope ring_scope.

Lemma searches : all (fun t : nat => search t t == [:: (iota 0 t, iota 0 t)]) (iota 3 6).
Proof. by vm_compute. Qed.
Lemma search_2 : search 2 2 = [:: ([:: 0; 1], [:: 0; 1]); ([:: 1; 0], [:: 1; 0])]%N.
Proof. by vm_compute. Qed.

Lemma cross (F : fieldType) (B0 Bi A0 Aj m00 mij m0j mi0 n00 nij n0j ni0 : F) :
  B0 * m00 = A0 * n00 -> Bi * mij = Aj * nij -> B0 * m0j = Aj * n0j -> Bi * mi0 = A0 * ni0 ->
  B0 * Bi * (A0 * Aj) * (m00 * mij * (n0j * ni0)) = B0 * Bi * (A0 * Aj) * (m0j * mi0 * (n00 * nij)).
Proof.
move=> e1 e2 e3 e4.
rewrite [LHS](AC ((2*2)*(2*2)) ((1*5)*(2*6)*((4*7)*(3*8)))) [RHS](AC ((2*2)*(2*2)) ((3*7)*(4*8)*((1*5)*(2*6)))) /=.
by rewrite e1 e2 e3 e4.
Qed.

Section Cauchy.
Variables (F : fieldType) (n : nat).
Local Notation t := n.+1.
Hypothesis t8 : (2 <= t <= 8)%N.
Hypothesis small : forall a b : N, (a < 2 ^ 20)%num -> (b < 2 ^ 20)%num ->
  (N.to_nat a)%:R = (N.to_nat b)%:R :> F -> a = b.
Local Notation M := (cauchy_mx F t).

Lemma entry_lt i j : (i < t)%N -> (j < t)%N -> (entry t i j < 32)%num.
Proof.
move=> hi hj; rewrite /entry; case/andP: t8 => _ l; suff /ltP : (i + j + t < 32)%N by lia.
by apply: (@leq_ltn_trans (8 + 8 + 8)%N) => //; rewrite !leq_add // ?(leq_trans (ltnW _) l).
Qed.
Lemma entry_nz i j : (i < t)%N -> (j < t)%N -> (i + j + t)%:R != 0 :> F.
Proof.
move=> hi hj; apply/eqP => z; have := @small (entry t i j) 0%num.
rewrite /entry Nat2N.id z => H; have : N.of_nat (i + j + t) = 0%num.
  apply: H => //; apply: N.lt_trans (entry_lt hi hj) _ => //.
by move/(congr1 N.to_nat); rewrite Nat2N.id addnS.
Qed.

Variables (sg pi : 'I_t -> 'I_t) (b a : 'I_t -> F).
Hypotheses (sgi : injective sg) (pii : injective pi) (b0 : forall i, b i != 0) (a0 : forall i, a i != 0).
Hypothesis H : mono sg b *m M = M *m mono pi a.

Lemma moved (i k : 'I_t) : b i * (i + k + t)%:R = a k * (sg i + pi k + t)%:R.
Proof.
have := congr1 (fun A : 'M_t => A i (pi k)) H; rewrite !mxE.
rewrite (bigD1 (sg i)) //= big1 ?addr0; last by move=> l ls; rewrite !mxE (negPf ls) mul0r.
rewrite [in RHS](bigD1 k) //= big1 ?addr0; last first.
  by move=> l lk; rewrite !mxE; case: eqP => [/pii e|_]; [rewrite e eqxx in lk | rewrite mulr0].
rewrite !mxE !eqxx [(sg i + _ + _)%N]addnAC [(i + _ + _)%N]addnAC => E.
have n1 := entry_nz (ltn_ord (sg i)) (ltn_ord (pi k)); have n2 := entry_nz (ltn_ord i) (ltn_ord k).
apply: (mulIf (invr_neq0 n1)); apply: (mulIf (invr_neq0 n2)).
by rewrite (mulfK n1) [b i * _ / _]mulrAC (mulfK n2) E mulrC.
Qed.

Let s (i : nat) : nat := sg (inord i).
Let p (i : nat) : nat := pi (inord i).
Lemma rank_one i j : (i < t)%N -> (j < t)%N ->
  (entry t 0 0 * entry t i j * (entry t (s 0) (p j) * entry t (s i) (p 0)))%num
  = (entry t 0 j * entry t i 0 * (entry t (s 0) (p 0) * entry t (s i) (p j)))%num.
Proof.
move=> hi hj.
have B u v w x : (u < 32 -> v < 32 -> w < 32 -> x < 32 -> u * v * (w * x) < 2 ^ 20)%num.
  by move=> h1 h2 h3 h4; rewrite -[(2 ^ 20)%num]/(32 * 32 * (32 * 32))%num; apply: N.mul_lt_mono; apply: N.mul_lt_mono.
have si : (s i < t)%N by exact: ltn_ord. have s0 : (s 0 < t)%N by exact: ltn_ord.
have pj : (p j < t)%N by exact: ltn_ord. have p0 : (p 0 < t)%N by exact: ltn_ord.
apply: small; try by apply: B; exact: entry_lt.
rewrite !N2Nat.inj_mul /entry !Nat2N.id !multE !natrM.
have E u v : (u < t)%N -> (v < t)%N -> b (inord u) * (u + v + t)%:R = a (inord v) * (s u + p v + t)%:R.
  by move=> hu hv; have := moved (inord u) (inord v); rewrite !inordK.
have z : (0 < t)%N by [].
apply: (mulfI (mulf_neq0 (mulf_neq0 (b0 (inord 0)) (b0 (inord i))) (mulf_neq0 (a0 (inord 0)) (a0 (inord j))))).
exact: cross (E _ _ z z) (E _ _ hi hj) (E _ _ z hj) (E _ _ hi z).
Qed.

Lemma maps : (mkseq s t, mkseq p t) \in search t t.
Proof.
apply: searched => //.
- by move=> i hi; exact: ltn_ord.
- by move=> i hi; exact: ltn_ord.
- by move=> i j hi hj /val_inj /sgi /(congr1 (@nat_of_ord _)); rewrite !inordK.
- by move=> i j hi hj /val_inj /pii /(congr1 (@nat_of_ord _)); rewrite !inordK.
exact: rank_one.
Qed.

Lemma from_maps (r : seq nat) : mkseq s t = r -> forall i : 'I_t, sg i = nth 0%N r i :> nat.
Proof. by move=> <- i; rewrite nth_mkseq // /s inord_val. Qed.
Lemma from_maps' (r : seq nat) : mkseq p t = r -> forall i : 'I_t, pi i = nth 0%N r i :> nat.
Proof. by move=> <- i; rewrite nth_mkseq // /p inord_val. Qed.

Lemma scalar : (forall i, sg i = i) -> (forall i, pi i = i) -> exists2 l : F, l != 0 & mono sg b = l%:M /\ mono pi a = l%:M.
Proof.
move=> S P; have E i k : b i = a k.
  by apply: (mulIf (entry_nz (ltn_ord i) (ltn_ord k))); have := moved i k; rewrite S P.
exists (b ord0) => //; split; apply/matrixP => i j; rewrite !mxE ?S ?P [j == i]eq_sym; case: eqP => // _.
- by rewrite !(E _ ord0).
- by rewrite (E ord0 i).
Qed.

Lemma cauchy_cases : (exists2 l : F, l != 0 & mono sg b = l%:M /\ mono pi a = l%:M) \/
  n = 1%N /\ forall i j : 'I_t, i != j -> sg i = j /\ ((i < j)%N -> b i = 2%:R * b j).
Proof.
have := maps; case: (ltngtP t 2) => [l|l|E].
- by case/andP: t8 => h _; rewrite ltnNge h in l.
- have := allP searches t; rewrite mem_iota l; case/andP: t8 => _ h /(_ h) /eqP -> /=.
  rewrite inE => /eqP Q; have S := from_maps (congr1 fst Q); have P := from_maps' (congr1 snd Q); left; apply: scalar => i; apply: val_inj; rewrite /= ?S ?P; exact: (nth_iota 0%N 0 (ltn_ord i)).
have -> : search t t = search 2 2 by rewrite E.
have i2 (i : 'I_t) : (val i == 0%N) || (val i == 1%N) by case: i => [[|[|m]] h] //=; move: h; rewrite E.
rewrite search_2 !inE => /orP [] /eqP Q; have S := from_maps (congr1 fst Q); have P := from_maps' (congr1 snd Q).
  by left; apply: scalar => i; apply: val_inj; rewrite /= ?S ?P /=; case/orP: (i2 i) => /eqP /= ->.
right; split=> [|i j ij]; first by case: E.
have sw (k l : 'I_t) : k != l -> nth 0%N [:: 1; 0]%N k = l.
  rewrite -val_eqE; case/orP: (i2 k) => /eqP /= ->; case/orP: (i2 l) => /eqP /= -> //.
have sj : sg i = j by apply: val_inj; rewrite /= S; apply: sw.
split=> // lt.
have [vi vj] : val i = 0%N /\ val j = 1%N.
  by move: ij lt; rewrite -val_eqE; case/orP: (i2 i) => /eqP /= ->; case/orP: (i2 j) => /eqP /= ->.
have pj : pi j = i by apply: val_inj; rewrite /= P; apply: sw; rewrite eq_sym.
have pii' : pi i = j by apply: val_inj; rewrite /= P; apply: sw.
have sji : sg j = i by apply: val_inj; rewrite /= S; apply: sw; rewrite eq_sym.
have E1 := moved i i; have E2 := moved j i; move: E1 E2; rewrite sj pii' sji /= vi vj E /= => E1 E2.
have n3 : (3%:R : F) != 0.
  by have := entry_nz (ltn_ord i) (ltn_ord j); rewrite vi vj E.
have n2 : (2%:R : F) != 0.
  by have := entry_nz (ltn_ord i) (ltn_ord i); rewrite vi E.
have e : b j = a i by apply: (mulIf n3); exact: E2.
move: E1; rewrite -e -[(1 + 1 + 2)%N]/(2 * 2)%N -[(0 + 0 + 2)%N]/2%N natrM mulrA => /(mulIf n2) ->.
by rewrite mulrC.
Qed.
End Cauchy.

(** * Two rounds *)
Lemma mono_unit (F : fieldType) t (f : 'I_t -> 'I_t) (d : 'I_t -> F) :
  injective f -> (forall i, d i != 0) -> mono f d \in unitmx.
Proof.
move=> fi d0; suff /mulmx1_unit [] : mono f d *m mono (invF fi) (fun i => (d (invF fi i))^-1) = 1%:M by [].
apply/matrixP => i j; rewrite !mxE (bigD1 (f i)) //= big1 ?addr0; last by move=> k ki; rewrite !mxE (negPf ki) mul0r.
rewrite !mxE eqxx invF_f [j == i]eq_sym; case: eqP => _; last by rewrite mulr0.
by rewrite divff.
Qed.
Lemma mono_1 (F : fieldType) t (f : 'I_t -> 'I_t) (d : 'I_t -> F) (l : F) :
  (forall i, d i != 0) -> mono f d = l%:M -> forall i, f i = i /\ d i = l.
Proof.
move=> d0 E i; have := congr1 (fun A : 'M_t => A i (f i)) E; rewrite !mxE eqxx.
case: eqP => [e|_] h; first by rewrite -e h.
by move/eqP: h; rewrite (negPf (d0 i)).
Qed.
Lemma mono_scalar (F : fieldType) t (f : 'I_t -> 'I_t) (d : 'I_t -> F) :
  (forall i, f i = i) -> (forall i, d i = 1) -> mono f d = 1%:M.
Proof. by move=> h1 h2; apply/matrixP => i j; rewrite !mxE h1 h2 [j == i]eq_sym; case: eqP. Qed.
Lemma mono_col (F : fieldType) t (f : 'I_t -> 'I_t) (d : 'I_t -> F) (x : 'cV[F]_t) i :
  (mono f d *m x) i 0 = d i * x (f i) 0.
Proof.
rewrite !mxE (bigD1 (f i)) //= big1 ?addr0; last by move=> k ki; rewrite !mxE (negPf ki) mul0r.
by rewrite !mxE eqxx.
Qed.

Section Round.
Variables (F : fieldType) (e : nat) (rs : seq F).
Hypotheses (e2 : (2 <= e)%N) (e0 : e%:R != 0 :> F) (urs : uniq rs) (srs : size rs = e.+1).
Variables (t : nat) (M : 'M[F]_t) (c : 'cV[F]_t).
Hypothesis Mu : M \in unitmx.

Lemma powersE (x : 'cV[F]_t) i : powers e x i 0 = x i 0 ^+ e.
Proof. by rewrite mxE. Qed.
Lemma powers0 : powers e (0 : 'cV[F]_t) = 0.
Proof. by apply/colP => i; rewrite !mxE expr0n; case: (e) e2. Qed.
Lemma powers_delta k : powers e (delta_mx k 0 : 'cV[F]_t) = delta_mx k 0.
Proof. by apply/colP => i; rewrite !mxE; case: eqP => _ /=; rewrite ?expr1n // expr0n; case: (e) e2. Qed.

Theorem round_symmetry A a B b : A \in unitmx -> carries (full e M c) A a B b ->
  exists f d, [/\ A = mono f d /\ injective f, forall i, d i != 0, a = A *m c - c, b = 0
    & B *m M = M *m mono f (fun i => d i ^+ e)].
Proof.
move=> Au H; pose B' := invmx M *m B *m M.
have P : carries (powers e) A (a + c - A *m c) B' (invmx M *m b).
  move=> z; have := H (z - c); rewrite /full subrK mulmxBr => E.
  have -> : A *m z + (a + c - A *m c) = A *m z - A *m c + a + c by rewrite [a + c - _]addrC !addrA.
  have := congr1 (mulmx (invmx M)) E; rewrite mulKmx // => ->.
  by rewrite mulmxDr /B' !mulmxA.
have S := power_symmetry e2 e0 urs srs P.
have [f [d [AE fi d0]]] := monoE Au (fun i j h => (S i j h).2).
have z : a + c - A *m c = 0.
  apply/colP => i; rewrite [RHS]mxE; apply: (S i (f i) _).1.
  by rewrite AE mxE eqxx.
move: P; rewrite z => P.
have b0 : b = 0.
  have := P 0; rewrite mulmx0 addr0 powers0 mulmx0 add0r => /(congr1 (mulmx M)).
  by rewrite mulmx0 mulKVmx.
move: P; rewrite b0 mulmx0 => P.
exists f, d; split=> //.
- by apply/eqP; rewrite -subr_eq0 opprB addrA z.
have E : B' = mono f (fun i => d i ^+ e).
  apply/matrixP => i j.
  have := congr1 (fun x : 'cV_t => x i 0) (P (delta_mx j 0)); rewrite !addr0 powers_delta AE -(colE j B') powersE mono_col.
  rewrite [col j B' i 0]mxE exprMn => <-.
  rewrite mxE [RHS]mxE eqxx andbT [j == f i]eq_sym; case: eqP => _; first by rewrite expr1n mulr1.
  by rewrite expr0n; case: (e) e2 => //= k _; rewrite mulr0.
by rewrite -E /B' !mulmxA mulmxV // mul1mx.
Qed.
End Round.

(** Constants that no symmetry of the matrix fixes *)
Definition generic (F : fieldType) t (c : 'cV[F]_t) : Prop :=
  c != 0 /\ (t = 2%N -> forall i j : 'I_t, (i < j)%N -> c i 0 ^+ 2 != 2%:R * c j 0 ^+ 2).

Lemma swap_square (F : fieldType) (x y b : F) : b * x = y -> 2%:R * b * y = x -> x ^+ 2 = 2%:R * y ^+ 2.
Proof. by move=> h1 h2; rewrite expr2 -{1}h2 -!mulrA [y * x]mulrC [b * (x * y)]mulrA h1 expr2. Qed.

Section Two.
Variables (F : fieldType) (e : nat) (rs : seq F).
Hypotheses (e2 : (2 <= e)%N) (e0 : e%:R != 0 :> F) (urs : uniq rs) (srs : size rs = e.+1).
Hypothesis ei : injective (fun x : F => x ^+ e).
Variables (n : nat).
Local Notation t := n.+1.
Hypothesis t8 : (2 <= t <= 8)%N.
Hypothesis small : forall a b : N, (a < 2 ^ 20)%num -> (b < 2 ^ 20)%num ->
  (N.to_nat a)%:R = (N.to_nat b)%:R :> F -> a = b.
Local Notation M := (cauchy_mx F t).
Hypothesis Mu : M \in unitmx.

Theorem two_rounds (c c' : 'cV[F]_t) A0 a0 A1 a1 A2 a2 : generic c' -> A0 \in unitmx ->
  carries (full e M c) A0 a0 A1 a1 -> carries (full e M c') A1 a1 A2 a2 ->
  [/\ A0 = 1%:M /\ a0 = 0, A1 = 1%:M /\ a1 = 0 & A2 = 1%:M /\ a2 = 0].
Proof.
move=> [c0 c2] u0 H1 H2.
have [f [d [[E0 fi] d0 ha0 ha1 B1]]] := round_symmetry e2 e0 urs srs Mu u0 H1.
have de i : d i ^+ e != 0 by rewrite expf_neq0.
have u1 : A1 \in unitmx.
  have -> : A1 = M *m mono f (fun i => d i ^+ e) *m invmx M by rewrite -B1 mulmxK.
  by rewrite !unitmx_mul Mu unitmx_inv Mu mono_unit.
have [g [b [[E1 gi] b0 hb1 hb2 B2]]] := round_symmetry e2 e0 urs srs Mu u1 H2.
have fix1 : A1 *m c' = c' by apply/eqP; rewrite -subr_eq0 -hb1 ha1.
have := B1; rewrite E1 => B1'.
case: (cauchy_cases t8 small gi fi b0 de B1') => [[l l0 [X Y]]|[n1 sw]].
  have l1 : l = 1.
    move: fix1; rewrite E1 X mul_scalar_mx => h.
    have : (l - 1) *: c' = 0 by rewrite scalerBl scale1r h subrr.
    by move/eqP; rewrite scaler_eq0 (negPf c0) orbF subr_eq0 => /eqP.
  rewrite l1 in X Y.
  have A1E : A1 = 1%:M by rewrite E1.
  have fd := mono_1 de Y; have gb := mono_1 b0 X.
  have A0E : A0 = 1%:M.
    rewrite E0; apply: mono_scalar => i; first exact: (fd i).1.
    by apply: ei; rewrite expr1n; exact: (fd i).2.
  have A2E : A2 = 1%:M.
    rewrite -[A2](mulmxK Mu) B2 (_ : mono g _ = 1%:M) ?mulmx1 ?mulmxV //.
    by apply: mono_scalar => i; [exact: (gb i).1 | rewrite (gb i).2 expr1n].
  by split; split=> //; rewrite ha0 A0E mul1mx subrr.
have o0 : (0 < t)%N by []. have o1 : (1 < t)%N by case/andP: t8.
have ne : Ordinal o0 != Ordinal o1 by [].
have [s1 s2] := sw _ _ ne; have ne' : Ordinal o1 != Ordinal o0 by [].
have [s3 _] := sw _ _ ne'; have {}s2 := s2 isT.
have := congr1 (fun x : 'cV_t => x (Ordinal o0) 0) fix1; have := congr1 (fun x : 'cV_t => x (Ordinal o1) 0) fix1.
rewrite E1 !mono_col s1 s3 s2 => h1 h2.
have t2 : t = 2%N by rewrite n1.
have /eqP [] := c2 t2 (Ordinal o0) (Ordinal o1) isT.
exact: swap_square h1 h2.
Qed.
End Two.
