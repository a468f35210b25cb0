(** Affine symmetries of a full and a partial round. *)
From mathcomp Require Import all_ssreflect all_algebra.
From Verif Require Import Cauchy SymmetrySpec Symmetry.
Set Implicit Arguments.
Unset Strict Implicit.
Unset Printing Implicit Defensive.
Import GRing.Theory.
Local Open Scope ring_scope.

Section First.
Variables (F : fieldType) (e : nat) (rs : seq F).
Hypotheses (e2 : (2 <= e)%N) (e0 : e%:R != 0 :> F) (urs : uniq rs) (srs : size rs = e.+1).

Lemma exp0 : 0 ^+ e = 0 :> F. Proof. by rewrite expr0n; case: (e) e2. Qed.
Lemma exp0' : 0 ^+ e.-1 = 0 :> F. Proof. by rewrite expr0n -subn1 subn_eq0 leqNgt e2. Qed.

(** A polynomial of degree at most e that vanishes everywhere *)
Lemma vanish (r : {poly F}) : (size r <= e.+1)%N -> (forall u, r.[u] = 0) -> r = 0.
Proof.
move=> sr z; apply: (@roots_geq_poly_eq0 _ r rs) => //; last by rewrite srs.
by apply/allP => u _; rewrite rootE z.
Qed.
Lemma size_lin (al g : F) : (size (al *: 'X + g%:P)%R <= 2)%N.
Proof.
apply: leq_trans (size_add _ _) _; rewrite geq_max (leq_trans (size_scale_leq _ _)) ?size_polyX //=.
exact: leq_trans (size_polyC_leq1 _) _.
Qed.

(** A power of an affine function that is affine *)
Lemma line_affine (al g b c : F) : (forall u, (al * u + g) ^+ e = b * u + c) -> al = 0.
Proof.
move=> H; pose r : {poly F} := (al *: 'X + g%:P) ^+ e - (b *: 'X + c%:P).
have r0 : r = 0.
  apply: vanish.
    apply: leq_trans (size_add _ _) _; rewrite size_opp geq_max; apply/andP; split; last first.
      exact: leq_trans (size_lin _ _) (leqW e2).
    apply: leq_trans (size_exp_leq _ _) _; have := size_lin al g; rewrite ltnS.
    by case: (size _) => [|[|[|k]]] //= _; rewrite ?mul0n ?mul1n.
  by move=> u; rewrite /r hornerD hornerN horner_exp !hornerE H subrr.
case: (eqVneq al 0) => // al0.
have := congr1 (size \o @polyseq F) r0; rewrite /= size_poly0 /r size_addl.
  by move/eqP; rewrite size_poly_eq0 expf_eq0 -size_poly_eq0 size_addl ?size_scale ?size_polyX // ?andbF // (leq_ltn_trans (size_polyC_leq1 _)).
rewrite size_opp; apply: leq_ltn_trans (size_lin _ _) _.
have s2 : size (al *: 'X + g%:P) = 2%N.
  by rewrite size_addl size_scale ?size_polyX // (leq_ltn_trans (size_polyC_leq1 _)).
have := size_exp (al *: 'X + g%:P) e; rewrite s2 mul1n.
by case: (size _) => [/= z|m /= ->]; [move: e2; rewrite -z | rewrite ltnS].
Qed.

(** An affine function that is a multiple of the power and a constant *)
Lemma affine_line (al g b c : F) : (forall u, al * u + g = b * u ^+ e + c) -> al = 0 /\ b = 0.
Proof.
move=> H; pose r : {poly F} := (al *: 'X + g%:P) - (b *: 'X^e + c%:P).
have r0 : r = 0.
  apply: vanish; last by move=> u; rewrite /r hornerD hornerN !hornerE !hornerXn H subrr.
  apply: leq_trans (size_add _ _) _; rewrite size_opp geq_max; apply/andP; split.
    exact: leq_trans (size_lin _ _) (leqW e2).
  apply: leq_trans (size_add _ _) _; rewrite geq_max; apply/andP; split.
    by apply: leq_trans (size_scale_leq _ _) _; rewrite size_polyXn.
  by apply: leq_trans (size_polyC_leq1 _) _.
have C k : r`_k = 0 by rewrite r0 coef0.
have e1 : (e == 1%N) = false by case: (e) e2 => [|[|]].
have ez : (e == 0%N) = false by case: (e) e2 => [|[|]].
split.
  have := C 1%N; rewrite /r !(coefD, coefN, coefZ, coefX, coefC, coefXn) /= [1%N == e]eq_sym e1 mulr0 mulr1 !addr0 ?subr0 //.
have := C e; rewrite /r !(coefD, coefN, coefZ, coefX, coefC, coefXn) e1 ez eqxx /= ?mulr0 ?mulr1 !addr0 ?sub0r => /eqP; rewrite oppr_eq0 => /eqP //.
Qed.

Variable n : nat.
Local Notation t := n.+1.

Lemma first_powerE (x : 'cV[F]_t) i : first_power e x i 0 = if i == 0 then x i 0 ^+ e else x i 0.
Proof. by rewrite mxE. Qed.
Lemma first_power_col (k : 'I_t) (u : F) : first_power e (u *: delta_mx k 0) = (if k == 0 then u ^+ e else u) *: delta_mx k 0.
Proof.
apply/colP => i; rewrite first_powerE !mxE; case: (eqVneq i k) => [->|ik] /=.
  by case: eqP => _; rewrite !mulr1.
by rewrite !mulr0 exp0; case: eqP.
Qed.
Lemma first_power0 : first_power e (0 : 'cV[F]_t) = 0.
Proof. by apply/colP => i; rewrite first_powerE !mxE exp0; case: eqP. Qed.
Lemma addc (x y : 'cV[F]_t) (i : 'I_t) : (x + y) i 0 = x i 0 + y i 0. Proof. by rewrite mxE. Qed.
Lemma oppc (x : 'cV[F]_t) (i : 'I_t) : (- x) i 0 = - x i 0. Proof. by rewrite mxE. Qed.
Lemma mulmx_delta (C : 'M[F]_t) (u : F) (k i : 'I_t) : (C *m (u *: delta_mx k 0) : 'cV_t) i 0 = C i k * u.
Proof. by rewrite -scalemxAr -colE !mxE mulrC. Qed.

Theorem first_symmetry (A B : 'M[F]_t) (a b : 'cV[F]_t) : A \in unitmx -> carries (first_power e) A a B b ->
  [/\ A 0 0 != 0, a 0 0 = 0, b 0 0 = 0 & B 0 0 = A 0 0 ^+ e] /\
  (forall k : 'I_t, k != 0 -> [/\ A 0 k = 0, A k 0 = 0, B 0 k = 0, B k 0 = 0 & b k 0 = a k 0]) /\
  (forall i k : 'I_t, i != 0 -> k != 0 -> B i k = A i k).
Proof.
move=> u H.
have E (i k : 'I_t) v : (if i == 0 then (A i k * v + a i 0) ^+ e else A i k * v + a i 0)
    = B i k * (if k == 0 then v ^+ e else v) + b i 0.
  have := congr1 (fun x : 'cV_t => x i 0) (H (v *: delta_mx k 0)).
  by rewrite first_power_col first_powerE !addc !mulmx_delta.
have b0 (i : 'I_t) : b i 0 = if i == 0 then a i 0 ^+ e else a i 0.
  have := E i 0 0; rewrite !mulr0 !add0r exp0 mulr0 add0r => <- //.
have A0k (k : 'I_t) : k != 0 -> A 0 k = 0.
  by move=> k0; apply: (@line_affine _ (a 0 0) (B 0 k) (b 0 0)) => v; have := E 0 k v; rewrite eqxx (negPf k0).
have Ak0 (k : 'I_t) : k != 0 -> A k 0 = 0 /\ B k 0 = 0.
  by move=> k0; apply: (@affine_line _ (a k 0) _ (b k 0)) => v; have := E k 0 v; rewrite eqxx (negPf k0).
have A00 : A 0 0 != 0.
  apply/eqP => z; have : row 0 A = 0.
    by apply/rowP => k; rewrite !mxE; case: (eqVneq k 0) => [->|/A0k].
  move/(congr1 (mulmx^~ (invmx A))); rewrite -row_mul mulmxV // mul0mx => /rowP /(_ 0).
  by rewrite !mxE eqxx => /eqP; rewrite oner_eq0.
have a0 : a 0 0 = 0.
  by apply: (@line _ _ rs e2 e0 urs srs (A 0 0) _ (B 0 0) (b 0 0)) A00 => v; have := E 0 0 v; rewrite eqxx.
have b00 : b 0 0 = 0 by rewrite b0 eqxx a0 exp0.
split; first split=> //.
  by have := E 0 0 1; rewrite eqxx a0 b00 !addr0 expr1n !mulr1.
split=> [k k0|i k i0 k0].
  split=> //; [exact: A0k | exact: (Ak0 k k0).1 | | exact: (Ak0 k k0).2 | by rewrite b0 (negPf k0)].
  by have := E 0 k 1; rewrite eqxx (negPf k0) (A0k k k0) mul0r add0r a0 exp0 b00 addr0 mulr1.
by have := E i k 1; rewrite (negPf i0) (negPf k0) b0 (negPf i0) !mulr1 => /addIr.
Qed.
End First.

Lemma mono_left (F : fieldType) t m (f : 'I_t -> 'I_t) (d : 'I_t -> F) (X : 'M[F]_(t, m)) i j :
  (mono f d *m X) i j = d i * X (f i) j.
Proof.
rewrite mxE (bigD1 (f i)) //= big1 ?addr0; last by move=> k ki; rewrite mxE (negPf ki) mul0r.
by rewrite mxE eqxx.
Qed.
Lemma mono_right (F : fieldType) t m (f : 'I_t -> 'I_t) (d : 'I_t -> F) (X : 'M[F]_(m, t)) i k : injective f ->
  (X *m mono f d) i (f k) = X i k * d k.
Proof.
move=> fi; rewrite mxE (bigD1 k) //= big1 ?addr0; first by rewrite mxE eqxx.
by move=> j jk; rewrite mxE; case: eqP => [/fi h|_]; [rewrite h eqxx in jk | rewrite mulr0].
Qed.

Section Rounds.
Variables (F : fieldType) (e : nat) (rs : seq F).
Hypotheses (e2 : (2 <= e)%N) (e0 : e%:R != 0 :> F) (urs : uniq rs) (srs : size rs = e.+1).
Hypothesis ei : injective (fun x : F => x ^+ e).
Variable n : nat.
Local Notation t := n.+1.
Local Notation M := (cauchy_mx F t).
Hypothesis Mu : M \in unitmx.
Hypothesis nz : forall i j : 'I_t, (i + t + j)%:R != 0 :> F.
(** A multiple of the first column of the inverse, whose quotients with the entries are distinct *)
Variables (w : 'cV[F]_t) (s : F).
Hypothesis Mw : M *m w = s *: delta_mx 0 0.
Hypothesis distinct : forall j k : 'I_t, (k + t)%:R * w j 0 = (j + t)%:R * w k 0 -> j = k.

Lemma shifted f A a B b (c : 'cV[F]_t) : carries (fun x => M *m f (x + c)) A a B b ->
  carries f A (a + c - A *m c) (invmx M *m B *m M) (invmx M *m b).
Proof.
move=> H z; have := H (z - c); rewrite subrK mulmxBr => E.
have -> : A *m z + (a + c - A *m c) = A *m z - A *m c + a + c by rewrite [a + c - _]addrC !addrA.
have := congr1 (mulmx (invmx M)) E; rewrite mulKmx // => ->.
by rewrite mulmxDr !mulmxA.
Qed.

(** A map of the words under which both the first row of the matrix and the column [w] are multiples *)
Lemma fixed_words (f : 'I_t -> 'I_t) (a : 'I_t -> F) (al : F) : al != 0 ->
  (forall k, a k * (f k + t)%:R = al * (k + t)%:R) -> (forall k, a k * w (f k) 0 = al * w k 0) ->
  forall k, f k = k /\ a k = al.
Proof.
move=> al0 h1 h2 k; have fk : f k = k.
  apply: distinct; apply: (mulfI al0).
  by rewrite mulrA -h1 [a k * _]mulrC -mulrA h2 mulrCA.
split=> //; have := h1 k; rewrite fk; apply: mulIf.
by have := nz k 0; rewrite addn0.
Qed.
Lemma M_sym : M^T = M. Proof. by apply/matrixP => i j; rewrite !mxE (_ : (j + t + i)%N = (i + t + j)%N) // addnC addnA addnAC. Qed.

(** ** A full round and a partial round *)
Theorem full_partial (c c' : 'cV[F]_t) A0 a0 A1 a1 A2 a2 : c' 0 0 != 0 -> A0 \in unitmx ->
  carries (full e M c) A0 a0 A1 a1 -> carries (partial e M c') A1 a1 A2 a2 ->
  [/\ A0 = 1%:M /\ a0 = 0, A1 = 1%:M /\ a1 = 0 & A2 = 1%:M /\ a2 = 0].
Proof.
move=> c0 u0 H1 H2.
have [f [d [[E0 fi] d0 ha0 ha1 B1]]] := round_symmetry e2 e0 urs srs Mu u0 H1.
have de i : d i ^+ e != 0 by rewrite expf_neq0.
have u1 : A1 \in unitmx.
  have -> : A1 = M *m mono f (fun i => d i ^+ e) *m invmx M by rewrite -B1 mulmxK.
  by rewrite !unitmx_mul Mu unitmx_inv Mu mono_unit.
have S2 := shifted H2.
have [[al0 za zb B00] [Z _]] := first_symmetry e2 e0 urs srs u1 S2.
have row0 x : (A1 *m x : 'cV_t) 0 0 = A1 0 0 * x 0 0.
  by rewrite mxE (bigD1 0) //= big1 ?addr0 // => k k0; have [-> _ _ _ _] := Z k k0; rewrite mul0r.
have al1 : A1 0 0 = 1.
  move: za; rewrite ha1 add0r addc oppc row0 => /eqP; rewrite subr_eq0 => /eqP h.
  by apply: (mulIf c0); rewrite mul1r -h.
have col0 : A1 *m delta_mx 0 0 = (delta_mx 0 0 : 'cV_t).
  rewrite -colE; apply/colP => k; rewrite !mxE eqxx andbT; case: (eqVneq k 0) => [->|k0]; first by rewrite al1.
  by have [_ -> _ _ _] := Z k k0.
have fa : forall k, f k = k /\ d k ^+ e = 1.
  apply: (@fixed_words f (fun k => d k ^+ e) 1) => [|k|k]; first exact: oner_neq0.
    have := congr1 (fun X : 'M_t => X 0 (f k)) B1; rewrite mxE (bigD1 0) //= big1 ?addr0; last first.
      by move=> j j0; have [-> _ _ _ _] := Z j j0; rewrite mul0r.
    rewrite (mono_right _ _ _ _ fi) al1 mul1r !mxE add0n [(t + f k)%N]addnC [(t + k)%N]addnC => h.
    have h1 := nz (f k) 0; have h2 := nz k 0; rewrite !addn0 in h1 h2.
    by apply: (mulfI (invr_neq0 h1)); apply: (mulfI (invr_neq0 h2)); rewrite mul1r [_^-1 * (d k ^+ e * _)]mulrC (mulfK h1) mulrCA (mulVf h2) mulr1 -h.
  have := congr1 (mulmx A1) Mw; rewrite -scalemxAr col0 -Mw mulmxA B1 -mulmxA => /(can_inj (mulKmx Mu)).
  by move/colP/(_ k); rewrite mono_col mul1r.
have P1 : mono f (fun i => d i ^+ e) = 1%:M by apply: mono_scalar => i; [exact: (fa i).1 | exact: (fa i).2].
have A1E : A1 = 1%:M by rewrite -[A1](mulmxK Mu) B1 P1 mulmx1 mulmxV.
have A0E : A0 = 1%:M.
  by rewrite E0; apply: mono_scalar => i; [exact: (fa i).1 | apply: ei; rewrite expr1n; exact: (fa i).2].
have [A2E a2E] : A2 = 1%:M /\ a2 = 0.
  move: S2; rewrite A1E ha1 mul1mx add0r subrr => S2.
  have b0 : invmx M *m a2 = 0 by have := S2 0; rewrite mulmx0 addr0 (first_power0 _ e2) mulmx0 add0r => ->.
  have a2E : a2 = 0 by rewrite -[a2](mulKVmx Mu) b0 mulmx0.
  split=> //; suff B : invmx M *m A2 *m M = 1%:M.
    by rewrite -[A2](mulKVmx Mu) -[invmx M *m A2](mulmxK Mu) B mul1mx mulmxV.
  apply/matrixP => i k; have := S2 (1 *: delta_mx k 0); rewrite b0 !addr0 mul1mx (first_power_col e2) expr1n.
  by case: eqP => _; rewrite scale1r -colE => /colP /(_ i); rewrite [col _ _ _ _]mxE => <-; rewrite !mxE eqxx andbT.
by split; split=> //; rewrite ha0 A0E mul1mx subrr.
Qed.

(** ** A partial round and a full round *)
Theorem partial_full (c c' : 'cV[F]_t) A0 a0 A1 a1 A2 a2 : \sum_k w k 0 * c' k 0 != 0 -> A0 \in unitmx ->
  carries (partial e M c) A0 a0 A1 a1 -> carries (full e M c') A1 a1 A2 a2 ->
  [/\ A0 = 1%:M /\ a0 = 0, A1 = 1%:M /\ a1 = 0 & A2 = 1%:M /\ a2 = 0].
Proof.
move=> c0 u0 H1 H2; have S1 := shifted H1.
have [[al0 za zb B00] [Z ZB]] := first_symmetry e2 e0 urs srs u0 S1.
set B := invmx M *m A1 *m M in B00 Z ZB S1.
set la := A0 0 0 ^+ e in B00; have la0 : la != 0 by rewrite expf_neq0.
have MB : A1 *m M = M *m B by rewrite /B !mulmxA mulmxV // mul1mx.
have BD : B = invmx M *m A1 *m M by []. clearbody B.
have uB : B \in unitmx.
  have -> : B = mono id (fun i => if i == 0 then A0 0 0 ^+ e.-1 else 1) *m A0.
    apply/matrixP => i k; rewrite mono_left; case: (eqVneq i 0) => [->|i0].
      case: (eqVneq k 0) => [->|k0]; first by rewrite B00 /la -exprSr prednK // ltnW.
      by have [-> _ -> _ _] := Z k k0; rewrite mulr0.
    rewrite mul1r; case: (eqVneq k 0) => [->|k0]; last exact: ZB.
    by have [_ -> _ -> _] := Z i i0.
  rewrite unitmx_mul u0 andbT; apply: mono_unit => // i; by case: ifP => _; rewrite ?oner_neq0 ?expf_neq0.
have u1 : A1 \in unitmx.
  have -> : A1 = M *m B *m invmx M by rewrite -MB mulmxK.
  by rewrite unitmx_mul unitmx_mul Mu uB unitmx_inv Mu.
have [g [b [[E1 gi] b0 ha1 ha2 B2]]] := round_symmetry e2 e0 urs srs Mu u1 H2.
have wM : w^T *m M = s *: delta_mx 0 0.
  by rewrite -[M in LHS]M_sym -trmx_mul Mw linearZ /= trmx_delta.
have row0 : (delta_mx 0 0 : 'rV_t) *m B = la *: delta_mx 0 0.
  rewrite -rowE; apply/rowP => k; rewrite !mxE /=; case: (eqVneq k 0) => [->|k0]; first by rewrite mulr1.
  by have [_ _ -> _ _] := Z k k0; rewrite mulr0.
have wA : w^T *m A1 = la *: w^T.
  have h : w^T *m A1 *m M = la *: w^T *m M.
    by rewrite -mulmxA MB mulmxA wM -scalemxAl row0 -scalemxAl wM !scalerA mulrC.
  by rewrite -[LHS](mulmxK Mu) h mulmxK.
have ga : forall k, g k = k /\ b k = la.
  have h1 k : b k * (k + t)%:R = la * (g k + t)%:R.
    have := congr1 (fun X : 'M_t => X k 0) MB; rewrite E1 mono_left mxE [in RHS]mxE (bigD1 0) //= big1 ?addr0; last by move=> j j0; have [_ _ _ -> _] := Z j j0; rewrite mulr0.
    rewrite B00 !mxE !addn0 => h.
    have h1 := nz (g k) 0; have h2 := nz k 0; rewrite !addn0 in h1 h2.
    apply: (mulIf (invr_neq0 h1)); apply: (mulIf (invr_neq0 h2)).
    by rewrite (mulfK h1) mulrAC (mulfK h2) h mulrC.
  have h2 k : b k * w k 0 = la * w (g k) 0.
    have := congr1 (fun X : 'rV_t => X 0 (g k)) wA; rewrite E1 (mono_right _ _ _ _ gi) !mxE => <-.
    by rewrite mulrC.
  move=> k; have gk : g k = k.
    apply: distinct; apply: (mulfI la0).
    by rewrite mulrCA -h2 mulrA [_ * b k]mulrC h1 mulrA.
  by split=> //; have := h1 k; rewrite gk; apply: mulIf; have := nz k 0; rewrite addn0.
have A1l : A1 = la%:M.
  by rewrite E1; apply/matrixP => i j; rewrite !mxE (ga i).1 (ga i).2 [j == i]eq_sym; case: eqP.
have la1 : la = 1.
  have : (w^T *m a1) 0 0 = 0.
    have -> : w^T = s *: (delta_mx 0 0 *m invmx M) by rewrite scalemxAl -wM mulmxK.
    by rewrite -scalemxAl -mulmxA -rowE mxE [row _ _ _ _]mxE zb mulr0.
  rewrite ha1 A1l mul_scalar_mx -{2}[c']scale1r -scalerBl -scalemxAr mxE => /eqP.
  rewrite mulf_eq0 subr_eq0 => /orP [/eqP //|]; rewrite mxE.
  rewrite (eq_bigr (fun k => w k 0 * c' k 0)) ?(negPf c0) // => k _; by rewrite !mxE.
have A1E : A1 = 1%:M by rewrite A1l la1.
have a1E : a1 = 0 by rewrite ha1 A1E mul1mx subrr.
have BE : B = 1%:M by rewrite BD A1E mulmx1 mulVmx.
have A0E : A0 = 1%:M.
  apply/matrixP => i k; rewrite mxE; case: (eqVneq i 0) => [->|i0].
    case: (eqVneq k 0) => [->|k0]; first by apply: ei; rewrite expr1n -/la la1.
    by have [-> _ _ _ _] := Z k k0.
  case: (eqVneq k 0) => [->|k0]; first by have [_ -> _ _ _] := Z i i0; rewrite ?(negPf i0).
  by rewrite -ZB // BE mxE.
have a0E : a0 = 0.
  apply/colP => i; rewrite mxE; case: (eqVneq i 0) => [->|i0].
    by move: za; rewrite A0E mul1mx addrK.
  by have [_ _ _ _] := Z i i0; rewrite a1E mulmx0 mxE A0E mul1mx addrK => <-.
split; split=> //; rewrite -[A2](mulmxK Mu) B2 (_ : mono g _ = 1%:M) ?mulmx1 ?mulmxV //.
by apply: mono_scalar => i; [exact: (ga i).1 | rewrite (ga i).2 la1 expr1n].
Qed.
End Rounds.
