(** Exact degrees of rounds of the permutation. *)
From mathcomp Require Import all_ssreflect all_algebra.
From Verif Require Import Spec ActiveSpec DegreeSpec.
Set Implicit Arguments.
Unset Strict Implicit.
Unset Printing Implicit Defensive.
Import GRing.Theory.
Local Open Scope ring_scope.

(** ** Consequences of a degree *)
Section Consequences.
Variable F : fieldType.
Implicit Types (f : F -> F) (P : {poly F}).

Lemma degree_agree f d P xs : exact_degree f d -> (size P <= d)%N ->
  uniq xs -> all (fun x => f x == P.[x]) xs -> (size xs <= d)%N.
Proof.
move=> [p sp fp] sP u a; rewrite leqNgt; apply/negP => ls.
have sz : size (p - P) = d.+1 by rewrite size_addl ?sp // size_opp.
have := @roots_geq_poly_eq0 _ (p - P) xs; rewrite u sz ls => H.
have r : all (root (p - P)) xs.
  by apply: sub_all a => x; rewrite fp rootE !hornerE => /eqP ->; rewrite subrr.
by have /eqP := H r isT isT; rewrite -size_poly_eq0 sz.
Qed.

Lemma degree_values f d y xs : exact_degree f d -> (0 < d)%N ->
  uniq xs -> all (fun x => f x == y) xs -> (size xs <= d)%N.
Proof.
move=> fd d0 u a; apply: (degree_agree (P := y%:P) fd _ u).
  by apply: leq_trans d0; apply: size_polyC_leq1.
by apply: sub_all a => x; rewrite hornerC.
Qed.

Lemma exact_degree_le f d : exact_degree f d -> degree_le f d.
Proof. by case=> p sp fp; exists p; rewrite ?sp. Qed.
End Consequences.

(** ** Top coefficients *)
Section Top.
Variable F : fieldType.
Implicit Types (p q : {poly F}).

Lemma coef_top_mul p q a b : (size p <= a.+1)%N -> (size q <= b.+1)%N -> (p * q)`_(a + b) = p`_a * q`_b.
Proof.
move=> sp sq; rewrite coefM.
have la : (a < (a + b).+1)%N by rewrite ltnS leq_addr.
rewrite (bigD1 (Ordinal la)) //= addKn big1 ?addr0 // => i; rewrite -val_eqE /= => ia.
case: (ltngtP i a) ia => // [ia|ai] _.
- rewrite [q`__]nth_default ?mulr0 //; apply: leq_trans sq _.
  by rewrite ltn_subRL ltn_add2r.
- by rewrite [p`__]nth_default ?mul0r //; apply: leq_trans sp _.
Qed.

Lemma size_top_mul p q a b : (size p <= a.+1)%N -> (size q <= b.+1)%N -> (size (p * q)%R <= (a + b).+1)%N.
Proof.
move=> sp sq; apply: leq_trans (size_mul_leq _ _) _.
by have := leq_add sp sq; rewrite addSn addnS; case: (_ + _)%N.
Qed.

Lemma size_top_exp p a e : (size p <= a.+1)%N -> (size (p ^+ e)%R <= (e * a).+1)%N.
Proof.
move=> sp; elim: e => [|e IH]; first by rewrite expr0 size_poly1.
by rewrite exprS mulSn; apply: size_top_mul.
Qed.
Lemma coef_top_exp p a e : (size p <= a.+1)%N -> (p ^+ e)`_(e * a) = p`_a ^+ e.
Proof.
move=> sp; elim: e => [|e IH]; first by rewrite !expr0 mul0n coef1.
by rewrite !exprS mulSn coef_top_mul ?IH //; apply: size_top_exp.
Qed.
End Top.

(** ** Rounds *)
Section Rounds.
Variables (F : fieldType) (n e : nat) (M : 'M[F]_n.+1) (c : nat -> 'cV[F]_n.+1) (Rf Rp : nat).
Hypothesis e2 : (2 <= e)%N.
Local Notation S := (fun x : F => x ^+ e).
Local Notation vec := 'cV[F]_n.+1.
Local Notation before := (before S M c Rf Rp).
Local Notation after := (after S M c Rf Rp).
Local Notation full := (is_full Rf Rp).

(** The coefficients of the top power [e ^ k] after [k] rounds *)
Fixpoint lead (j : 'I_n.+1) (k : nat) : vec :=
  if k is k'.+1 then
    M *m (\col_i (if full k' || (i == 0) then lead j k' i 0 ^+ e else 0))
  else delta_mx j 0.

Lemma e_gt0 k : (0 < e ^ k)%N. Proof. by rewrite expn_gt0; case: e e2. Qed.

Lemma after_lead (s : vec) j k : exists P : 'I_n.+1 -> {poly F},
  forall i, [/\ forall x, after k (with_word s j x) i 0 = (P i).[x],
    (size (P i) <= (e ^ k).+1)%N & (P i)`_(e ^ k) = lead j k i 0].
Proof.
elim: k => [|k [P HP]].
  exists (fun i => if i == j then 'X else (s i 0)%:P) => i; rewrite /ActiveSpec.after expn0 /=; split=> [x||].
  - by rewrite addrK mxE; case: ifP; rewrite !hornerE.
  - by case: ifP => _; rewrite ?size_polyX // (leq_trans (size_polyC_leq1 _)).
  - by rewrite !mxE eqxx andbT; case: eqP => _; rewrite ?coefX ?coefC.
pose B i : {poly F} := P i + (c k i 0)%:P.
have HB i x : before k (with_word s j x) i 0 = (B i).[x].
  by have [h _ _] := HP i; rewrite /B !hornerE -h /ActiveSpec.after [in RHS]mxE [X in _ + X + _]mxE subrK.
have sB i : (size (B i) <= (e ^ k).+1)%N.
  have [_ sp _] := HP i; apply: leq_trans (size_add _ _) _; rewrite geq_max sp /=.
  by rewrite (leq_trans (size_polyC_leq1 _)).
have cB i : (B i)`_(e ^ k) = lead j k i 0.
  by have [_ _ <-] := HP i; rewrite coefD coefC gtn_eqF ?addr0 // e_gt0.
pose Q i : {poly F} := if full k || (i == 0) then B i ^+ e else B i.
have sQ i : (size (Q i) <= (e ^ k.+1).+1)%N.
  rewrite /Q expnS; case: ifP => _; first exact: size_top_exp.
  by apply: leq_trans (sB i) _; rewrite ltnS leq_pmull // ltnW.
have cQ i : (Q i)`_(e ^ k.+1) = if full k || (i == 0) then lead j k i 0 ^+ e else 0.
  rewrite /Q expnS; case: ifP => _; first by rewrite coef_top_exp // cB.
  by rewrite nth_default //; apply: leq_trans (sB i) _; rewrite ltn_Pmull // e_gt0.
exists (fun i => \sum_l (M i l) *: Q l) => i; split=> [x||].
- rewrite /ActiveSpec.after /= addrK mxE horner_sum; apply: eq_bigr => l _.
  by rewrite hornerZ mxE /Q; case: ifP => _; rewrite ?horner_exp HB.
- apply: leq_trans (size_sum _ _ _) _; apply/bigmax_leqP => l _.
  exact: leq_trans (size_scale_leq _ _) (sQ l).
- rewrite coef_sum mxE; apply: eq_bigr => l _.
  by rewrite coefZ cQ !mxE.
Qed.

Lemma after_degree_le s j k i : degree_le (fun x => after k (with_word s j x) i 0) (e ^ k).
Proof. by have [P H] := after_lead s j k; have [h1 h2 _] := H i; exists (P i). Qed.

Lemma after_degree s j k i : lead j k i 0 != 0 -> exact_degree (fun x => after k (with_word s j x) i 0) (e ^ k).
Proof.
move=> nz; have [P H] := after_lead s j k; have [h1 h2 h3] := H i; exists (P i) => //.
apply/eqP; rewrite eqn_leq h2 /= ltnNge; apply: contra nz => h.
by rewrite -h3 nth_default.
Qed.

(** ** The top coefficients do not vanish *)
Definition FL (v : vec) : vec := M *m (\col_i (v i 0 ^+ e)).
Definition nonzero (v : vec) : Prop := forall i, v i 0 != 0.
Hypothesis nz : forall j r, (r <= Rf)%N -> nonzero (iter r FL (col j M)).
Hypotheses (Rf0 : (0 < Rf)%N) (Rp0 : (0 < Rp)%N).

Lemma FL_scale a v : FL (a *: v) = a ^+ e *: FL v.
Proof.
rewrite /FL scalemxAr; congr (_ *m _); apply/colP => i.
by rewrite !mxE exprMn.
Qed.
Lemma iter_FL_scale a v r : a != 0 -> exists2 b, b != 0 & iter r FL (a *: v) = b *: iter r FL v.
Proof.
move=> a0; elim: r => [|r [b b0 E]]; first by exists a.
by exists (b ^+ e); rewrite ?expf_neq0 //= E FL_scale.
Qed.

Lemma lead_full j k : full k -> lead j k.+1 = FL (lead j k).
Proof. by move=> f /=; rewrite /FL; congr (_ *m _); apply/colP => i; rewrite !mxE f. Qed.
Lemma lead_partial j k : ~~ full k -> lead j k.+1 = (lead j k 0 0 ^+ e) *: col 0 M.
Proof.
move=> /negbTE f /=; apply/colP => i; rewrite !mxE (bigD1 0) //= big1 ?addr0.
  by rewrite mxE f eqxx orbT mulrC.
by move=> l l0; rewrite mxE f (negbTE l0) mulr0.
Qed.

Lemma lead_first j r : (r < Rf)%N -> lead j r.+1 = iter r FL (col j M).
Proof.
elim: r => [|r IH] h; last by rewrite lead_full /full ?h // IH // ltnW.
rewrite lead_full /full ?h //=; apply/colP => i; rewrite !mxE (bigD1 j) //= big1 ?addr0.
  by rewrite !mxE !eqxx expr1n mulr1.
by move=> l lj; rewrite !mxE (negbTE lj) expr0n gtn_eqF ?mulr0 // ltnW.
Qed.

Lemma lead_middle j r : (0 < r <= Rp)%N -> exists2 a, a != 0 & lead j (Rf + r) = a *: col 0 M.
Proof.
elim: r => // -[_ h|r IH h].
  rewrite addn1 lead_partial; last by rewrite /is_full ltnn /= -ltnNge -addn1 leq_add2l.
  exists (lead j Rf 0 0 ^+ e) => //; apply: expf_neq0.
  by case: Rf Rf0 nz lead_first => // m _ nz' lf; rewrite lf //; apply: nz'; rewrite leqW.
have [a a0 E] := IH ltac:(exact: ltnW).
rewrite addnS lead_partial; last by rewrite /is_full negb_or -leqNgt leq_addr -ltnNge ltn_add2l.
exists (lead j (Rf + r.+1) 0 0 ^+ e) => //; apply: expf_neq0; rewrite E mxE mulf_neq0 //.
exact: (nz (r := 0) 0).
Qed.

Lemma lead_last j r : (r <= Rf)%N -> exists2 a, a != 0 & lead j (Rf + Rp + r) = a *: iter r FL (col 0 M).
Proof.
elim: r => [_|r IH h].
  by rewrite addn0; apply: lead_middle; rewrite Rp0 leqnn.
have [a a0 E] := IH (ltnW h); rewrite addnS lead_full; last by rewrite /is_full leq_addr orbT.
by exists (a ^+ e); rewrite ?expf_neq0 // E FL_scale.
Qed.

Lemma lead_nonzero j k : (0 < k <= Rf + Rp + Rf)%N -> nonzero (lead j k).
Proof.
case/andP; case: (leqP k Rf) => [|h1 _].
  by case: k => // k h _ _; rewrite lead_first //; apply: nz; apply: ltnW.
case: (leqP k (Rf + Rp)) => [h2 _|h2 h3].
  have [|a a0] := @lead_middle j (k - Rf).
    by rewrite subn_gt0 h1 leq_subLR.
  rewrite subnKC 1?ltnW // => -> i; rewrite mxE mulf_neq0 //; exact: (nz (r := 0) 0).
have [|a a0] := @lead_last j (k - (Rf + Rp)); first by rewrite leq_subLR.
by rewrite subnKC 1?ltnW // => -> i; rewrite mxE mulf_neq0 // nz // leq_subLR.
Qed.

Lemma after_exact s j k i : (0 < k <= Rf + Rp + Rf)%N ->
  exact_degree (fun x => after k (with_word s j x) i 0) (e ^ k).
Proof. by move=> h; apply: after_degree; apply: lead_nonzero. Qed.
End Rounds.
