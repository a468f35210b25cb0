(** Sums of polynomial functions over the field and over groups of roots of unity. *)
From mathcomp Require Import all_ssreflect all_algebra.
From Verif Require Import ActiveSpec DegreeSpec DegreeProofs SumSpec.
Set Implicit Arguments.
Unset Strict Implicit.
Unset Printing Implicit Defensive.
Import GRing.Theory.
Local Open Scope ring_scope.

Section Sums.
Variable F : fieldType.
Implicit Types (P Q : {poly F}) (H xs : seq F).

Lemma power_sum m H k : roots_of_unity m H -> (0 < k < m)%N -> \sum_(h <- H) h ^+ k = 0.
Proof.
move=> [uH sH HH] /andP [k0 km]; apply/eqP/contraT => S0.
have all1 : all (root ('X^k - 1)) H.
  apply/allP => g gH; rewrite rootE hornerD hornerN hornerXn -polyC1 hornerC subr_eq0.
  have g0 : g != 0.
    apply: contraTN gH => /eqP ->; rewrite HH expr0n eqn0Ngt (leq_trans _ km) //= eq_sym oner_eq0 //.
  have E : perm_eq [seq g * h | h <- H] H.
    rewrite uniq_perm ?map_inj_uniq //; first by apply: mulfI.
    move=> x; apply/mapP/idP => [[h hH ->]|xH].
      by move: hH gH; rewrite !HH exprMn => /eqP -> /eqP ->; rewrite mulr1.
    exists (g^-1 * x); last by rewrite mulVKf.
    by move: xH gH; rewrite !HH exprMn exprVn => /eqP -> /eqP ->; rewrite invr1 mulr1.
  have : \sum_(h <- H) h ^+ k = g ^+ k * \sum_(h <- H) h ^+ k.
    rewrite -{1}(perm_big _ E) big_map mulr_sumr; apply: eq_bigr => h _; exact: exprMn.
  move/eqP; rewrite -subr_eq0 -{1}[\sum_(h <- H) _]mul1r -mulrBl mulf_eq0 (negPf S0) orbF subr_eq0.
  by move/eqP => <-.
have nz : 'X^k - 1 != 0 :> {poly F} by rewrite -size_poly_eq0 size_Xn_sub_1.
by have := max_poly_roots nz all1 uH; rewrite size_Xn_sub_1 // sH ltnS leqNgt km.
Qed.

Lemma poly_sum m H P : roots_of_unity m H -> (size P <= m)%N -> \sum_(h <- H) P.[h] = m%:R * P.[0].
Proof.
case: m => [|m] HH sP.
  by case: HH => _ /size0nil -> _; rewrite big_nil mul0r.
under eq_bigr => h _ do rewrite (horner_coef_wide h sP).
rewrite exchange_big /= big_ord_recl [X in _ + X]big1 => [|k _].
  rewrite addr0 -mulr_sumr; under eq_bigr => h _ do rewrite expr0.
  by case: HH => _ sH _; rewrite big_const_seq count_predT iter_addr_0 horner_coef0 mulrC sH.
by rewrite -mulr_sumr (power_sum HH) ?mulr0 // lift0 /= ltnS.
Qed.

Lemma degree_sum m H (f : F -> F) d : roots_of_unity m H -> degree_le f d -> (d < m)%N ->
  \sum_(h <- H) f h = m%:R * f 0.
Proof.
move=> HH [P sP E] dm; under eq_bigr => h _ do rewrite E.
by rewrite E (poly_sum HH) // (leq_trans sP).
Qed.

Lemma degree_mul (f g : F -> F) d d' : degree_le f d -> degree_le g d' -> degree_le (fun x => f x * g x) (d + d').
Proof.
move=> [P sP EP] [Q sQ EQ]; exists (P * Q); first exact: size_top_mul.
by move=> x; rewrite hornerM EP EQ.
Qed.

(** If the nonzero elements are the [n]-th roots of unity and [n + 1 = 0] *)
Lemma field_sum n xs (f : F -> F) d : enumerates xs -> size xs = n.+1 -> (forall x : F, x != 0 -> x ^+ n = 1) ->
  n.+1%:R = 0 :> F -> degree_le f d -> (d < n)%N -> \sum_(x <- xs) f x = 0.
Proof.
move=> [u c] sz fermat n1 fd dn.
have HH : roots_of_unity n (rem 0 xs).
  split; [exact: rem_uniq|by rewrite size_rem // sz|move=> h].
  rewrite mem_rem_uniq // !inE c andbT; case: eqP => [->|/eqP h0]; last by rewrite fermat ?eqxx.
  by rewrite expr0n eqn0Ngt (leq_ltn_trans _ dn) //= eq_sym oner_eq0.
rewrite (perm_big _ (perm_to_rem (c 0))) big_cons (degree_sum HH fd dn).
by rewrite /= -{1}[f 0]mul1r -mulrDl -mulrS n1 mul0r.
Qed.
End Sums.

(** ** Lines *)
Section Lines.
Variables (F : fieldType) (n e : nat) (M : 'M[F]_n.+1) (c : nat -> 'cV[F]_n.+1) (Rf Rp : nat).
Hypothesis e2 : (2 <= e)%N.
Local Notation S := (fun x : F => x ^+ e).
Local Notation vec := 'cV[F]_n.+1.
Local Notation before := (before S M c Rf Rp).
Local Notation after := (after S M c Rf Rp).
Local Notation full := (is_full Rf Rp).

Lemma line_degree_le (a b : vec) k i : degree_le (fun x => after k (a + x *: b) i 0) (e ^ k).
Proof.
elim: k i => [|k IH] i.
  exists ((a i 0)%:P + b i 0 *: 'X); last by move=> x; rewrite /ActiveSpec.after /= addrK !mxE !hornerE mulrC.
  apply: leq_trans (size_add _ _) _; rewrite expn0 geq_max (leq_trans (size_polyC_leq1 _)) //.
  by apply: leq_trans (size_scale_leq _ _) _; rewrite size_polyX.
have {}IH l : degree_le (fun x => before k (a + x *: b) l 0) (e ^ k).
  have [P sP E] := IH l; exists (P + (c k l 0)%:P).
    apply: leq_trans (size_add _ _) _; rewrite geq_max sP (leq_trans (size_polyC_leq1 _)) //.
  by move=> x; rewrite !hornerE -E /ActiveSpec.after [in RHS]mxE [X in _ + X + _]mxE subrK.
have {}IH (l : 'I_n.+1) : degree_le (fun x => if full k || (l == 0) then before k (a + x *: b) l 0 ^+ e else before k (a + x *: b) l 0) (e ^ k.+1).
  have [P sP E] := IH l; rewrite expnS; case: (full k || (l == 0)).
    by exists (P ^+ e); [exact: size_top_exp|move=> x; rewrite horner_exp E].
  by exists P => //; apply: leq_trans sP _; rewrite ltnS leq_pmull // ltnW.
rewrite /ActiveSpec.after /=.
have W (l : 'I_n.+1) : exists P : {poly F}, (size P <= (e ^ k.+1).+1)%N /\
    forall x, (if full k || (l == 0) then before k (a + x *: b) l 0 ^+ e else before k (a + x *: b) l 0) = P.[x].
  by have [P sP E] := IH l; exists P.
have [Q HQ] := fin_all_exists W.
exists (\sum_l (M i l) *: Q l).
  apply: leq_trans (size_sum _ _ _) _; apply/bigmax_leqP => l _.
  by apply: leq_trans (size_scale_leq _ _) _; case: (HQ l).
move=> x; rewrite addrK mxE horner_sum; apply: eq_bigr => l _.
by rewrite hornerZ mxE; case: (HQ l) => _ <-.
Qed.
End Lines.
