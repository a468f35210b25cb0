(** The line along each word that the first two rounds of the shipped permutations map to a line. *)
From Coq Require Import ZArith NArith Lia.
From mathcomp Require Import all_ssreflect all_algebra.
From Verif Require Import Base Fq Matrix MatrixSpec MatrixProofs Params Permutation PermutationProofs Spec Cauchy SBox RateChecks Shipped PoseidonProps.
From Verif Require Import ActiveSpec ActiveProofs ActiveShipped DegreeSpec DegreeProofs DegreeShipped.
From Verif Require Import SymmetrySpec Symmetry SymmetryShipped SymmetryMixed BypassSpec Bypass.
Set Implicit Arguments.
Unset Strict Implicit.
Unset Printing Implicit Defensive.
Import GRing.Theory.
Local Open Scope ring_scope.
Delimit Scope Z_scope with Z.

Section Unknown.
Variable F : fieldType.
Lemma with_word_line n (s : 'cV[F]_n) j x : with_word s j x = s + (x - s j 0) *: delta_mx j 0.
Proof.
apply/colP => i; rewrite !mxE eqxx andbT; case: (altP (i =P j)) => [->|_]; last by rewrite mulr0 addr0.
by rewrite mulr1 addrC subrK.
Qed.
(** The polynomial ((u + a)^e + b)^e *)
Definition twice (e : nat) (a b : F) : {poly F} := (('X + a%:P) ^+ e + b%:P) ^+ e.
Lemma twiceE e a b u : (twice e a b).[u] = ((u + a) ^+ e + b) ^+ e.
Proof. by rewrite /twice horner_exp hornerD hornerC horner_exp hornerD hornerX hornerC. Qed.
Lemma exp_size (P : {poly F}) d e : size P = d.+1 -> size (P ^+ e) = (d * e).+1.
Proof.
move=> sP; have P0 : P ^+ e != 0 by rewrite expf_neq0 // -size_poly_eq0 sP.
by have := size_exp P e; rewrite sP /= => <-; rewrite prednK // lt0n size_poly_eq0.
Qed.
Lemma twice_size e a b : (0 < e)%N -> size (twice e a b) = (e * e).+1.
Proof.
move=> e0; have s1 : size (('X + a%:P) ^+ e)%R = e.+1 by rewrite (@exp_size _ 1) ?size_XaddC // mul1n.
apply: exp_size; rewrite size_addl s1 //.
exact: leq_ltn_trans (size_polyC_leq1 _) _.
Qed.
Lemma comp_size (P T : {poly F}) d d' : size T = d'.+1 -> (size P <= d.+1)%N -> (size (P \Po T) <= (d * d').+1)%N.
Proof.
move=> sT sP; have := size_comp_poly P T; rewrite sT /= => C.
apply: leq_trans (leqSpred _) _; rewrite C ltnS leq_mul2r; apply/orP; right.
by move: sP; case: (size P).
Qed.
Lemma comp_exact (P T : {poly F}) d d' : (0 < d')%N -> size T = d'.+1 -> size (P \Po T) = (d * d').+1 -> (0 < size P)%N -> size P = d.+1.
Proof.
move=> d0 sT sC sP; have := size_comp_poly P T; rewrite sT sC /= => /eqP; rewrite eqn_pmul2r // => /eqP ->.
by rewrite prednK.
Qed.
End Unknown.

(** Polynomials with the same values, of degree below q *)
Lemma same_values d (P Q : {poly Fq}) : (Z.of_nat d < q)%Z -> (size P <= d.+1)%N -> (size Q <= d.+1)%N ->
  (forall u, P.[u] = Q.[u]) -> P = Q.
Proof.
move=> dq sP sQ H; apply/eqP; rewrite -subr_eq0; apply/eqP.
have [xs u sxs] : exists2 xs : seq Fq, uniq xs & size xs = d.+1.
  by apply: many_points; rewrite Nat2Z.inj_succ; apply/Z.le_succ_l.
apply: (@roots_geq_poly_eq0 _ _ xs) => //.
  by apply/allP => x _; rewrite rootE hornerD hornerN H subrr.
by rewrite sxs; apply: leq_trans (size_add _ _) _; rewrite size_opp geq_max sP.
Qed.

Lemma pow_17_lt k : (k <= 39)%N -> (Z.of_nat (17 ^ k)%N < q)%Z.
Proof.
move=> h; apply: Z.le_lt_trans degree_q; apply/inj_le/leP; rewrite leq_exp2l //.
Qed.

Section Shipped.
Variable p : params Fq_fieldType.
Hypothesis hp : List.In p shipped.
Local Notation t1 := (p_t1 p).
Local Notation M := (toM (1 + t1) (1 + t1) (p_mds p)).
Local Notation S17 := (fun x : Fq => x ^+ 17).
Local Notation arc := (fun r => \col_(i < 1 + t1) nth 0 (elements (p_arc p)) (r * (1 + t1) + i)).

Lemma shipped_entries (i j : 'I_(1 + t1)) : M i j != 0.
Proof. rewrite (shipped_mds hp) mxE invr_eq0; exact: (entries_nz hp i j). Qed.

Lemma first_two (x : 'cV[Fq]_(1 + t1)) : after S17 M arc 4 31 2 x = full 17 M (arc 1%N) (full 17 M (arc 0%N) x).
Proof.
have Z y : after S17 M arc 4 31 0 y = y by rewrite /after /= addrK.
have E1 y : after S17 M arc 4 31 1 y = full 17 M (arc 0%N) y.
  exact: (eq_trans (@shipped_full p 0%N y isT) (congr1 (full 17 M (arc 0%N)) (Z y))).
exact: (eq_trans (@shipped_full p 1%N x isT) (congr1 (full 17 M (arc 1%N)) (E1 x))).
Qed.

(** One round: the words that change vanish together. *)
Theorem shipped_round_line r (x v : 'cV[Fq]_(1 + t1)) :
  straight (full 17 M (arc r)) x v <-> exists u0, forall i, v i 0 != 0 -> x i 0 + (arc r) i 0 + u0 * v i 0 = 0.
Proof. exact: (@round_line Fq_fieldType 17 (points) isT e17 (points_uniq) erefl _ M (arc r) x v (shipped_unit hp)). Qed.

(** Two rounds: one line along each word *)
Theorem shipped_two r j : exists x0 : 'cV[Fq]_(1 + t1), forall x : 'cV[Fq]_(1 + t1),
  straight (fun z => full 17 M (arc r.+1) (full 17 M (arc r) z)) x (delta_mx j 0) <-> (forall k, k != j -> x k 0 = x0 k 0).
Proof.
exact: (@two_round_unique Fq_fieldType 17 (points) isT e17 (points_uniq) erefl _ pow17_bij M (arc r) (arc r.+1) (shipped_unit hp) j
  (fun i => shipped_entries i j)).
Qed.

Local Notation off := (invmx M *m arc 1%N).
Theorem shipped_first_two j : exists x0 : 'cV[Fq]_(1 + t1), forall x : 'cV[Fq]_(1 + t1),
  straight (after S17 M arc 4 31 2) x (delta_mx j 0) <-> (forall k, k != j -> x k 0 = x0 k 0).
Proof.
have [x0 H] := shipped_two 0%N j; exists x0 => x; rewrite -H.
by split=> -[y [w E]]; exists y, w => u; have [s Es] := E u; exists s; rewrite -Es first_two.
Qed.

Lemma straight_state (x : 'cV[Fq]_(1 + t1)) j u : straight (after S17 M arc 4 31 2) x (delta_mx j 0) ->
  after S17 M arc 4 31 2 (with_word x j u) =
  ((u + (arc 0%N) j 0) ^+ 17 + off j 0) ^+ 17 *: (M *m powers 17 (M *m delta_mx j 0)).
Proof.
move=> st.
have st' : straight (fun z => full 17 M (arc 1%N) (full 17 M (arc 0%N) z)) x (delta_mx j 0).
  by have [y [w E]] := st; exists y, w => z; have [s Es] := E z; exists s; rewrite -Es first_two.
have := proj1 (@two_round_line Fq_fieldType 17 (points) isT e17 (points_uniq) erefl _ pow17_bij M (arc 0%N) (arc 1%N) (shipped_unit hp) x j
  (fun i => shipped_entries i j)) st' => H.
have := @two_round_state Fq_fieldType 17 _ M (arc 0%N) (arc 1%N) (shipped_unit hp) x j (u - x j 0) H.
rewrite first_two with_word_line => ->; congr ((_ ^+ 17 + _) ^+ 17 *: _).
by rewrite addrAC [x j 0 + _]addrC subrK.
Qed.

(** Every word of a later state as a polynomial in the 289th power *)
Theorem shipped_bypass (x : 'cV[Fq]_(1 + t1)) j i k : straight (after S17 M arc 4 31 2) x (delta_mx j 0) -> (k <= 37)%N ->
  exists2 Q : {poly Fq}, size Q = (17 ^ k).+1 &
  forall u, after S17 M arc 4 31 k.+2 (with_word x j u) i 0 = Q.[((u + (arc 0%N) j 0) ^+ 17 + off j 0) ^+ 17].
Proof.
move=> st hk.
have [P HP] := @later_degree Fq_fieldType t1 17 M arc 4 31 isT (with_word x j) _ _ 2 (fun u => straight_state u st) k.
have [E s] := HP i; exists (P i); last exact: E.
have [R sR hR] := @shipped_degree p hp x j i k.+2 (hk : (0 < k.+2 <= 39)%N).
pose T := twice 17 ((arc 0%N) j 0) (off j 0).
have sT : size T = (17 * 17).+1 by apply: twice_size.
have E2 : (17 ^ k.+2 = 17 ^ k * (17 * 17))%N by rewrite !expnSr mulnA.
have RE : R = P i \Po T.
  apply: (same_values (@pow_17_lt k.+2 hk)); [by rewrite sR | by rewrite E2; exact: comp_size sT s | move=> u].
  by rewrite horner_comp twiceE -E -hR.
apply: (comp_exact (isT : (0 < 17 * 17)%N) sT); first by rewrite -RE sR E2.
rewrite lt0n size_poly_eq0; apply/eqP => P0; move: sR; rewrite RE P0 comp_poly0 size_poly0; discriminate.
Qed.

Lemma twice_inj a b : injective (fun u : Fq => ((u + a) ^+ 17 + b) ^+ 17).
Proof.
by have [g gK _] := pow17_bij => u v /(congr1 g); rewrite !gK => /addIr /(congr1 g); rewrite !gK => /addIr.
Qed.
End Shipped.

(** The hashes *)
Theorem hash_bypass n j : (1 < n <= 8)%N -> (j < n)%N ->
  exists (l : seq Fq) (a b : Fq) (Q : {poly Fq}), [/\ size l = n, size Q = (17 ^ 37).+1 &
    forall u, hash_on (set_nth 0 l j u) = Ret Q.[((u + a) ^+ 17 + b) ^+ 17]].
Proof.
move=> hn hj; have sz0 : size (nseq n (0 : Fq)) = n by rewrite size_nseq.
have [|p [hp ht E]] := @hash_onE (nseq n 0); first by rewrite sz0.
have [ht1 /andP [h1 _] _ _ _] := shipped_spec hp; rewrite sz0 ht1 in ht E.
rewrite -ht in hj; have hi : (1 < 1 + p_t1 p)%N by [].
have [x0 H] := shipped_first_two hp (Ordinal hj).
have st := proj2 (H x0) (fun _ _ => erefl).
have [Q sQ hQ] := shipped_bypass hp (Ordinal hi) st (leqnn 37).
move: hQ; set a := (\col_i _) _ _; set b := (invmx _ *m _) _ _ => hQ.
exists (ofV x0), a, b, Q; split=> [||u]; [by rewrite size_ofV | exact: sQ |].
rewrite -hQ E; last by rewrite size_set_nth size_ofV ht; apply/maxn_idPr; rewrite -ht.
rewrite /textbook_hash -[j in set_nth _ _ j]/(val (Ordinal hj)) toV_set -(shipped_mds hp) toV_ofV.
by rewrite (nth_ofV _ (Ordinal hi)) -[39%N]/(4 + 31 + 4)%N after_poseidon.
Qed.

(** On such a line no hash is taken more than 17 ^ 37 times. *)
Theorem hash_bypass_values n j : (1 < n <= 8)%N -> (j < n)%N ->
  exists l : seq Fq, size l = n /\ forall (y : Fq) (xs : seq Fq), uniq xs ->
    (forall u, u \in xs -> hash_on (set_nth 0 l j u) = Ret y) -> (size xs <= 17 ^ 37)%N.
Proof.
move=> hn hj; have [l [a [b [Q [sl sQ hQ]]]]] := hash_bypass hn hj; exists l; split=> // y xs us H.
have ui : uniq (map (fun u : Fq => ((u + a) ^+ 17 + b) ^+ 17) xs) by rewrite (map_inj_uniq (@twice_inj a b)).
have := @degree_values Fq_fieldType (fun z => Q.[z]) (17 ^ 37) y _ (ex_intro2 _ _ Q sQ (fun _ => erefl)) _ ui.
rewrite size_map; apply; first by rewrite expn_gt0.
apply/allP => _ /mapP [u hu ->]; apply/eqP.
by have := H u hu; rewrite hQ => /(congr1 (fun o : outcome Fq => if o is Ret z then z else 0)).
Qed.
