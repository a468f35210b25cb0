(** Lines of states that one or two full rounds map to lines. *)
From mathcomp Require Import all_ssreflect all_algebra.
From Verif Require Import SymmetrySpec Symmetry ActiveSpec DegreeSpec DegreeProofs BypassSpec.
Set Implicit Arguments.
Unset Strict Implicit.
Unset Printing Implicit Defensive.
Import GRing.Theory.
Local Open Scope ring_scope.

Section Lines.
Variables (F : fieldType) (e : nat) (rs : seq F).
Hypotheses (e2 : (2 <= e)%N) (e0 : e%:R != 0 :> F) (urs : uniq rs) (srs : size rs = e.+1).
Variable t : nat.
Implicit Types (x v y w : 'cV[F]_t).

Lemma pointE x v u i : (x + u *: v) i 0 = x i 0 + u * v i 0.
Proof. by rewrite !mxE. Qed.
Lemma zero_exp : 0 ^+ e = 0 :> F. Proof. by rewrite expr0n; case: (e) e2. Qed.

(** The words that change vanish together. *)
Theorem power_line x v : straight (powers e) x v <-> exists u0, forall i, v i 0 != 0 -> x i 0 + u0 * v i 0 = 0.
Proof.
split=> [[y [w H]]|[u0 H]]; last first.
  exists (\col_i (if v i 0 == 0 then x i 0 ^+ e else 0)), (\col_i (v i 0 ^+ e)) => u; exists ((u - u0) ^+ e).
  apply/colP => i; rewrite powersE pointE [RHS]pointE !mxE.
  case: (altP (v i 0 =P 0)) => [->|nz]; first by rewrite mulr0 addr0 zero_exp mulr0 addr0.
  rewrite add0r -exprMn; congr (_ ^+ _); rewrite mulrBl.
  by have /eqP := H i nz; rewrite addr_eq0 => /eqP ->; rewrite addrC.
have P u : exists s, (forall k, (x k 0 + u * v k 0) ^+ e = y k 0 + s * w k 0).
  by have [s E] := H u; exists s => k; have := congr1 (fun z : 'cV[F]_t => z k 0) E; rewrite powersE !pointE.
case: (pickP (fun i => v i 0 != 0)) => [i vi|none]; last by exists 0 => i; rewrite none.
have wi : w i 0 != 0.
  apply/eqP => wi.
  have at_ z : z ^+ e = y i 0.
    have [s E] := P ((z - x i 0) / v i 0); have := E i; rewrite wi mulr0 addr0 mulfVK // addrC subrK.
    exact.
  by have := at_ 1; rewrite -(at_ 0) expr1n zero_exp => /eqP; rewrite oner_eq0.
exists (- x i 0 / v i 0) => k vk.
have G : x k 0 - v k 0 / v i 0 * x i 0 = 0.
  apply: (@line F e rs e2 e0 urs srs (v k 0 / v i 0) _ (w k 0 / w i 0) (y k 0 - w k 0 / w i 0 * y i 0)); last first.
    by rewrite mulf_neq0 // invr_eq0.
  move=> z; have [s E] := P ((z - x i 0) / v i 0).
  have Ei := E i; rewrite mulfVK // addrC subrK in Ei.
  have Ek := E k.
  have -> : v k 0 / v i 0 * z + (x k 0 - v k 0 / v i 0 * x i 0) = x k 0 + (z - x i 0) / v i 0 * v k 0.
    by rewrite addrCA -mulrBr; congr (_ + _); rewrite mulrC mulrA mulrAC.
  have R : w k 0 / w i 0 * (s * w i 0) = s * w k 0 by rewrite mulrCA mulfVK.
  by rewrite Ek Ei mulrDr R addrCA [w k 0 / w i 0 * y i 0 + _]addrC addrK.
by rewrite -[RHS]G; congr (_ + _); rewrite mulNr mulNr; congr (- _); rewrite mulrC mulrA mulrAC.
Qed.

Lemma straight_mul (M : 'M[F]_t) (f : 'cV[F]_t -> 'cV[F]_t) x v : M \in unitmx ->
  straight (fun z => M *m f z) x v <-> straight f x v.
Proof.
move=> Mu; split=> [[y [w H]]|[y [w H]]].
  exists (invmx M *m y), (invmx M *m w) => u; have [s E] := H u; exists s.
  by rewrite scalemxAr -mulmxDr -E mulKmx.
exists (M *m y), (M *m w) => u; have [s E] := H u; exists s.
by rewrite E mulmxDr -scalemxAr.
Qed.

Theorem round_line (M : 'M[F]_t) c x v : M \in unitmx ->
  straight (full e M c) x v <-> exists u0, forall i, v i 0 != 0 -> x i 0 + c i 0 + u0 * v i 0 = 0.
Proof.
move=> Mu; have -> : straight (full e M c) x v <-> straight (powers e) (x + c) v.
  rewrite -(straight_mul (powers e) (x + c) v Mu).
  by split=> -[y [w H]]; exists y, w => u; have [s E] := H u; exists s; rewrite -E /full addrAC.
rewrite power_line; split=> -[u0 H]; exists u0 => i vi; have := H i vi; rewrite ?mxE //.
Qed.

(** Two rounds, along one word *)
Hypothesis eb : bijective (fun z : F => z ^+ e).
Variables (M : 'M[F]_t) (c c' : 'cV[F]_t).
Hypothesis Mu : M \in unitmx.
Local Notation d := (invmx M *m c').
Local Notation along x j u := (x + u *: delta_mx j 0).

Lemma first_round x j u :
  full e M c (along x j u) =
  M *m (\col_i (if i == j then 0 else (x i 0 + c i 0) ^+ e)) + (x j 0 + c j 0 + u) ^+ e *: (M *m delta_mx j 0).
Proof.
rewrite /full scalemxAr -mulmxDr; congr (_ *m _); apply/colP => i; rewrite powersE !mxE eqxx andbT.
case: (altP (i =P j)) => [->|_]; first by rewrite mulr1 mulr1 add0r addrAC.
by rewrite !mulr0 !addr0.
Qed.

Theorem two_round_line x j : (forall i, M i j != 0) ->
  straight (fun z => full e M c' (full e M c z)) x (delta_mx j 0) <->
  (forall k, k != j -> (x k 0 + c k 0) ^+ e = - d k 0).
Proof.
move=> nz; have [g gK Kg] := eb.
set y := M *m (\col_i (if i == j then 0 else (x i 0 + c i 0) ^+ e)).
have -> : straight (fun z => full e M c' (full e M c z)) x (delta_mx j 0) <-> straight (full e M c') y (M *m delta_mx j 0).
  split=> -[y' [w H]]; exists y', w => u.
    have [s E] := H (g u - (x j 0 + c j 0)); exists s; rewrite -E first_round -/y.
    by rewrite [x j 0 + c j 0 + _]addrC subrK Kg.
  by rewrite first_round; apply: H.
rewrite round_line //.
have colE i : (M *m delta_mx j 0 : 'cV[F]_t) i 0 = M i j by rewrite -colE mxE.
have Ez u0 : (forall i, (M *m delta_mx j 0 : 'cV[F]_t) i 0 != 0 -> y i 0 + c' i 0 + u0 * (M *m delta_mx j 0 : 'cV[F]_t) i 0 = 0) <->
   (\col_i (if i == j then 0 else (x i 0 + c i 0) ^+ e)) + d + u0 *: delta_mx j 0 = 0.
  have R : M *m ((\col_i (if i == j then 0 else (x i 0 + c i 0) ^+ e)) + d + u0 *: delta_mx j 0) = y + c' + u0 *: (M *m delta_mx j 0).
    by rewrite !mulmxDr -/y mulKVmx // scalemxAr.
  split=> [H|E].
    have Z : y + c' + u0 *: (M *m delta_mx j 0) = 0.
      by apply/colP => i; have := H i; rewrite colE => /(_ (nz i)); rewrite -colE !mxE.
    by rewrite -[LHS](mulKmx Mu) R Z mulmx0.
  by move: R; rewrite E mulmx0 => R i _; have := congr1 (fun z : 'cV[F]_t => z i 0) (esym R); rewrite !mxE.
split=> [[u0 /Ez E] k kj|H].
  have := congr1 (fun z : 'cV[F]_t => z k 0) E; rewrite !mxE (negPf kj) /= mulr0 addr0 => /eqP.
  by rewrite addr_eq0 => /eqP.
exists (- d j 0); apply/Ez/colP => i; rewrite mxE [X in X + _]mxE [X in X + _ + _]mxE !mxE eqxx andbT.
case: (altP (i =P j)) => [->|ij]; first by rewrite add0r mulr1 subrr.
by rewrite H // mxE mulr0 addr0 addNr.
Qed.

(** On such a line the state after the two rounds is a multiple of one vector. *)
Theorem two_round_state x j u : (forall k, k != j -> (x k 0 + c k 0) ^+ e = - d k 0) ->
  full e M c' (full e M c (along x j u)) =
  ((x j 0 + c j 0 + u) ^+ e + d j 0) ^+ e *: (M *m powers e (M *m delta_mx j 0)).
Proof.
move=> H; rewrite first_round.
have -> : M *m (\col_i (if i == j then 0 else (x i 0 + c i 0) ^+ e)) = d j 0 *: (M *m delta_mx j 0) - c'.
  transitivity (M *m (d j 0 *: delta_mx j 0 - d)); last by rewrite mulmxBr mulKVmx // scalemxAr.
  congr (_ *m _); apply/colP => i; move: (H i); move: (d) => d' Hi; rewrite !mxE eqxx andbT.
  by case: (altP (i =P j)) Hi => [->|ij] Hi; rewrite ?mulr1 ?subrr // mulr0 add0r Hi.
rewrite [_ - c' + _]addrAC -scalerDl /full subrK [RHS]scalemxAr; congr (_ *m _).
apply/colP => i; rewrite powersE mxE [RHS]mxE powersE -exprMn; congr ((_ * _) ^+ _); exact: addrC.
Qed.

(** There is one in every direction, and only one. *)
Theorem two_round_unique j : (forall i, M i j != 0) ->
  exists x0, forall x, straight (fun z => full e M c' (full e M c z)) x (delta_mx j 0) <-> (forall k, k != j -> x k 0 = x0 k 0).
Proof.
move=> nz; have [g gK Kg] := eb; exists (\col_k (g (- d k 0) - c k 0)) => x; rewrite two_round_line //.
split=> H k kj; have := H k kj.
  by move=> E; rewrite mxE -E gK addrK.
by move=> ->; rewrite mxE subrK Kg.
Qed.
End Lines.

(** * Degrees after the two rounds *)
Section Degrees.
Variables (F : fieldType) (n e : nat) (M : 'M[F]_n.+1) (c : nat -> 'cV[F]_n.+1) (Rf Rp : nat).
Hypothesis e1 : (0 < e)%N.
Local Notation S := (fun x : F => x ^+ e).
Local Notation after := (after S M c Rf Rp).

Lemma later_degree (f : F -> 'cV[F]_n.+1) (h : F -> F) w r : (forall u, after r (f u) = h u *: w) ->
  forall k, exists P : 'I_n.+1 -> {poly F},
  forall i, (forall u, after (r + k) (f u) i 0 = (P i).[h u]) /\ (size (P i) <= (e ^ k).+1)%N.
Proof.
move=> H; elim=> [|k [P HP]].
  exists (fun i => w i 0 *: 'X) => i; rewrite addn0 expn0; split=> [u|]; first by rewrite H mxE !hornerE mulrC.
  by apply: leq_trans (size_scale_leq _ _) _; rewrite size_polyX.
pose B i : {poly F} := P i + (c (r + k) i 0)%:P.
have HB i u : before S M c Rf Rp (r + k) (f u) i 0 = (B i).[h u].
  by have [E _] := HP i; rewrite /B !hornerE -E /ActiveSpec.after [in RHS]mxE [X in _ + X + _]mxE subrK.
have sB i : (size (B i) <= (e ^ k).+1)%N.
  have [_ sp] := HP i; apply: leq_trans (size_add _ _) _; rewrite geq_max sp /=.
  by rewrite (leq_trans (size_polyC_leq1 _)).
pose Q i : {poly F} := if is_full Rf Rp (r + k) || (i == 0) then B i ^+ e else B i.
have sQ i : (size (Q i) <= (e ^ k.+1).+1)%N.
  rewrite /Q expnS; case: ifP => _; first exact: size_top_exp.
  by apply: leq_trans (sB i) _; rewrite ltnS leq_pmull.
exists (fun i => \sum_l (M i l) *: Q l) => i; rewrite addnS; split=> [u|].
- rewrite /ActiveSpec.after /= addrK mxE horner_sum; apply: eq_bigr => l _.
  by rewrite hornerZ mxE /Q; case: ifP => _; rewrite ?horner_exp HB.
- apply: leq_trans (size_sum _ _ _) _; apply/bigmax_leqP => l _.
  exact: leq_trans (size_scale_leq _ _) (sQ l).
Qed.
End Degrees.
