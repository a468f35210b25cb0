(** The lines that pass two rounds as lines are those through the state that the rounds map
    to 0; these states for the shipped permutations. *)
From Coq Require Import ZArith NArith Lia.
From Bignums Require Import BigZ.
From mathcomp Require Import all_ssreflect all_algebra.
From Verif Require Import Base Fq Matrix MatrixSpec MatrixProofs Params Montgomery Check BigField Permutation PermutationProofs Spec Cauchy SBox RateChecks Shipped PoseidonProps.
From Verif Require Import ActiveSpec ActiveProofs ActiveShipped DegreeSpec DegreeProofs DegreeShipped.
From Verif Require Import SymmetrySpec Symmetry SymmetryShipped SymmetryMixed BypassSpec Bypass BypassShipped BypassTable.
Set Implicit Arguments.
Unset Strict Implicit.
Unset Printing Implicit Defensive.
Import GRing.Theory.
Local Open Scope ring_scope.
Delimit Scope Z_scope with Z.

Section Zero.
Variables (F : fieldType) (e : nat) (rs : seq F).
Hypotheses (e2 : (2 <= e)%N) (e0 : e%:R != 0 :> F) (urs : uniq rs) (srs : size rs = e.+1).
Variable t : nat.
Hypothesis eb : bijective (fun z : F => z ^+ e).
Variables (M : 'M[F]_t) (c c' : 'cV[F]_t).
Hypothesis Mu : M \in unitmx.
Local Notation two := (fun z => full e M c' (full e M c z)).

Lemma two_zero x : two x = 0 -> forall k, (x k 0 + c k 0) ^+ e = - (invmx M *m c') k 0.
Proof.
move=> H k; have P : powers e (full e M c x + c') = 0 by rewrite -[LHS](mulKmx Mu) -/(full e M c' _) H mulmx0.
have Y : full e M c x = - c'.
  apply/eqP; rewrite -addr_eq0; apply/eqP/colP => i; have := congr1 (fun z : 'cV[F]_t => z i 0) P.
  by rewrite powersE [in RHS]mxE => /eqP; rewrite expf_eq0 => /andP [_ /eqP ->]; rewrite mxE.
have := congr1 (fun z => (invmx M *m z : 'cV[F]_t) k 0) Y; rewrite /full mulKmx // powersE mulmxN.
have -> : (x + c) k 0 = x k 0 + c k 0 by rewrite mxE.
by move=> ->; rewrite mxE.
Qed.

Theorem zero_line x j : (forall i, M i j != 0) ->
  straight two x (delta_mx j 0) <-> exists u, two (x + u *: delta_mx j 0) = 0.
Proof.
move=> nz; have [g gK Kg] := eb; rewrite (two_round_line e2 e0 urs srs eb c c' Mu x nz); split=> [H|[u H] k kj].
  exists (g (- (invmx M *m c') j 0) - (x j 0 + c j 0)); rewrite (two_round_state (c := c) (c' := c') Mu _ H).
  by rewrite [X in (X ^+ e + _) ^+ e]addrC subrK Kg addNr zero_exp // scale0r.
by have := two_zero H k; rewrite pointE mxE (negPf kj) mulr0 addr0.
Qed.
End Zero.

(** * The table *)
Definition state_word (t k : nat) : Z := nth 0%Z (nth [::] zero_states t) k.
Definition bpow17 (b : BigZ.t) : BigZ.t :=
  let sq a := omul bops a a in omul bops (sq (sq (sq (sq b)))) b.
Lemma phi_pow17 b : phi (bpow17 b) = phi b ^+ 17.
Proof. by rewrite /bpow17 !phi_mul /= -!expr2 -!exprM -exprSr. Qed.

Definition one_word (r : params limbs) (k : nat) : BigZ.t :=
  head BigZ.zero (map bmont (take 1 (drop k (elements (p_arc r))))).
Lemma one_wordE r k : one_word r k = word r k.
Proof. by rewrite /one_word /word; elim: (elements _) k => [|l ls IH] [|k] //=; rewrite take0. Qed.
Lemma phi_sum (f : nat -> BigZ.t) z l :
  phi (foldr (fun k a => oadd bops (f k) a) z l) = \sum_(k <- l) phi (f k) + phi z.
Proof.
elim: l => [|k l IH]; first by rewrite big_nil add0r.
by rewrite big_cons -addrA -IH -[RHS]/(oadd fops _ _) -phi_add.
Qed.
Definition zero_term (r : params limbs) (t i k : nat) : BigZ.t :=
  omul bops (BigZ.of_Z (common / Z.of_nat (i + t + k))) (bpow17 (oadd bops (BigZ.of_Z (state_word t k)) (one_word r k))).
Definition zero_const (r : params limbs) (t i : nat) : BigZ.t := omul bops (BigZ.of_Z common) (one_word r (t + i)).
Definition zero_row (r : params limbs) (t i : nat) : BigZ.t :=
  foldr (fun k a => oadd bops (zero_term r t i k) a) (zero_const r t i) (iota 0 t).
Lemma all_zero_rows :
  all (fun r => all (fun i => BigZ.eqb (zero_row r (1 + p_t1 r) i) BigZ.zero) (iota 0 (1 + p_t1 r))) shipped_raw = true.
Proof. vm_cast_no_check (erefl true). Qed.
Lemma phi_of_Z z : phi (BigZ.of_Z z) = Fq_of_Z z.
Proof. exact (congr1 Fq_of_Z (BigZ.spec_of_Z z)). Qed.
Lemma phi_zero_term r t i k : phi (zero_term r t i k) =
  Fq_of_Z (common / Z.of_nat (i + t + k)) * (Fq_of_Z (state_word t k) + phi (word r k)) ^+ 17.
Proof.
rewrite /zero_term phi_mul phi_pow17 phi_add one_wordE.
by rewrite (phi_of_Z (common / Z.of_nat (i + t + k))) (phi_of_Z (state_word t k)).
Qed.
Lemma phi_zero_const r t i : phi (zero_const r t i) = Fq_of_Z common * phi (word r (t + i)).
Proof. by rewrite /zero_const phi_mul one_wordE (phi_of_Z common). Qed.
Lemma phi_zero_row r t i : phi (zero_row r t i) =
  \sum_(k <- iota 0 t) Fq_of_Z (common / Z.of_nat (i + t + k)) * (Fq_of_Z (state_word t k) + phi (word r k)) ^+ 17
  + Fq_of_Z common * phi (word r (t + i)).
Proof.
rewrite /zero_row phi_sum phi_zero_const; congr (_ + _); apply: eq_bigr => k _; exact: phi_zero_term.
Qed.

Section Shipped.
Variable p : params Fq_fieldType.
Hypothesis hp : List.In p shipped.
Local Notation t1 := (p_t1 p).
Local Notation M := (toM (1 + t1) (1 + t1) (p_mds p)).
Local Notation S17 := (fun x : Fq => x ^+ 17).
Local Notation arc := (fun r => \col_(i < 1 + t1) nth 0 (elements (p_arc p)) (r * (1 + t1) + i)).
Definition zero_state : 'cV[Fq]_(1 + t1) := \col_k Fq_of_Z (state_word (1 + t1) k).

Theorem shipped_zero_line (x : 'cV[Fq]_(1 + t1)) j :
  straight (after S17 M arc 4 31 2) x (delta_mx j 0) <-> exists u, after S17 M arc 4 31 2 (x + u *: delta_mx j 0) = 0.
Proof.
have := @zero_line Fq_fieldType 17 (points) isT e17 (points_uniq) erefl _ pow17_bij M (arc 0%N) (arc 1%N) (shipped_unit hp) x j
  (fun i => shipped_entries hp i j) => H.
split=> [[y [w E]]|[u E]].
  have /(proj1 H) [u Eu] : straight (fun z => full 17 M (arc 1%N) (full 17 M (arc 0%N) z)) x (delta_mx j 0).
    by exists y, w => z; have [s Es] := E z; exists s; rewrite -Es first_two.
  by exists u; rewrite first_two.
rewrite first_two in E; have [y [w Ey]] := proj2 H (ex_intro _ u E).
by exists y, w => z; have [s Es] := Ey z; exists s; rewrite first_two.
Qed.

Theorem shipped_zero_state : after S17 M arc 4 31 2 zero_state = 0.
Proof.
rewrite first_two; suff Y : full 17 M (arc 0%N) zero_state = - arc 1%N.
  rewrite Y /full addNr (_ : powers 17 0 = 0) ?mulmx0 //.
  by apply/colP => i; rewrite powersE !mxE expr0n.
have [r hr E] := shipped_rawP hp.
have T : p_t1 r = t1 by rewrite E.
have A k : nth 0 (elements (p_arc p)) k = phi (word r k) by rewrite phi_word E.
have /and3P [D _ _] := @this_column t1 (t8 hp).
apply/colP => i; have := all_In all_zero_rows hr; rewrite T => /allP /(_ (val i)).
rewrite mem_iota add0n ltn_ord => /(_ isT) h.
have {h} : phi (zero_row r (1 + t1) i) = 0 by have /eqP -> := phi_eq h.
rewrite phi_zero_row => h; have c0 := common_neq0; apply: (mulfI c0); rewrite [(- arc 1%N) i 0]mxE.
rewrite mulrN [(arc 1%N) i 0]mxE A mul1n; apply/eqP; rewrite -addr_eq0 -[X in _ == X]h; apply/eqP.
congr (_ + _).
rewrite -(@ord_iota _ (1 + t1) (fun k => Fq_of_Z (common / Z.of_nat (i + (1 + t1) + k)) *
    (Fq_of_Z (state_word (1 + t1) k) + phi (word r k)) ^+ 17)).
rewrite /full (shipped_mds hp) mxE big_distrr /=; apply: eq_bigr => k _.
rewrite powersE ![in LHS]mxE A mul0n add0n mulrA; congr (_ * _).
have := allP D i; rewrite mem_iota add0n ltn_ord => /(_ isT) /allP /(_ k); rewrite mem_iota add0n ltn_ord => /(_ isT) /Z.eqb_eq g.
have := congr1 Fq_of_Z g; rewrite Fq_of_Z_mul Fq_of_Z_nat => {}g.
have := common_neq0; rewrite -g mulf_eq0 negb_or => /andP [h1 _].
by rewrite mulrAC mulfV // mul1r.
Qed.

(** The lines through that state along the words, and no others *)
Theorem shipped_zero_lines (x : 'cV[Fq]_(1 + t1)) j :
  straight (after S17 M arc 4 31 2) x (delta_mx j 0) <-> (forall k, k != j -> x k 0 = zero_state k 0).
Proof.
have [x0 H] := shipped_first_two hp j; rewrite H.
have Z : straight (after S17 M arc 4 31 2) zero_state (delta_mx j 0).
  by apply/shipped_zero_line; exists 0; rewrite scale0r addr0 shipped_zero_state.
by split=> E k kj; rewrite E // (proj1 (H zero_state) Z).
Qed.
End Shipped.

(** The hashes with these words *)
Theorem hash_zero_state n j : (1 < n <= 8)%N -> (j < n)%N ->
  exists (a b : Fq) (Q : {poly Fq}), size Q = (17 ^ 37).+1 /\
    forall u, hash_on (set_nth 0 (map Fq_of_Z (nth [::] zero_states n)) j u) = Ret Q.[((u + a) ^+ 17 + b) ^+ 17].
Proof.
move=> hn hj; have sz0 : size (nseq n (0 : Fq)) = n by rewrite size_nseq.
have [|p [hp ht E]] := @hash_onE (nseq n 0); first by rewrite sz0.
have [ht1 /andP [h1 _] _ _ _] := shipped_spec hp; rewrite sz0 ht1 in ht E.
rewrite -ht in hj; have hi : (1 < 1 + p_t1 p)%N by [].
have st := proj2 (shipped_zero_lines hp (zero_state p) (Ordinal hj)) (fun _ _ => erefl).
have [Q sQ hQ] := shipped_bypass hp (Ordinal hi) st (leqnn 37).
move: hQ; set a := (\col_i _) _ _; set b := (invmx _ *m _) _ _ => hQ.
have sz : size (nth [::] zero_states n) = n.
  by move: hn; clear; case: n => [|[|[|[|[|[|[|[|[|n]]]]]]]]].
have EV : map Fq_of_Z (nth [::] zero_states n) = ofV (zero_state p).
  apply: (@eq_from_nth _ 0); first by rewrite size_map size_ofV ht.
  move=> k; rewrite size_map sz => hk; have hk' : (k < 1 + p_t1 p)%N by rewrite ht.
  by rewrite (nth_map 0%Z) ?sz // -[k in RHS]/(val (Ordinal hk')) nth_ofV mxE /state_word -[nat_of_ord _]/k ht.
exists a, b, Q; split=> [|u]; first exact: sQ.
rewrite EV -hQ E; last by rewrite size_set_nth size_ofV ht; apply/maxn_idPr; rewrite -ht.
rewrite /textbook_hash -[j in set_nth _ _ j]/(val (Ordinal hj)) toV_set -(shipped_mds hp) toV_ofV.
by rewrite (nth_ofV _ (Ordinal hi)) -[39%N]/(4 + 31 + 4)%N after_poseidon.
Qed.
