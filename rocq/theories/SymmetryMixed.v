(** Full and partial rounds of the shipped permutations. *)
From Coq Require Import ZArith NArith Lia.
From Bignums Require Import BigZ.
From mathcomp Require Import all_ssreflect all_algebra.
From Verif Require Import Base Fq Matrix MatrixSpec Params Montgomery Check BigField Cauchy SBox RateChecks Shipped.
From Verif Require Import Permutation Spec ActiveSpec ActiveShipped SymmetrySpec Symmetry SymmetryShipped SymmetryPartial.
Set Implicit Arguments.
Unset Strict Implicit.
Unset Printing Implicit Defensive.
Import GRing.Theory.
Local Open Scope ring_scope.
Delimit Scope Z_scope with Z.

(** * Multiples of the first columns of the inverses *)
Definition column (t : nat) : seq Z := nth [::] [:: [::]; [::];
  [:: 3; -4]; [:: 10; -30; 21]; [:: 35; -168; 252; -120]; [:: 126; -840; 1980; -1980; 715];
  [:: 462; -3960; 12870; -20020; 15015; -4368]; [:: 1716; -18018; 75075; -160160; 185640; -111384; 27132];
  [:: 6435; -80080; 408408; -1113840; 1763580; -1627920; 813960; -170544]]%Z t.
Definition common : Z := 232792560.
Definition at_ (t k : nat) : Z := nth 0%Z (column t) k.
Definition total (f : nat -> Z) (l : seq nat) : Z := foldr (fun k a => (f k + a)%Z) 0%Z l.
Definition row_total (t i : nat) : Z := total (fun k => at_ t k * (common / Z.of_nat (i + t + k)))%Z (iota 0 t).
Definition divides (t i : nat) : bool :=
  all (fun k => Z.eqb (Z.of_nat (i + t + k) * (common / Z.of_nat (i + t + k))) common) (iota 0 t).
Definition column_ok (t : nat) : bool :=
  [&& all (divides t) (iota 0 t),
      all (fun i => Z.eqb (row_total t i) 0) (iota 1 t.-1)
    & all (fun j => all (fun k => (j == k) ||
        negb (Z.eqb ((Z.of_nat (k + t) * at_ t j - Z.of_nat (j + t) * at_ t k) mod q) 0)) (iota 0 t)) (iota 0 t)].
Lemma columns : all column_ok (iota 2 7).
Proof. by vm_compute. Qed.

Lemma totalE f l : Fq_of_Z (total f l) = \sum_(k <- l) Fq_of_Z (f k).
Proof. by elim: l => [|k l IH]; rewrite ?big_nil // big_cons -IH -Fq_of_Z_add. Qed.
Definition Wc (t : nat) : 'cV[Fq]_t := \col_k Fq_of_Z (at_ t k).

Lemma ord_iota (R : ringType) t (f : nat -> R) : \sum_(k < t) f k = \sum_(k <- iota 0 t) f k.
Proof. by rewrite -[t in iota _ t]subn0 -/(index_iota 0 t) big_mkord. Qed.

Lemma common_neq0 : Fq_of_Z common != 0.
Proof. by rewrite Fq_of_Z_eq0. Qed.

Section Column.
Variable n : nat.
Local Notation t := n.+1.
Hypothesis t8 : (2 <= t <= 8)%N.
Lemma this_column : column_ok t.
Proof. by have := allP columns t; rewrite mem_iota; apply. Qed.
Definition first_total : Fq := Fq_of_Z (row_total t 0) / Fq_of_Z common.

Lemma Wc_column : cauchy_mx Fq_fieldType t *m Wc t = first_total *: delta_mx 0 0.
Proof.
have /and3P [D Z _] := this_column.
have E (i : 'I_t) : (cauchy_mx Fq_fieldType t *m Wc t) i 0 = Fq_of_Z (row_total t i) / Fq_of_Z common.
  rewrite mxE /row_total totalE -(@ord_iota _ t (fun k => Fq_of_Z (at_ t k * (common / Z.of_nat (i + t + k)))%Z)) big_distrl /=.
  apply: eq_bigr => k _; rewrite !mxE Fq_of_Z_mul mulrC -mulrA; congr (_ * _).
  have := allP D i; rewrite mem_iota add0n ltn_ord => /(_ isT) /allP /(_ k); rewrite mem_iota add0n ltn_ord => /(_ isT) /Z.eqb_eq h.
  have := congr1 Fq_of_Z h; rewrite Fq_of_Z_mul Fq_of_Z_nat => {}h.
  have := common_neq0; rewrite -h mulf_eq0 negb_or => /andP [h1 h2].
  by rewrite invfM mulrCA (mulfV h2) mulr1.
apply/colP => i; rewrite E mxE [delta_mx _ _ _ _]mxE eqxx andbT; case: (eqVneq i 0) => [->|i0]; first by rewrite mulr1.
have : row_total t i = 0%Z.
  have := allP Z i; rewrite mem_iota add1n ltn_ord andbT lt0n => /(_ i0) /Z.eqb_eq; exact.
by move=> ->; rewrite mulr0 -[Fq_of_Z 0]/(0 : Fq) mul0r.
Qed.
Lemma Wc_distinct (j k : 'I_t) : (k + t)%:R * Wc t j 0 = (j + t)%:R * Wc t k 0 -> j = k.
Proof.
have /and3P [_ _ D] := this_column; have := allP D j; rewrite mem_iota add0n ltn_ord => /(_ isT) /allP /(_ k).
rewrite mem_iota add0n ltn_ord => /(_ isT) /orP [/eqP h _|/negP h E]; first exact: val_inj.
case: h; rewrite -Fq_of_Z_eq0 Fq_of_Z_sub !Fq_of_Z_mul !Fq_of_Z_nat subr_eq0; move: E; rewrite !mxE => ->; exact: eqxx.
Qed.
End Column.

(** * The constants *)
Definition weighted (r : params limbs) (m : nat) : BigZ.t :=
  foldr (fun k a => oadd bops (omul bops (BigZ.of_Z (at_ (1 + p_t1 r) k)) (word r (m * (1 + p_t1 r) + k))) a)
    BigZ.zero (iota 0 (1 + p_t1 r)).
Lemma all_weighted : all (fun r => all (fun m => nonzero (weighted r m)) (iota 0 39)) shipped_raw = true.
Proof. vm_cast_no_check (erefl true). Qed.
Lemma phi_weighted r m : phi (weighted r m) =
  \sum_(k <- iota 0 (1 + p_t1 r)) Fq_of_Z (at_ (1 + p_t1 r) k) * phi (word r (m * (1 + p_t1 r) + k)).
Proof.
rewrite /weighted; elim: (iota _ _) => [|k l IH]; first by rewrite big_nil.
by rewrite big_cons -IH [foldr _ _ _]/= phi_add phi_mul /phi BigZ.spec_of_Z.
Qed.

Section Shipped.
Variable p : params Fq_fieldType.
Hypothesis hp : List.In p shipped.
Local Notation t1 := (p_t1 p).
Local Notation M := (toM (1 + t1) (1 + t1) (p_mds p)).
Local Notation S17 := (fun x : Fq => x ^+ 17).
Local Notation arc := (fun r => \col_(i < 1 + t1) nth 0 (elements (p_arc p)) (r * (1 + t1) + i)).

Lemma first_word k : (k < 39)%N -> (arc k) 0 0 != 0.
Proof.
move=> k39; have [r hr E] := shipped_rawP hp.
have := all_In all_generic hr => /allP /(_ k); rewrite mem_iota => /(_ k39) /andP [h1 _].
have T : p_t1 r = t1 by rewrite E.
have A m : nth 0 (elements (p_arc p)) m = phi (word r m) by rewrite phi_word E.
by rewrite T in h1; rewrite mxE A addn0; exact: nonzeroP h1.
Qed.
Lemma weighted_word m : (m < 39)%N -> \sum_k Wc (1 + t1) k 0 * (arc m) k 0 != 0.
Proof.
move=> m39; have [r hr E] := shipped_rawP hp.
have := all_In all_weighted hr => /allP /(_ m); rewrite mem_iota => /(_ m39) /nonzeroP; rewrite phi_weighted.
have T : p_t1 r = t1 by rewrite E.
have A k : nth 0 (elements (p_arc p)) k = phi (word r k) by rewrite phi_word E.
rewrite T -(@ord_iota _ (1 + t1) (fun k => Fq_of_Z (at_ (1 + t1) k) * phi (word r (m * (1 + t1) + k)))).
by rewrite (eq_bigr (fun k => Wc (1 + t1) k 0 * (arc m) k 0)) // => k _; rewrite !mxE A.
Qed.

Lemma entries_nz (i j : 'I_t1.+1) : (i + t1.+1 + j)%:R != 0 :> Fq.
Proof.
have := t8 hp; move: (t1) i j => n i j /andP [_ n8]; apply: small_Fq.
have := ltn_ord i; have := ltn_ord j; move: n8; case: i => i /= _; case: j => j /= _; clear.
by move=> /leP n8 /ltP hj /ltP hi; apply/andP; split; apply/ltP; rewrite -!plusE; lia.
Qed.

Lemma e17 : (17%:R : Fq) != 0. Proof. by apply: small_Fq. Qed.

Theorem shipped_full_partial k k' A0 a0 A1 a1 A2 a2 : (k' < 39)%N -> A0 \in unitmx ->
  carries (full 17 M (arc k)) A0 a0 A1 a1 -> carries (partial 17 M (arc k')) A1 a1 A2 a2 ->
  [/\ A0 = 1%:M /\ a0 = 0, A1 = 1%:M /\ a1 = 0 & A2 = 1%:M /\ a2 = 0].
Proof.
move=> k38 u; have Mu := shipped_unit hp; rewrite (shipped_mds hp) in Mu *.
exact: (@full_partial Fq_fieldType 17 (points) isT e17 (points_uniq) erefl (bij_inj pow17_bij) t1 Mu entries_nz
  (Wc t1.+1) _ (Wc_column (t8 hp)) (Wc_distinct (t8 hp)) _ _ _ _ _ _ _ _ (first_word k38) u).
Qed.

Theorem shipped_partial_full k k' A0 a0 A1 a1 A2 a2 : (k' < 39)%N -> A0 \in unitmx ->
  carries (partial 17 M (arc k)) A0 a0 A1 a1 -> carries (full 17 M (arc k')) A1 a1 A2 a2 ->
  [/\ A0 = 1%:M /\ a0 = 0, A1 = 1%:M /\ a1 = 0 & A2 = 1%:M /\ a2 = 0].
Proof.
move=> k38 u; have Mu := shipped_unit hp; rewrite (shipped_mds hp) in Mu *.
exact: (@partial_full Fq_fieldType 17 (points) isT e17 (points_uniq) erefl (bij_inj pow17_bij) t1 Mu entries_nz
  (Wc t1.+1) _ (Wc_column (t8 hp)) (Wc_distinct (t8 hp)) _ _ _ _ _ _ _ _ (weighted_word k38) u).
Qed.

(** * Neighbouring rounds of the permutation *)
Definition round (r : nat) : 'cV[Fq]_(1 + t1) -> 'cV[Fq]_(1 + t1) :=
  if is_full 4 31 r then full 17 M (arc r) else partial 17 M (arc r).
Lemma shipped_round r x : after S17 M arc 4 31 r.+1 x = round r (after S17 M arc 4 31 r x).
Proof.
rewrite /round; case: ifP => h; first exact: shipped_full.
rewrite /after /partial subrK [before _ _ _ _ _ r.+1 x]/= h addrK; congr (_ *m _).
Qed.
Theorem shipped_neighbours r A0 a0 A1 a1 A2 a2 : (r < 38)%N -> is_full 4 31 r || is_full 4 31 r.+1 -> A0 \in unitmx ->
  carries (round r) A0 a0 A1 a1 -> carries (round r.+1) A1 a1 A2 a2 ->
  [/\ A0 = 1%:M /\ a0 = 0, A1 = 1%:M /\ a1 = 0 & A2 = 1%:M /\ a2 = 0].
Proof.
move=> r38; rewrite /round; case: (is_full 4 31 r); case: (is_full 4 31 r.+1) => // _ u.
- exact: shipped_rounds.
- exact: shipped_full_partial.
- exact: shipped_partial_full.
Qed.
Lemma in_range r : (r < 4)%N || (34 <= r < 38)%N -> (r < 38)%N /\ (is_full 4 31 r || is_full 4 31 r.+1).
Proof.
case/orP => [h|/andP [h1 h2]]; first by split; [exact: leq_trans h _ | rewrite /is_full h].
by split=> //; have h : (4 + 31 <= r.+1)%N by []; rewrite /is_full h !orbT.
Qed.
Theorem shipped_ends r A0 a0 A1 a1 A2 a2 : (r < 4)%N || (34 <= r < 38)%N -> A0 \in unitmx ->
  carries (round r) A0 a0 A1 a1 -> carries (round r.+1) A1 a1 A2 a2 ->
  [/\ A0 = 1%:M /\ a0 = 0, A1 = 1%:M /\ a1 = 0 & A2 = 1%:M /\ a2 = 0].
Proof. by move=> /in_range [h1 h2]; apply: shipped_neighbours. Qed.
End Shipped.
