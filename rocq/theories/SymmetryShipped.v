(** The full rounds of the shipped permutations have no affine symmetries in common. *)
From Coq Require Import ZArith NArith Lia.
From Bignums Require Import BigZ.
From mathcomp Require Import all_ssreflect all_algebra.
From Verif Require Import Base Fq Matrix MatrixSpec Params Montgomery Check BigField Cauchy SBox RateChecks Shipped.
From Verif Require Import Permutation Spec ActiveSpec ActiveShipped SymmetrySpec Symmetry.
Set Implicit Arguments.
Unset Strict Implicit.
Unset Printing Implicit Defensive.
Import GRing.Theory.
Local Open Scope ring_scope.
Delimit Scope Z_scope with Z.
Delimit Scope N_scope with num.

(** * The constants *)
Definition nonzero (z : BigZ.t) : bool := negb (BigZ.eqb (BigZ.modulo z bq) BigZ.zero).
Lemma nonzeroP z : nonzero z -> phi z != 0.
Proof.
rewrite /nonzero BigZ.spec_eqb BigZ.spec_modulo bqE => /negP h; apply/negP; rewrite /phi Fq_of_Z_eq0; exact: h.
Qed.
Definition word (r : params limbs) (k : nat) : BigZ.t := nth BigZ.zero (map bmont (elements (p_arc r))) k.
Definition generic_at (r : params limbs) (k : nat) : bool :=
  nonzero (word r (k * (1 + p_t1 r))) &&
  (if p_t1 r is 1 then
     nonzero (osub bops (omul bops (word r (k * 2)) (word r (k * 2)))
                        (omul bops (onat bops 2) (omul bops (word r (k * 2 + 1)) (word r (k * 2 + 1)))))
   else true).
Lemma all_generic : all (fun r => all (generic_at r) (iota 0 39)) shipped_raw = true.
Proof. vm_cast_no_check (erefl true). Qed.

Lemma phi_word r k : phi (word r k) = nth 0 (elements (p_arc (from_montgomery_params r))) k.
Proof.
rewrite /word; have -> : elements (p_arc (from_montgomery_params r)) = map from_montgomery_limbs (elements (p_arc r)) by [].
by elim: (elements _) k => [|l ls IH] [|k] //=; rewrite ?IH // phi_bmont.
Qed.

Lemma compose (F : fieldType) t (f g h : 'cV[F]_t -> 'cV[F]_t) A0 a0 A1 a1 A2 a2 :
  (forall x, h x = g (f x)) -> (forall y, exists x, f x = y) ->
  carries f A0 a0 A1 a1 -> carries h A0 a0 A2 a2 -> carries g A1 a1 A2 a2.
Proof. by move=> E on C1 H y; have [x <-] := on y; rewrite -C1 -!E. Qed.

Section Shipped.
Variable p : params Fq_fieldType.
Hypothesis hp : List.In p shipped.
Local Notation t1 := (p_t1 p).
Local Notation M := (toM (1 + t1) (1 + t1) (p_mds p)).
Local Notation S17 := (fun x : Fq => x ^+ 17).
Local Notation arc := (fun r => \col_(i < 1 + t1) nth 0 (elements (p_arc p)) (r * (1 + t1) + i)).

Lemma shipped_generic k : (k < 39)%N -> generic (arc k).
Proof.
move=> k39; have [r hr E] := shipped_rawP hp.
have := all_In all_generic hr => /allP /(_ k); rewrite mem_iota => /(_ k39) /andP [h1 h2].
have T : p_t1 r = t1 by rewrite E.
have A m : nth 0 (elements (p_arc p)) m = phi (word r m) by rewrite phi_word E.
rewrite T in h1 h2; split.
  apply/eqP => /colP /(_ 0); rewrite !mxE A addn0; apply/eqP; exact: nonzeroP h1.
move=> t2 i j ij; have t1E : t1 = 1%N by case: t2.
have [i0 j1] : nat_of_ord i = 0%N /\ nat_of_ord j = 1%N.
  have B (o : 'I_(1 + t1)) : (val o < 2)%N by rewrite -t2; exact: ltn_ord.
  have li := B i; have lj := B j; move: ij li lj; rewrite /=.
  by case: (nat_of_ord i) => [|[|a]]; case: (nat_of_ord j) => [|[|b]].
rewrite t1E in h2; have := nonzeroP h2; rewrite phi_sub !phi_mul phi_nat => {}h2.
rewrite !mxE !A i0 j1 t2 addn0 -subr_eq0 !expr2; exact: h2.
Qed.

Lemma small_N (a b : N) : (a < 2 ^ 20)%num -> (b < 2 ^ 20)%num -> (N.to_nat a)%:R = (N.to_nat b)%:R :> Fq -> a = b.
Proof.
move=> ha hb; rewrite -!Fq_of_Z_nat !N_nat_Z => /eqP; rewrite -subr_eq0 -Fq_of_Z_sub Fq_of_Z_eq0 => /Z.eqb_eq.
move/Z.mod_divide => /(_ ltac:(by [])) [k E].
have q20 : (2 ^ 20 < q)%Z by [].
have -> : a = Z.to_N (Z.of_N a) by rewrite N2Z.id.
have -> : b = Z.to_N (Z.of_N b) by rewrite N2Z.id.
move: q20 E; move: (q) => Q q20 E; congr Z.to_N.
have ha' : (0 <= Z.of_N a < 2 ^ 20)%Z by lia. have hb' : (0 <= Z.of_N b < 2 ^ 20)%Z by lia.
have : k = 0%Z by nia.
by move=> k0; rewrite k0 in E; lia.
Qed.

Lemma small_nat (i j : nat) : (i < 18)%N -> (j < 18)%N -> i%:R = j%:R :> Fq -> i = j.
Proof.
move=> /ltP hi /ltP hj E; apply: Nat2N.inj; apply: small_N; rewrite ?Nat2N.id //; clear -hi hj; lia.
Qed.
Definition points : seq Fq := [seq i%:R | i <- iota 0 18].
Lemma points_uniq : uniq points.
Proof.
rewrite map_inj_in_uniq ?iota_uniq // => i j; rewrite !mem_iota => hi hj; exact: small_nat.
Qed.
Lemma t8 : (2 <= t1.+1 <= 8)%N.
Proof. by have [_ h _ _ _] := shipped_spec hp; rewrite !ltnS. Qed.

Lemma shipped_unit : M \in unitmx.
Proof. by rewrite (shipped_mds hp); apply: mds_unit; apply: shipped_cauchy. Qed.

Theorem shipped_rounds k A0 a0 A1 a1 A2 a2 : (k < 38)%N -> A0 \in unitmx ->
  carries (full 17 M (arc k)) A0 a0 A1 a1 -> carries (full 17 M (arc k.+1)) A1 a1 A2 a2 ->
  [/\ A0 = 1%:M /\ a0 = 0, A1 = 1%:M /\ a1 = 0 & A2 = 1%:M /\ a2 = 0].
Proof.
move=> k38 u; have Mu := shipped_unit; rewrite (shipped_mds hp) in Mu *.
have g := @shipped_generic k.+1 k38.
have e0 : (17%:R : Fq) != 0 by apply: small_Fq.
exact: (@two_rounds Fq_fieldType 17 points isT e0 points_uniq erefl (bij_inj pow17_bij) t1 t8 small_N Mu _ _ _ _ _ _ _ _ g u).
Qed.

Lemma shipped_full r x : is_full 4 31 r -> after S17 M arc 4 31 r.+1 x = full 17 M (arc r) (after S17 M arc 4 31 r x).
Proof.
move=> h; rewrite /after /full subrK [before _ _ _ _ _ r.+1 x]/= h addrK; congr (_ *m _).
Qed.

Lemma full_onto c y : exists x, full 17 M c x = y.
Proof.
have [g _ Kg] := pow17_bij; exists (\col_i g ((invmx M *m y) i 0) - c); rewrite /full subrK.
have -> : powers 17 (\col_i g ((invmx M *m y) i 0)) = invmx M *m y by apply/colP => i; rewrite powersE mxE Kg.
by rewrite mulKVmx // shipped_unit.
Qed.

Theorem shipped_inputs A0 a0 A1 a1 A2 a2 : A0 \in unitmx ->
  carries (after S17 M arc 4 31 1) A0 a0 A1 a1 -> carries (after S17 M arc 4 31 2) A0 a0 A2 a2 -> A0 = 1%:M /\ a0 = 0.
Proof.
have Z x : after S17 M arc 4 31 0 x = x by rewrite /after /= addrK.
move=> u H1 H2.
have E1 y : after S17 M arc 4 31 1 y = full 17 M (arc 0%N) y.
  exact: (eq_trans (@shipped_full 0%N y isT) (congr1 (full 17 M (arc 0%N)) (Z y))).
have E2 y : after S17 M arc 4 31 2 y = full 17 M (arc 1%N) (full 17 M (arc 0%N) y).
  exact: (eq_trans (@shipped_full 1%N y isT) (congr1 (full 17 M (arc 1%N)) (E1 y))).
have C1 : carries (full 17 M (arc 0%N)) A0 a0 A1 a1.
  by move=> x; have := H1 x; rewrite (E1 (A0 *m x + a0)) (E1 x).
have C2 : carries (full 17 M (arc 1%N)) A1 a1 A2 a2.
  exact: (compose E2 (full_onto (arc 0%N)) C1 H2).
have [E _ _] := shipped_rounds (isT : (0 < 38)%N) u C1 C2; exact: E.
Qed.
End Shipped.
