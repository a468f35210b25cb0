(** Active S-boxes of the shipped permutations, differential uniformity of x^17. *)
From Coq Require Import ZArith NArith Lia.
From mathcomp Require Import all_ssreflect all_algebra.
From Verif Require Import Base Fq Matrix MatrixSpec MatrixProofs Params Permutation Spec PrimeField Cauchy SBox RateChecks Shipped.
From Verif Require Import Slia Alpha Transcript Mds MdsCauchy MdsProofs V1 V1Proofs TrailsSpec TrailsShipped ActiveSpec ActiveProofs.
Set Implicit Arguments.
Unset Strict Implicit.
Unset Printing Implicit Defensive.
Import GRing.Theory.
Local Open Scope ring_scope.
Delimit Scope Z_scope with Z.

Lemma pow17_uniformity : uniformity (fun x : Fq => x ^+ 17) 16.
Proof. by apply: (@power_uniformity _ 17) => //; apply: small_Fq. Qed.

(** * A field of p elements *)
Lemma pf_card (PF : prime_field) : card_le PF (Z.to_nat (pf_p PF)).
Proof.
move=> xs u; have p1 := pf_p_gt1 PF.
have R (x : PF) : (0 <= pf_to x < pf_p PF)%Z.
  by rewrite -(pf_of_to x) pf_to_of; apply: Z.mod_pos_bound; lia.
pose g (x : PF) := Z.to_nat (pf_to x).
rewrite -(size_map g) -(size_iota 0 (Z.to_nat (pf_p PF))); apply: uniq_leq_size.
  rewrite map_inj_uniq // => x y E; rewrite -(pf_of_to x) -(pf_of_to y); congr (pf_of _ _).
  by have := R x; have := R y; move: E; rewrite /g => E; lia.
move=> _ /mapP [x _ ->]; rewrite mem_iota add0n leq0n /=; apply/ltP; have := R x; rewrite /g; lia.
Qed.

Section Shipped.
Variable p : params Fq_fieldType.
Hypothesis hp : List.In p shipped.
Local Notation t1 := (p_t1 p).
Local Notation M := (toM (1 + t1) (1 + t1) (p_mds p)).
Local Notation S17 := (fun x : Fq => x ^+ 17).
Local Notation arc := (fun r => \col_(i < 1 + t1) nth 0 (elements (p_arc p)) (r * (1 + t1) + i)).

Lemma shipped_branch : branch M (1 + t1).+1.
Proof. by rewrite (shipped_mds hp); apply: mds_branch; apply: shipped_cauchy. Qed.

Lemma shipped_active (x y : 'cV[Fq]_(1 + t1)) : x != y ->
  (4 * (1 + t1).+1 + 31 %/ (1 + t1) <= active_total S17 M arc 4 31 x y)%N.
Proof.
move=> xy; have [ht _ _ _ _] := shipped_spec hp.
have u : M \in unitmx by rewrite (shipped_mds hp); apply: mds_unit; apply: shipped_cauchy.
have noM : no_inactive_trail M 1.
  by have := shipped_trail_free hp => /(_ 1%N); rewrite ht => /(_ isT) [].
have := @active_bound _ t1 S17 M arc 4 31 x y _ (bij_inj pow17_bij) u xy shipped_branch noM.
by rewrite mulnA.
Qed.

(** The number of inputs that follow a characteristic, multiplied over all rounds *)
Lemma shipped_characteristic (a b : nat -> 'cV[Fq]_(1 + t1)) xs : characteristic_inputs (n := t1) S17 M 4 31 a b xs ->
  let k := (4 * (1 + t1).+1 + 31 %/ (1 + t1))%N in
  (Z.of_nat (\prod_(r < 39) size (xs r)) <= 16 ^ Z.of_nat k * q ^ Z.of_nat (39 * (1 + t1) - k))%Z.
Proof.
move=> H k; have [ht _ _ _ _] := shipped_spec hp.
have u : M \in unitmx by rewrite (shipped_mds hp); apply: mds_unit; apply: shipped_cauchy.
have noM : no_inactive_trail M 1.
  by have := shipped_trail_free hp => /(_ 1%N); rewrite ht => /(_ isT) [].
have [N [E16 EN HN]] : exists N, [/\ (0 < 16 <= N)%N, Z.of_nat N = q & card_le Fq_eqType N].
  exists (Z.to_nat q); split; last exact: (@pf_card Fq_pf).
    by apply/andP; split=> //; apply/leP; lia.
  by rewrite Z2Nat.id.
have := characteristic_bound pow17_uniformity HN (bij_inj pow17_bij) E16 u shipped_branch noM H.
rewrite mulnA => /(_ _ erefl); rewrite -/k -[(4 + 31 + 4)%N]/39%N => /leP/inj_le.
rewrite -multE Nat2Z.inj_mul; have X m j : Z.of_nat (m ^ j)%N = (Z.of_nat m ^ Z.of_nat j)%Z.
  elim: j => // j IH; rewrite expnS -multE Nat2Z.inj_mul IH Nat2Z.inj_succ Z.pow_succ_r //; lia.
by rewrite !X EN.
Qed.

Lemma shipped_after (x : 'cV[Fq]_(1 + t1)) : permute p (ofV x) = Ret (ofV (after S17 M arc 4 31 39 x)).
Proof. by rewrite (shipped_opt hp) (shipped_mds hp) -[39%N]/(4 + 31 + 4)%N after_poseidon. Qed.
End Shipped.

(** ** The generator *)
Lemma generated_branch (PF : prime_field) (L : Type) (i : input L) (m : rmat PF) :
  in_p i = pf_p PF -> v1_generate_mds PF i = Ret m -> branch (toM (in_t i) (in_t i) m) (in_t i).+1.
Proof.
move=> ip; rewrite v1_generate_mdsE //; case: ifP => // /andP [n8 h] [<-]; rewrite toM_ofM.
apply: mds_branch; apply: generated_mds; move: n8 => /andP [_ /leP n8]; move: h => /Z.leb_le; lia.
Qed.
