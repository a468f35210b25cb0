(** No subspace trails: the generated and the shipped matrices. *)
From Coq Require Import ZArith NArith.
From Bignums Require Import BigZ.
From mathcomp Require Import all_ssreflect all_algebra.
From Verif Require Import Base Fq Matrix MatrixSpec MatrixProofs Params Permutation Spec PrimeField Check CheckSound BigField.
From Verif Require Import RateChecks Cauchy SBox Shipped Alpha Transcript Mds MdsProofs MdsCauchy V1 V1Proofs V2Spec TrailsSpec Grain TrailsProofs TrailsCheck.
Set Implicit Arguments.
Unset Strict Implicit.
Unset Printing Implicit Defensive.
Import GRing.Theory.
Local Open Scope ring_scope.
Delimit Scope Z_scope with Z.

Section Rounds.
Variables (F : fieldType) (t1 : nat) (S : F -> F) (M : 'M[F]_(1 + t1)) (c : nat -> 'cV[F]_(1 + t1)).
Local Notation run k x := (foldl (fun x r => partial_round S M x (c r)) x (iota 0 k)).

Lemma partial_round_inactive (x y k : 'cV[F]_(1 + t1)) : x 0 0 = y 0 0 ->
  partial_round S M x k - partial_round S M y k = M *m (x - y).
Proof.
move=> E; rewrite /partial_round -mulmxBr; congr (_ *m _); apply/matrixP => i j; rewrite (ord1 j) !mxE.
by case: eqP => [->|_]; rewrite ?E ?subrr // opprD addrACA subrr addr0.
Qed.

Lemma partial_rounds_active (x y : 'cV[F]_(1 + t1)) : no_inactive_trail M 1 ->
  (forall k, (k < 1 + t1)%N -> (run k x + c k) 0 0 = (run k y + c k) 0 0) -> x = y.
Proof.
move=> noM H; have D k : (k <= 1 + t1)%N -> run k x - run k y = M ^+ k *m (x - y).
  elim: k => [_|k IH kt]; first by rewrite expr0 mul1mx.
  have -> : iota 0 k.+1 = iota 0 k ++ [:: k] by rewrite -[k.+1 in LHS]addn1 iotaD.
  rewrite !foldl_cat /= partial_round_inactive ?IH 1?ltnW //.
    by rewrite mulmxA exprS.
  by have := H k kt; rewrite [in LHS]mxE [in RHS]mxE => /addIr.
apply/eqP; rewrite -subr_eq0; apply/eqP/noM => k kt; rewrite mul1n -D 1?ltnW //.
by have := H k kt; rewrite !mxE => /addIr ->; rewrite subrr.
Qed.
End Rounds.

(** ** The Cauchy matrices over [Fq] *)
Lemma check_1_8 : all check_cauchy_trails (iota 1 8).
Proof. by vm_compute. Qed.
Lemma check_9_12 : all check_cauchy_trails (iota 9 4).
Proof. by vm_compute. Qed.

Lemma cauchy_trail_free n : (n < 12)%N -> trail_free (cauchy_mx Fq_fieldType n.+1) (4 * n.+1).
Proof.
move=> n12; apply: check_cauchy_trailsP.
have : n.+1 \in iota 1 8 ++ iota 9 4 by rewrite -!iotaD mem_iota.
by rewrite mem_cat; case/orP; [move/(allP check_1_8)|move/(allP check_9_12)].
Qed.

Lemma cauchy_accepted n (elements : seq Fq) : (n < 12)%N ->
  accepted (n := n) elements (cauchy_mx Fq_fieldType (1 + n)).
Proof. by move=> n12; apply: trail_free_accepted; apply: cauchy_trail_free. Qed.

(** ** Shipped parameters *)
Section Shipped.
Variable p : params Fq_fieldType.
Hypothesis hp : List.In p shipped.
Local Notation t1 := (p_t1 p).
Local Notation M := (toM (1 + t1) (1 + t1) (p_mds p)).

Lemma shipped_lt12 : (t1 < 12)%N.
Proof. by have [_ /andP [_ h] _ _ _] := shipped_spec hp; apply: leq_trans h _. Qed.

Lemma shipped_trail_free : trail_free M (4 * p_t p).
Proof.
rewrite shipped_mds //; have [-> _ _ _ _] := shipped_spec hp.
exact: cauchy_trail_free shipped_lt12.
Qed.

Lemma shipped_accepted (elements : seq Fq) : accepted elements M.
Proof. by rewrite shipped_mds //; apply: cauchy_accepted shipped_lt12. Qed.

Lemma shipped_partial_rounds (c : nat -> 'cV[Fq]_(1 + t1)) (x y : 'cV[Fq]_(1 + t1)) :
  (forall k, (k < p_t p)%N ->
    (foldl (fun x r => partial_round (fun x => x ^+ 17) M x (c r)) x (iota 0 k) + c k) 0 0 =
    (foldl (fun x r => partial_round (fun x => x ^+ 17) M x (c r)) y (iota 0 k) + c k) 0 0) -> x = y.
Proof.
have [-> _ _ _ _] := shipped_spec hp; apply: partial_rounds_active.
rewrite shipped_mds //.
by have [] := @cauchy_trail_free t1 shipped_lt12 1%N isT.
Qed.
End Shipped.

(** ** Poseidon2 internal matrices *)
Definition binternal (t : nat) : seq (seq BigZ.t) :=
  [seq [seq BigZ.of_Z (Z.of_nat (internal_entry t i j)) | j <- iota 0 t] | i <- iota 0 t].
Lemma check_internal : all (fun t => check_krylov zops bred bnz (binternal t) (be0 t) t (4 * t)) [:: 2; 3]%N.
Proof. by vm_compute. Qed.

Lemma internal_trail_free n : (n == 1%N) || (n == 2%N) -> trail_free (internal_mx Fq_fieldType n.+1) (4 * n.+1).
Proof.
move=> hn; have := allP check_internal n.+1; rewrite !inE !eqSS hn => /(_ isT) /check_krylov_phi.
rewrite be0E.
have -> : map (map phi) (binternal n.+1) = mrows (1 *: internal_mx Fq_fieldType n.+1).
  rewrite /binternal -map_comp /mrows -map_enum_iota; apply: eq_map => i.
  rewrite -map_comp -map_enum_iota; apply: eq_map => j; rewrite !mxE mul1r.
  by rewrite -Fq_of_Z_nat /= /phi BigZ.spec_of_Z.
apply: check_krylov_trails; first exact: oner_neq0.
by apply/matrixP => i j; rewrite !mxE /internal_entry eq_sym; case: eqP => [->|].
Qed.

Lemma internal_eigenvector_3 (F : fieldType) : exists x : 'cV[F]_3, x != 0 /\ internal_mx F 3 *m x = x.
Proof.
exists (\col_i [:: 1; -1; 0]`_i); split.
  by apply/eqP => /matrixP/(_ 0 0)/eqP; rewrite !mxE oner_eq0.
apply/matrixP => i j; rewrite !mxE !big_ord_recl big_ord0 !mxE /= /internal_entry.
rewrite mulr0 !addr0 mulr1 mulrN1; case: i => -[|[|[|[]]]] //= _.
- by rewrite mulr2n addrK.
- by rewrite mulr2n opprD addrA subrr sub0r.
- by rewrite subrr.
Qed.

Definition internal_root : Fq :=
  Fq_of_Z 967462732080038676776644080373137933530716538772736069270778444137285516450.
Lemma internal_eigenvector_2 : exists x : 'cV[Fq]_2, x != 0 /\ internal_mx Fq_fieldType 2 *m x = internal_root *: x.
Proof.
exists (\col_i [:: 1; internal_root - 2%:R]`_i); split.
  by apply/eqP => /matrixP/(_ 0 0)/eqP; rewrite !mxE oner_eq0.
apply/matrixP => i j; rewrite !mxE !big_ord_recl big_ord0 !mxE /= /internal_entry.
case: i => -[|[|[]]] //= _; apply: Fq_inj; by vm_compute.
Qed.

(** ** The generator *)
Lemma generated_trail_free (L : Type) (i : input L) (n : nat) (m : rmat Fq_pf) :
  in_p i = q -> in_t i = n.+1 -> v1_generate_mds Fq_pf i = Ret m -> trail_free (toM n.+1 n.+1 m) (4 * n.+1).
Proof.
move=> ip it; rewrite v1_generate_mdsE // it; case: ifP => // /andP [n8 _] [<-]; rewrite toM_ofM.
by apply: cauchy_trail_free; apply: leq_trans n8 _.
Qed.
