(** vendor/generate_mds.sage with SHA-256: the attempts of its five instances. *)
From Coq Require Import ZArith String.
From Bignums Require Import BigZ.
From mathcomp Require Import all_ssreflect all_algebra.
From Verif Require Import Base Fq FqFinite PrimeField BigField EigenCheck Sha256 MdsRunData.
From Verif Require Import GenerateMds GenerateMdsSpec GenerateMdsProofs GenerateMdsRounds GenerateMdsTheorems.
Set Implicit Arguments.
Unset Strict Implicit.
Unset Printing Implicit Defensive.
Import GRing.Theory.
Local Open Scope ring_scope.
Delimit Scope Z_scope with Z.

Definition X (i : nat) : Fq := generate_round_constant "HadesMDSx" i.
Definition Y (i : nat) : Fq := generate_round_constant "HadesMDSy" i.

Lemma sha_xE : [seq Z.of_N (sha256 (encode (name_index "HadesMDSx" i))) | i <- iota 0 12] = sha_x.
Proof. by vm_compute. Qed.
Lemma sha_yE : [seq Z.of_N (sha256 (encode (name_index "HadesMDSy" i))) | i <- iota 0 12] = sha_y.
Proof. by vm_compute. Qed.
Lemma XE i : (i < 12)%N -> X i = Fq_of_Z (nth 0%Z sha_x i).
Proof. by move=> hi; rewrite -sha_xE (nth_map 0%N) ?size_iota // nth_iota. Qed.
Lemma YE i : (i < 12)%N -> Y i = Fq_of_Z (nth 0%Z sha_y i).
Proof. by move=> hi; rewrite -sha_yE (nth_map 0%N) ?size_iota // nth_iota. Qed.

Lemma sha_distinct : uniq [seq (z mod q)%Z | z <- sha_x ++ sha_y].
Proof. by vm_compute. Qed.
Lemma residue (i j : nat) : (i < 24)%N -> (j < 24)%N ->
  Fq_of_Z (nth 0%Z (sha_x ++ sha_y) i) = Fq_of_Z (nth 0%Z (sha_x ++ sha_y) j) -> i = j.
Proof.
move=> hi hj /(congr1 fval) /= E.
have s24 : size (sha_x ++ sha_y) = 24%N by [].
apply/eqP; rewrite -(nth_uniq 0%Z _ _ sha_distinct) ?size_map ?s24 //.
by rewrite !(nth_map 0%Z) ?s24 // E.
Qed.
Lemma XX i j : (i < 12)%N -> (j < 12)%N -> X i = X j -> i = j.
Proof.
move=> hi hj; rewrite (XE hi) (XE hj) => E; apply: residue.
- exact: leq_trans hi _.
- exact: leq_trans hj _.
by rewrite !nth_cat -[size sha_x]/12%N hi hj.
Qed.
Lemma YY i j : (i < 12)%N -> (j < 12)%N -> Y i = Y j -> i = j.
Proof.
move=> hi hj; rewrite (YE hi) (YE hj) => E; apply/eqP; rewrite -(eqn_add2l 12); apply/eqP; apply: residue.
- by rewrite -[24%N]/(12 + 12)%N ltn_add2l.
- by rewrite -[24%N]/(12 + 12)%N ltn_add2l.
by rewrite !nth_cat -[size sha_x]/12%N !ltnNge !leq_addr /= !addKn.
Qed.
Lemma XY i j : (i < 12)%N -> (j < 12)%N -> X i <> Y j.
Proof.
move=> hi hj; rewrite (XE hi) (YE hj) => E.
have : i = (12 + j)%N; last by move=> e; rewrite e ltnNge leq_addr in hi.
apply: residue; [exact: leq_trans hi _ | by rewrite -[24%N]/(12 + 12)%N ltn_add2l |].
by rewrite !nth_cat -[size sha_x]/12%N hi !ltnNge !leq_addr /= !addKn.
Qed.

Section Attempt.
Variables (m a : nat) (M : seq (seq BigZ.t)).
Hypothesis bound : (a * m + m <= 12)%N.

Lemma below i : (i < m)%N -> (a * m + i < 12)%N.
Proof. by move=> hi; apply: leq_trans bound; rewrite ltn_add2l. Qed.

Lemma values_distinct : distinct m (attempt_of m X a) (attempt_of m Y a).
Proof.
split=> i j hi hj; rewrite /attempt_of.
- by move/(XX (below hi) (below hj)) => /addnI.
- by move/(YY (below hi) (below hj)) => /addnI.
- exact: XY (below hi) (below hj).
Qed.

Definition cauchy_ok : bool :=
  all (fun i => all (fun j => is_zero (BigZ.sub (BigZ.mul (nth BigZ.zero (nth [::] M i) j)
    (BigZ.sub (BigZ.of_Z (nth 0%Z sha_x (a * m + i))) (BigZ.of_Z (nth 0%Z sha_y (a * m + j))))) BigZ.one)) (iota 0 m)) (iota 0 m).

Lemma phi_of_Z z : phi (BigZ.of_Z z) = Fq_of_Z z.
Proof. by rewrite /phi BigZ.spec_of_Z. Qed.

Lemma cauchyE : cauchy_ok -> to_mx m M = cauchy_of m (attempt_of m X a) (attempt_of m Y a).
Proof.
move=> /allP H; apply/matrixP => i j; rewrite !mxE /attempt_of.
have := H i; rewrite mem_iota ltn_ord => /(_ isT) /allP /(_ j).
rewrite mem_iota ltn_ord => /(_ isT) /is_zeroP; rewrite phiB phiM phiB !phi_of_Z phi_one.
rewrite -(XE (below (ltn_ord i))) -(YE (below (ltn_ord j))).
move: (phi _) => c /eqP; rewrite subr_eq0 => /eqP E.
by rewrite -[LHS]mulr1 -[X in _ * X](@divff _ (X (a * m + i) - Y (a * m + j))) ?mulrA ?E ?mul1r // subr_eq0; apply/eqP; apply: XY; exact: below (ltn_ord _).
Qed.
End Attempt.

(** ** The matrices of the attempts *)
Definition has_value (m : nat) (M : seq (seq BigZ.t)) (a : nat) (z : BigZ.t) (v : seq BigZ.t) : bool :=
  cauchy_ok m a M && (square M m && eigenvector M m z v).
Definition has_none (m : nat) (M : seq (seq BigZ.t)) (a : nat) (g w : seq BigZ.t) : bool :=
  cauchy_ok m a M && [&& square M m, annihilated M m g & no_root m g w].
Lemma value_4_0 : has_value 4 mat_4_0 0 val_4_0 vec_4_0. Proof. by vm_compute. Qed.
Lemma value_4_1 : has_value 4 mat_4_1 1 val_4_1 vec_4_1. Proof. by vm_compute. Qed.
Lemma value_5_0 : has_value 5 mat_5_0 0 val_5_0 vec_5_0. Proof. by vm_compute. Qed.
Lemma value_6_0 : has_value 6 mat_6_0 0 val_6_0 vec_6_0. Proof. by vm_compute. Qed.
Lemma none_2_0 : has_none 2 mat_2_0 0 poly_2_0 inv_2_0. Proof. by vm_compute. Qed.
Lemma none_3_0 : has_none 3 mat_3_0 0 poly_3_0 inv_3_0. Proof. by vm_compute. Qed.
Lemma none_4_2 : has_none 4 mat_4_2 2 poly_4_2 inv_4_2. Proof. by vm_compute. Qed.
Lemma none_5_1 : has_none 5 mat_5_1 1 poly_5_1 inv_5_1. Proof. by vm_compute. Qed.
Lemma none_6_1 : has_none 6 mat_6_1 1 poly_6_1 inv_6_1. Proof. by vm_compute. Qed.

Definition mat m a : 'M[Fq]_m := cauchy_of m (attempt_of m X a) (attempt_of m Y a).
Lemma has_valueP m M a z v : (0 < m)%N -> (a * m + m <= 12)%N -> has_value m M a z v -> exists y, has_eigenvalue (mat m a) y.
Proof.
move=> m0 b /andP [c e]; exists (phi z); rewrite /mat -(cauchyE b c); exact: an_eigenvalue e m0.
Qed.
Lemma has_noneP m M a g w : (a * m + m <= 12)%N -> has_none m M a g w -> forall z, ~ has_eigenvalue (mat m a) z.
Proof. move=> b /andP [c e] z; rewrite /mat -(cauchyE b c); exact: (no_eigenvalue e (z := z)). Qed.

Section Pick.
Variables (F : finFieldType) (rc : string -> nat -> F) (name : string) (m a : nat).
Let mt b := cauchy_of m (attempt_of m (rc (append name "x")) b) (attempt_of m (rc (append name "y")) b).
Lemma pick : (a < 100)%N ->
  (forall b, (b <= a)%N -> distinct m (attempt_of m (rc (append name "x")) b) (attempt_of m (rc (append name "y")) b)) ->
  (forall b, (b < a)%N -> exists z, has_eigenvalue (mt b) z) -> (forall z, ~ has_eigenvalue (mt a) z) ->
  generate_mds_matrix rc name m false = Ret (mt a).
Proof. by move=> a100 D E N; apply/matrix_cases; exists a. Qed.
End Pick.

Lemma picked m a : (a * m + m <= 12)%N -> (forall b, (b < a)%N -> exists z, has_eigenvalue (mat m b) z) ->
  (forall z, ~ has_eigenvalue (mat m a) z) -> (0 < m)%N ->
  generate_mds_matrix (F := Fq_finFieldType) generate_round_constant "HadesMDS" m false = Ret (mat m a).
Proof.
move=> b E N m0.
have a100 : (a < 100)%N.
  apply: (@leq_trans 13%N); last by [].
  by rewrite ltnS; apply: leq_trans b; apply: (leq_trans (leq_pmulr a m0)); exact: leq_addr.
refine (@pick Fq_finFieldType generate_round_constant "HadesMDS" m a a100 _ E N).
move=> c ca; refine (@values_distinct m c _).
by apply: leq_trans b; rewrite leq_add2r leq_mul2r ca; exact: orbT.
Qed.

Definition successful (m : nat) : nat := nth 0%N [:: 0; 0; 0; 0; 2; 1; 1]%N m.
Theorem run_matrix m : (2 <= m <= 6)%N ->
  generate_mds_matrix (F := Fq_finFieldType) generate_round_constant "HadesMDS" m false = Ret (mat m (successful m)).
Proof.
case: m => [|[|[|[|[|[|[|m]]]]]]] // _; apply: picked; try exact: isT.
- by [].
- exact (@has_noneP 2 _ 0 _ _ isT none_2_0).
- by [].
- exact (@has_noneP 3 _ 0 _ _ isT none_3_0).
- case=> [|[|b]] h; last by [].
    exact (@has_valueP 4 _ 0 _ _ isT isT value_4_0).
  exact (@has_valueP 4 _ 1 _ _ isT isT value_4_1).
- exact (@has_noneP 4 _ 2 _ _ isT none_4_2).
- case=> [|b] h; last by [].
  exact (@has_valueP 5 _ 0 _ _ isT isT value_5_0).
- exact (@has_noneP 5 _ 1 _ _ isT none_5_1).
- case=> [|b] h; last by [].
  exact (@has_valueP 6 _ 0 _ _ isT isT value_6_0).
- exact (@has_noneP 6 _ 1 _ _ isT none_6_1).
Qed.
