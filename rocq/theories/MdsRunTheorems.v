(** vendor/generate_mds.sage with SHA-256: its five instances. *)
From Coq Require Import ZArith String.
From mathcomp Require Import all_ssreflect all_algebra.
From Verif Require Import Base Fq FqFinite PrimeField Matrix MatrixSpec Params Cauchy RateChecks Shipped.
From Verif Require Import GenerateMds GenerateMdsSpec GenerateMdsProofs GenerateMdsRounds GenerateMdsTheorems.
From Verif Require Import Sha256 MdsRunData MdsRun.
Set Implicit Arguments.
Unset Strict Implicit.
Unset Printing Implicit Defensive.
Import GRing.Theory.
Local Open Scope ring_scope.
Delimit Scope Z_scope with Z.

(** ** The instances of the five arities *)
Section Instance.
Variables (F : finFieldType) (rc : string -> nat -> F).
Lemma instance_with arity (M : 'M[F]_arity.+1) : (1 <= arity <= 5)%N ->
  generate_mds_matrix rc "HadesMDS" arity.+1 false = Ret M ->
  script_instance rc arity = Ret (@Instance F 8 (nth 0%Z [:: 0; 30; 31; 30; 26; 23]%Z arity) 17 arity.+1
      (ark_rs rc arity.+1 (8 + nth 0 [:: 0; 30; 31; 30; 26; 23] arity)%N) M arity 1).
Proof.
move=> h E; apply/script_instanceE.
move: h M E; case: arity => [|[|[|[|[|[|arity]]]]]] // _ M E.
- by exists 38%Z, M; split; [exact: rounds_1 | exact: E |].
- by exists 39%Z, M; split; [exact: rounds_2 | exact: E |].
- by exists 38%Z, M; split; [exact: rounds_3 | exact: E |].
- by exists 34%Z, M; split; [exact: rounds_4 | exact: E |].
- by exists 31%Z, M; split; [exact: rounds_5 | exact: E |].
Qed.
End Instance.

Theorem run_instance arity : (1 <= arity <= 5)%N ->
  script_instance (F := Fq_finFieldType) generate_round_constant arity
  = Ret (@Instance Fq_finFieldType 8 (nth 0%Z [:: 0; 30; 31; 30; 26; 23]%Z arity) 17 arity.+1
      (ark_rs (F := Fq_finFieldType) generate_round_constant arity.+1 (8 + nth 0 [:: 0; 30; 31; 30; 26; 23] arity)%N)
      (mat arity.+1 (successful arity.+1)) arity 1).
Proof. move=> h; exact (@instance_with Fq_finFieldType generate_round_constant arity _ h (@run_matrix arity.+1 h)). Qed.

(** ** None of the matrices is the shipped one of its width: no entry is the same *)
Definition differs (m : nat) : bool :=
  let k := successful m in
  all (fun i => all (fun j =>
    negb (Z.eqb ((nth 0%Z sha_x (k * m + i) - nth 0%Z sha_y (k * m + j) - Z.of_nat (i + m + j)) mod q) 0)) (iota 0 m)) (iota 0 m).
Lemma differ : all differs (iota 2 5). Proof. by vm_compute. Qed.

Theorem run_not_shipped (p : params Fq_fieldType) : List.In p shipped -> (p_t1 p <= 5)%N -> forall i j : 'I_(1 + p_t1 p),
  toM (1 + p_t1 p) (1 + p_t1 p) (p_mds p) i j <> mat (1 + p_t1 p) (successful (1 + p_t1 p)) i j.
Proof.
move=> hp l5 i j; have [_ /andP [l1 _] _ _ _] := shipped_spec hp.
rewrite (shipped_mds hp); have m2 : (2 <= 1 + p_t1 p <= 6)%N by rewrite add1n !ltnS l1 l5.
move: i j; move: (1 + p_t1 p)%N m2 => m m2 i j.
have b : (successful m * m + m <= 12)%N by move: m2; clear; case: m => [|[|[|[|[|[|[|m]]]]]]].
have := allP differ m; rewrite mem_iota => /(_ m2) /allP /(_ i).
rewrite mem_iota ltn_ord => /(_ isT) /allP /(_ j); rewrite mem_iota ltn_ord => /(_ isT) /negP D.
rewrite /mat !mxE => /invr_inj; rewrite /attempt_of (XE (below b (ltn_ord i))) (YE (below b (ltn_ord j))) => E.
apply: D; rewrite -Fq_of_Z_eq0; rewrite Fq_of_Z_sub Fq_of_Z_sub Fq_of_Z_nat -E; apply/eqP; exact: subrr.
Qed.
Theorem run_entries (p : params Fq_fieldType) : List.In p shipped -> (p_t1 p <= 5)%N -> forall i j : 'I_(1 + p_t1 p),
  toM (1 + p_t1 p) (1 + p_t1 p) (p_mds p) i j
  <> (X (successful (1 + p_t1 p) * (1 + p_t1 p) + i) - Y (successful (1 + p_t1 p) * (1 + p_t1 p) + j))^-1.
Proof.
move=> hp l5 i j; have D := @run_not_shipped p hp l5 i j; rewrite /mat [cauchy_of _ _ _ _ _]mxE in D; exact D.
Qed.
