(** The reference script and the code: the generator computes the script's optimized
    matrices and constants, and the shipped permutations are the script's. *)
From Coq Require Import ZArith NArith Lia.
From Bignums Require Import BigZ.
From mathcomp Require Import all_ssreflect all_algebra.
From Verif Require Import Slia Base PrimeLib Fq Matrix MatrixSpec MatrixProofs Params Montgomery Permutation Spec.
From Verif Require Import PermutationProofs PoseidonProofs Check CheckSound BigField Rate2 RateChecks Cauchy Shipped.
From Verif Require Import PrimeField V1Proofs Mds MdsProofs MdsCauchy ArcProofs Reproduce.
From Verif Require Sage.
From Verif Require Import SageProofs SageTables.
Set Implicit Arguments.
Unset Strict Implicit.
Unset Printing Implicit Defensive.
Import GRing.Theory.
Local Open Scope ring_scope.
Delimit Scope Z_scope with Z.

(** * The generator *)
Section Code.
Variables (F : fieldType) (t1 : nat) (M : 'M[F]_(1 + t1)).

Lemma code_matrices (r : rounds) : (0 < t1 <= 8)%N -> (0 < r_P r)%N ->
  Mds.calc_equivalent_matrices (ofM M) r =
  bind (Sage.calc_equivalent_matrices (r_P r) M)
    (fun ms => let: (M_i, vs, ws) := ms in Ret (ofM M_i^T, map (@ofM F 1 t1) vs, map (@ofM F t1 1) ws)).
Proof.
move=> ht1 r0; rewrite calc_equivalentE // calc_equivalent_matricesE //.
by case: ifP => // u; rewrite bind_ret -!map_comp.
Qed.

(** Rows of words as a matrix *)
Definition of_rows R (d : nat -> 'rV[F]_(1 + t1)) : rmat F := Rmat R (1 + t1) (flatten [seq ofR (d k) | k <- iota 0 R]).

Lemma tab_of_rows R d : tab R (colc d) = of_rows R d.
Proof.
rewrite /tab /mkm /mkels /of_rows; congr (Rmat _ _ (flatten _)); apply: eq_map => k.
rewrite /ofR -(val_enum_ord (1 + t1)) -map_comp; apply: eq_map => j /=.
by rewrite (mxf_col _ (ltn_ord j)) mxE; congr (d _ _ _); apply: val_inj.
Qed.

Lemma eq_opt_rows (c c' : nat -> 'cV[F]_(1 + t1)) hi Rf : c =1 c' -> opt_rows M c hi Rf =1 opt_rows M c' hi Rf.
Proof.
move=> E i; have P k : pushed M c hi k = pushed M c' hi k by elim: k => [|k IH] /=; rewrite E ?IH.
by rewrite /opt_rows /rows_after !P E.
Qed.

Lemma code_constants (r : rounds) (rc : seq F) : (t1 < 8)%N -> (0 < r_P r)%N -> ~~ odd (r_F r) ->
  size rc = (rounds_total r * (1 + t1))%N -> M \in unitmx ->
  exists2 d, Sage.calc_equivalent_constants (r_F r) (r_P r) M rc = Ret d &
    arc_generate_optimized (@row_vector_vec F) (Rmat (rounds_total r) (1 + t1) rc) (ofM M) r =
    Ret (of_rows (rounds_total r) d).
Proof.
move=> t8 p0 ev sz u.
have := calc_equivalent_constantsE M rc ev p0; rewrite u => -[d Ed Hd]; exists d => //.
have wf : wf_shape (rounds_total r) (1 + t1) (Rmat (rounds_total r) (1 + t1) rc) by rewrite /wf_shape /= !eqxx sz eqxx.
rewrite {1}(tab_row_of wf) arc_generate_optimizedE //; last by rewrite /rounds_total addn_gt0 p0.
rewrite u -tab_of_rows; congr Ret; apply: eq_tab => i _; rewrite Hd.
have E : (rounds_total r - 1 - r_F r %/ 2 = (Sage.R_f (r_F r) + r_P r).-1)%N.
  have RF : (r_F r = Sage.R_f (r_F r) + Sage.R_f (r_F r))%N by rewrite /Sage.R_f divn2 addnn -[LHS]odd_double_half (negbTE ev).
  rewrite -[(r_F r %/ 2)%N]/(Sage.R_f (r_F r)) /rounds_total {1}RF; move: p0; clear; slia.
rewrite E -[(r_F r %/ 2)%N]/(Sage.R_f (r_F r)).
by apply: eq_opt_rows => k; apply/colP => j; rewrite !mxE.
Qed.
End Code.

(** * The shipped parameters *)
Section One.
Variable p : params Fq_fieldType.
Hypothesis hp : List.In p shipped.
Local Notation t1 := (p_t1 p).
Local Notation M := (toM (1 + t1) (1 + t1) (p_mds p)).
Local Notation rc := (elements (p_arc p)).

Lemma shipped_units : (M \in unitmx) /\ (drsubmx M \in unitmx).
Proof.
have [_ ht1 _ _ _] := shipped_spec hp; have t17 : (0 < t1 < 8)%N by move: ht1; clear; slia.
rewrite (shipped_mds hp); split; [exact: (M_unit Fq_big t17) | exact: (hat_unit Fq_big t17)].
Qed.

Lemma script_perm x : Sage.perm 17 8 31 M rc x = Ret (Sage.perm_original 17 8 31 M rc x).
Proof. by have [u1 u2] := shipped_units; rewrite permE // u1 u2. Qed.

Lemma eq_poseidon (F : fieldType) n (S : F -> F) (A : 'M[F]_(1 + n)) c c' Rf Rp x : c =1 c' ->
  poseidon S A c Rf Rp x = poseidon S A c' Rf Rp x.
Proof.
move=> E; rewrite /poseidon.
have Ef y s : foldl (fun x r => full_round S A x (c r)) y s = foldl (fun x r => full_round S A x (c' r)) y s.
  by apply: eq_in_foldl => z r _; rewrite E.
have Ep y s : foldl (fun x r => partial_round S A x (c r)) y s = foldl (fun x r => partial_round S A x (c' r)) y s.
  by apply: eq_in_foldl => z r _; rewrite E.
by rewrite !Ef Ep.
Qed.

Lemma script_poseidon x : Sage.perm_original 17 8 31 M rc x = (shipped_poseidon p x^T)^T.
Proof.
rewrite perm_originalE.
have -> : Sage.R_f 8 = 4%N by [].
rewrite (shipped_mds hp).
rewrite /shipped_poseidon; apply: (congr1 trmx).
by apply: eq_poseidon => r; apply/colP => i; rewrite !mxE.
Qed.

Lemma ofR_tr (F : fieldType) n (x : 'rV[F]_n) : ofR x = ofV x^T.
Proof. by apply: eq_map => i; rewrite mxE. Qed.

Lemma script_permute x : permute p (ofR x) = Ret (ofR (Sage.perm_original 17 8 31 M rc x)).
Proof. by rewrite !ofR_tr (shipped_opt hp) script_poseidon trmxK. Qed.
Lemma script_unoptimized x : unoptimized_permute p (ofR x) = Ret (ofR (Sage.perm_original 17 8 31 M rc x)).
Proof. by rewrite !ofR_tr (shipped_unopt hp) script_poseidon trmxK. Qed.

Lemma script_matrices : exists M_i vs ws, Sage.calc_equivalent_matrices 31 M = Ret (M_i, vs, ws) /\
  [/\ om_M_i (p_optimized_mds p) = ofM M_i^T, om_M_00 (p_optimized_mds p) = M 0 0,
      om_v_collection (p_optimized_mds p) = map (@ofM _ 1 t1) vs &
      om_w_hat_collection (p_optimized_mds p) = map (@ofM _ t1 1) ws].
Proof.
have [_ u] := shipped_units; have [_ _ _ _ hr] := shipped_spec hp.
rewrite calc_equivalent_matricesE // u; do 3 eexists; split; first reflexivity.
rewrite (shipped_mds hp); have -> : p_optimized_mds p = opt_result (cauchy_mx _ (1 + t1)) (p_rounds p).
  by rewrite {1}(shipped_generated hp).
by rewrite /opt_result hr -!map_comp.
Qed.

Lemma script_constants : exists2 d, Sage.calc_equivalent_constants 8 31 M rc = Ret d &
  p_optimized_arc p = of_rows 39 d.
Proof.
have [u _] := shipped_units; have [_ _ _ _ hr] := shipped_spec hp.
have := calc_equivalent_constantsE (R_F := 8) (R_P := 31) M rc isT isT; rewrite u => -[d Ed Hd]; exists d => //.
have -> : p_optimized_arc p = p_optimized_arc (generated (PF := Fq_pf) 128 t1 (p_alpha p) (p_rounds p) (p_arc p)).
  by rewrite {1}(shipped_generated hp).
rewrite /generated /= hr -tab_of_rows -[rounds_total _]/39%N; apply: eq_tab => i _; rewrite Hd.
rewrite -(shipped_mds hp); apply: eq_opt_rows => k; apply/colP => j; rewrite !mxE.
by [].
Qed.
End One.

(** * The numbers of the script *)
Definition sage_matrix : 'M[Fq]_3 := \matrix_(i, j) Fq_of_Z (nth 0%Z (nth [::] sage_MDS_matrix i) j).
Definition sage_constants : seq Fq := map Fq_of_Z sage_round_constants.

Lemma constants_big : all2 (fun z l => BigZ.eqb (BigZ.modulo (BigZ.of_Z z) bq) (bmont l))
  sage_round_constants (elements rate_2_arc) = true.
Proof. by vm_compute. Qed.
Lemma matrix_big : all2 (fun z l => BigZ.eqb (BigZ.modulo (BigZ.of_Z z) bq) (bmont l))
  (flatten sage_MDS_matrix) (elements rate_2_mds) = true.
Proof. by vm_compute. Qed.

Lemma all2_map zs ls : all2 (fun z l => BigZ.eqb (BigZ.modulo (BigZ.of_Z z) bq) (bmont l)) zs ls = true ->
  map Fq_of_Z zs = map from_montgomery_limbs ls.
Proof.
elim: zs ls => [|z zs IH] [|l ls] //= /andP [E /IH ->]; congr (_ :: _).
rewrite -phi_bmont; move: E; rewrite BigZ.spec_eqb => /Z.eqb_eq; rewrite /phi => <-.
by rewrite BigZ.spec_modulo bqE BigZ.spec_of_Z Fq_of_Z_mod.
Qed.

Lemma sage_constantsE : sage_constants = elements (p_arc RATE_2_PARAMS).
Proof. exact: all2_map constants_big. Qed.

Lemma sage_matrixE : sage_matrix = toM 3 3 (p_mds RATE_2_PARAMS).
Proof.
have E : map Fq_of_Z (flatten sage_MDS_matrix) = elements (p_mds RATE_2_PARAMS) by exact: all2_map matrix_big.
apply/matrixP => i j; rewrite !mxE -E (nth_map 0%Z); clear E; last first.
  by case: i => [[|[|[|i]]] hi] //; case: j => [[|[|[|j]]] hj].
congr Fq_of_Z; case: i => [[|[|[|i]]] hi] //; case: j => [[|[|[|j]]] hj] //.
Qed.

Lemma sage_primeE : sage_prime = q. Proof. by []. Qed.

Lemma rate_2_shipped : List.In RATE_2_PARAMS shipped. Proof. by right; left. Qed.

(** The permutation the script runs is [permute] of the rate-2 parameters. *)
Definition script_original := Sage.perm_original sage_alpha sage_R_F sage_R_P (sage_matrix : 'M_(1 + 2)) sage_constants.
Definition script := Sage.perm sage_alpha sage_R_F sage_R_P (sage_matrix : 'M_(1 + 2)) sage_constants.

Lemma rate_2_script x : [/\ script x = Ret (script_original x),
  permute RATE_2_PARAMS (ofR x) = Ret (ofR (script_original x)) &
  unoptimized_permute RATE_2_PARAMS (ofR x) = Ret (ofR (script_original x))].
Proof.
rewrite /script /script_original sage_constantsE sage_matrixE; split.
- exact: (script_perm rate_2_shipped).
- exact: (script_permute rate_2_shipped).
- exact: (script_unoptimized rate_2_shipped).
Qed.

Lemma shipped_script (p : params Fq_fieldType) : List.In p shipped -> forall x : 'rV[Fq]_(1 + p_t1 p),
  let M := toM (1 + p_t1 p) (1 + p_t1 p) (p_mds p) in
  let rc := elements (p_arc p) in
  [/\ Sage.perm 17 8 31 M rc x = Ret (Sage.perm_original 17 8 31 M rc x),
      permute p (ofR x) = Ret (ofR (Sage.perm_original 17 8 31 M rc x)) &
      unoptimized_permute p (ofR x) = Ret (ofR (Sage.perm_original 17 8 31 M rc x))].
Proof. by move=> hp x; split; [apply: script_perm | apply: script_permute | apply: script_unoptimized]. Qed.

Lemma sage_canonical : all (fun z => (0 <=? z)%Z && (z <? q)%Z) (sage_round_constants ++ flatten sage_MDS_matrix).
Proof. by vm_compute. Qed.

Lemma script_numbers :
  [/\ sage_prime = q, (sage_M, sage_alpha, sage_t) = (p_M RATE_2_PARAMS, 17%N, p_t RATE_2_PARAMS),
      p_alpha RATE_2_PARAMS = Exponent 17, p_rounds RATE_2_PARAMS = RoundNumbers sage_R_P sage_R_F &
      [/\ \matrix_(i < 3, j < 3) Fq_of_Z (nth 0%Z (nth [::] sage_MDS_matrix i) j) = toM 3 3 (p_mds RATE_2_PARAMS),
          p_mds RATE_2_PARAMS = ofM (toM 3 3 (p_mds RATE_2_PARAMS)),
          map Fq_of_Z sage_round_constants = elements (p_arc RATE_2_PARAMS) &
          all (fun z => (0 <=? z)%Z && (z <? q)%Z) (sage_round_constants ++ flatten sage_MDS_matrix)]].
Proof.
split; [exact: sage_primeE | by [] | by [] | by [] |].
split; [exact: sage_matrixE | | exact: sage_constantsE | exact: sage_canonical].
by rewrite ofM_toM //; have /and5P [_] := shipped_wf rate_2_shipped.
Qed.
