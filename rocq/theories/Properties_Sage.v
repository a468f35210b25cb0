(** C56: the reference script poseidonperm_x17.sage. *)
From Coq Require Import ZArith.
From mathcomp Require Import all_ssreflect all_algebra.
From Verif Require Import Base Fq Matrix MatrixSpec MatrixProofs Params Montgomery Permutation Spec Rate2 RateChecks.
From Verif Require Mds Sage.
From Verif Require Import SageProofs SageTables SageShipped SageExamples.
Set Implicit Arguments.
Unset Strict Implicit.
Unset Printing Implicit Defensive.
Import GRing.Theory.
Local Open Scope ring_scope.
Local Open Scope rust_scope.

(** ** The script's two permutations, for any field, width, matrix and constants *)
Theorem C56_perm_original (F : fieldType) (t1 alpha R_F R_P : nat) (M : 'M[F]_(1 + t1)) (rc : seq F) (x : 'rV[F]_(1 + t1)) :
  Sage.perm_original alpha R_F R_P M rc x =
  (poseidon (fun x => x ^+ alpha) M (fun r => (\row_i nth 0 rc (r * (1 + t1) + i))^T) (R_F %/ 2) R_P x^T)^T.
Proof. exact: perm_originalE. Qed.
Theorem C56_perm (F : fieldType) (t1 alpha R_F R_P : nat) (M : 'M[F]_(1 + t1)) (rc : seq F) (x : 'rV[F]_(1 + t1)) :
  ~~ odd R_F -> (0 < R_P)%N ->
  Sage.perm alpha R_F R_P M rc x =
  if ((R_P == 1)%N || (M \in unitmx)) && (drsubmx M \in unitmx)
  then Ret (Sage.perm_original alpha R_F R_P M rc x) else Panic.
Proof. exact: permE. Qed.

(** ** The generator computes the script's matrices and constants *)
Theorem C56_generator_matrices (F : fieldType) (t1 : nat) (M : 'M[F]_(1 + t1)) (r : rounds) :
  (0 < t1 <= 8)%N -> (0 < r_P r)%N ->
  Mds.calc_equivalent_matrices (ofM M) r =
  (ms <- Sage.calc_equivalent_matrices (r_P r) M ;;
   let: (M_i, vs, ws) := ms in Ret (ofM M_i^T, [seq ofM v | v <- vs], [seq ofM w | w <- ws])).
Proof. exact: code_matrices. Qed.
Theorem C56_generator_constants (F : fieldType) (t1 : nat) (M : 'M[F]_(1 + t1)) (r : rounds) (rc : seq F) :
  (t1 < 8)%N -> (0 < r_P r)%N -> ~~ odd (r_F r) -> size rc = ((r_P r + r_F r) * (1 + t1))%N -> M \in unitmx ->
  exists2 d, Sage.calc_equivalent_constants (r_F r) (r_P r) M rc = Ret d &
    Mds.arc_generate_optimized (@Mds.row_vector_vec F) (Rmat (r_P r + r_F r) (1 + t1) rc) (ofM M) r =
    Ret (Rmat (r_P r + r_F r) (1 + t1) (flatten [seq ofR (d k) | k <- iota 0 (r_P r + r_F r)])).
Proof. exact: code_constants. Qed.

(** ** The shipped parameters: the script's permutations, matrices and constants *)
Theorem C56_shipped (p : params Fq_fieldType) : List.In p shipped -> forall x : 'rV[Fq]_(1 + p_t1 p),
  let M := toM (1 + p_t1 p) (1 + p_t1 p) (p_mds p) in
  let rc := elements (p_arc p) in
  [/\ Sage.perm 17 8 31 M rc x = Ret (Sage.perm_original 17 8 31 M rc x),
      permute p (ofR x) = Ret (ofR (Sage.perm_original 17 8 31 M rc x)) &
      unoptimized_permute p (ofR x) = Ret (ofR (Sage.perm_original 17 8 31 M rc x))].
Proof. exact: shipped_script. Qed.
Theorem C56_shipped_matrices (p : params Fq_fieldType) : List.In p shipped ->
  let M := toM (1 + p_t1 p) (1 + p_t1 p) (p_mds p) in
  exists M_i vs ws, Sage.calc_equivalent_matrices 31 M = Ret (M_i, vs, ws) /\
  [/\ om_M_i (p_optimized_mds p) = ofM M_i^T, om_M_00 (p_optimized_mds p) = M 0 0,
      om_v_collection (p_optimized_mds p) = [seq ofM v | v <- vs] &
      om_w_hat_collection (p_optimized_mds p) = [seq ofM w | w <- ws]].
Proof. exact: script_matrices. Qed.
Theorem C56_shipped_constants (p : params Fq_fieldType) : List.In p shipped ->
  exists2 d, Sage.calc_equivalent_constants 8 31 (toM (1 + p_t1 p) (1 + p_t1 p) (p_mds p)) (elements (p_arc p)) = Ret d &
  p_optimized_arc p = Rmat 39 (1 + p_t1 p) (flatten [seq ofR (d k) | k <- iota 0 39]).
Proof. exact: script_constants. Qed.

(** ** The numbers written in the script are the rate-2 parameters *)
Theorem C56_numbers :
  [/\ sage_prime = q, (sage_M, sage_alpha, sage_t) = (p_M RATE_2_PARAMS, 17%N, p_t RATE_2_PARAMS),
      p_alpha RATE_2_PARAMS = Exponent 17, p_rounds RATE_2_PARAMS = RoundNumbers sage_R_P sage_R_F &
      [/\ \matrix_(i < 3, j < 3) Fq_of_Z (nth 0%Z (nth [::] sage_MDS_matrix i) j) = toM 3 3 (p_mds RATE_2_PARAMS),
          p_mds RATE_2_PARAMS = ofM (toM 3 3 (p_mds RATE_2_PARAMS)),
          map Fq_of_Z sage_round_constants = elements (p_arc RATE_2_PARAMS) &
          all (fun z => (0 <=? z)%Z && (z <? q)%Z) (sage_round_constants ++ flatten sage_MDS_matrix)]].
Proof. exact: script_numbers. Qed.
Theorem C56_rate_2 (x : 'rV[Fq]_(1 + 2)) :
  [/\ script x = Ret (script_original x),
      permute RATE_2_PARAMS (ofR x) = Ret (ofR (script_original x)) &
      unoptimized_permute RATE_2_PARAMS (ofR x) = Ret (ofR (script_original x))].
Proof. exact: rate_2_script. Qed.

Print Assumptions C56_perm_original.
Print Assumptions C56_perm.
Print Assumptions C56_generator_matrices.
Print Assumptions C56_generator_constants.
Print Assumptions C56_shipped.
Print Assumptions C56_shipped_matrices.
Print Assumptions C56_shipped_constants.
Print Assumptions C56_numbers.
Print Assumptions C56_rate_2.
