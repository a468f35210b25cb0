(** Concrete instances for the properties in [Properties_Generate.v]. *)
From Coq Require Import ZArith.
From mathcomp Require Import all_ssreflect all_algebra.
From Verif Require Import Base Fq Matrix MatrixSpec MatrixProofs MatrixExamples Params Permutation.
From Verif Require Import PoseidonExamples Bytes PrimeField Alpha Transcript Cauchy Mds MdsProofs MdsCauchy ArcProofs V1 V1Proofs.
Import GRing.Theory.
Local Open Scope rust_scope.
Delimit Scope Z_scope with Z.

Definition showm (o : outcome (rmat Fq_fieldType)) : outcome (nat * nat * seq Z) :=
  omap (fun m => (n_rows m, n_cols m, map fval (elements m))) o.

(** C33: the width-2 matrix is (1/2, 1/3; 1/3, 1/4); widths 0 and 9 panic. *)
Definition in_Fq (t : nat) : input unit := InputParameters false 128 t q 4 tt.
Example mds_2 : showm (v1_generate_mds Fq_pf (in_Fq 2)) =
  Ret (2, 2, map (fun z => fval (1 / Fq_of_Z z)%R) [:: 2; 3; 3; 4]%Z).
Proof. by vm_compute. Qed.
Example mds_0_9 : v1_generate_mds Fq_pf (in_Fq 0) = Panic /\ v1_generate_mds Fq_pf (in_Fq 9) = Panic.
Proof. by rewrite !(@v1_generate_mdsE Fq_pf). Qed.
Example cauchy_mds_20 : mds_mx (cauchy_mx Fq_pf 20).
Proof. by apply: generated_mds. Qed.

(** C34, C35: optimizing a 2 by 2 matrix for 2 partial rounds. *)
Definition M2 : rmat Fq_fieldType := Rmat 2 2 (els [:: 2; 3; 5; 7]%Z).
Definition c2 (n : nat) : rmat Fq_fieldType := Rmat n 2 (els (take (2 * n) [:: 1; 2; 3; 4; 5; 6; 7; 8; 9; 10]%Z)).
Definition optimized (mds arc : rmat Fq_fieldType) (r : rounds) : outcome (params Fq_fieldType) :=
  om <- mds_generate_optimized mds 2 r ;;
  d <- arc_generate_optimized (@row_vector_vec Fq_fieldType) arc mds r ;;
  Ret (Params 2 1 128 (Exponent 3) r mds arc d om).
Definition run2 (perm : params Fq_fieldType -> seq Fq -> outcome (seq Fq)) (r : rounds) : outcome (seq Z) :=
  P <- optimized M2 (c2 (rounds_total r)) r ;; showst (perm P (els [:: 1; 2]%Z)).

Example M2_optimized : exists s, run2 (@permute Fq_fieldType) (RoundNumbers 2 2) = Ret s /\
  run2 (@unoptimized_permute Fq_fieldType) (RoundNumbers 2 2) = Ret s.
Proof. by eexists; split; vm_compute. Qed.

(** The table of constants itself: the second row of the partial rounds keeps
    its first word only. *)
Example c2_optimized : showm (arc_generate_optimized (@row_vector_vec Fq_fieldType) (c2 4) M2 (RoundNumbers 2 2)) =
  Ret (4, 2, [:: 1; 2; 3; fval (4 + (2 * Fq_of_Z 6 - 5 * Fq_of_Z 5) / (2 * 7 - 3 * 5))%R;
                 fval ((7 * Fq_of_Z 5 - 3 * Fq_of_Z 6) / (2 * 7 - 3 * 5))%R; 0; 7; 8]%Z).
Proof. by vm_compute. Qed.

(** A singular matrix, and one whose second row starts with 0. *)
Example singular_panics : mds_generate_optimized S22 2 (RoundNumbers 2 2) = Panic.
Proof. by vm_compute. Qed.
Example sparse_panics :
  mds_generate_optimized (Rmat 2 2 (els [:: 2; 3; 0; 7]%Z) : rmat Fq_fieldType) 2 (RoundNumbers 2 2) = Panic.
Proof. by vm_compute. Qed.

(** Three full rounds: the two permutations differ. *)
Definition bad_r : rounds := RoundNumbers 1 3.
Definition bad_run : bool :=
  match optimized M2 (c2 4) bad_r with
  | Ret P => match showst (permute P (els [:: 1; 2]%Z)), showst (unoptimized_permute P (els [:: 1; 2]%Z)) with
             | Ret a, Ret b => a != b
             | _, _ => false
             end
  | Panic => false
  end.
Lemma bad_run_true : bad_run. Proof. by vm_compute. Qed.

Lemma odd_counterexample : exists (F : fieldType) (t1 : nat) (M : 'M[F]_(1 + t1)) (r : rounds)
    (arc d : rmat F) (om : optimized_mds F) (a : alpha) (st : seq F),
  [/\ wf_shape (rounds_total r) (1 + t1) arc, (0 < t1 < 8)%N /\ (0 < r_P r)%N, odd (r_F r),
      mds_generate_optimized (ofM M) (1 + t1) r = Ret om /\
      arc_generate_optimized (@row_vector_vec F) arc (ofM M) r = Ret d &
      size st = (1 + t1)%N /\
      let P := Params (1 + t1) t1 128 a r (ofM M) arc d om in
      permute P st <> unoptimized_permute P st].
Proof.
have := bad_run_true; rewrite /bad_run /optimized.
have E : M2 = ofM (toM (1 + 1) (1 + 1) M2) by rewrite ofM_toM.
rewrite E; set M := toM _ _ M2.
case e1: (mds_generate_optimized (ofM M) 2 bad_r) => [om|] //; rewrite bind_ret.
case e2: (arc_generate_optimized _ _ _ _) => [d|] //; rewrite bind_ret => ne.
exists Fq_fieldType, 1, M, bad_r, (c2 4), d, om, (Exponent 3), (els [:: 1; 2]%Z).
split; [by []|by []|by []|by split|split; first by []].
set P := Params _ _ _ _ _ _ _ _ _ => eqP; move: ne; rewrite -/P eqP; case: (showst _) => // s.
by rewrite eqxx.
Qed.

(** C36, C49: the hypotheses can be met for the field of the repository. *)
Example Fq_supported : (2 ^ 127 <= pf_p Fq_pf)%Z /\ alpha_generate Fq_pf (pf_p Fq_pf) false = Ret (Exponent 17).
Proof. by split; vm_compute. Qed.
Definition silent : merlin.
Proof.
refine (@Merlin unit (fun _ => tt) (fun _ _ _ => tt) (fun _ n s => (nseq n 0%num, s)) _).
by move=> l n s; rewrite size_nseq; split=> //; rewrite /is_bytes /= all_nseq orbT.
Defined.
Example generated_exists : exists P,
  v1_generate Fq_pf silent (fun _ => tt) (fun _ _ => Ret (RoundNumbers 31 8)) 128 3 (pf_p Fq_pf) 4 false = Ret P /\
  p_rounds P = RoundNumbers 31 8.
Proof.
have [P [E _ e]] := @v1_generate_succeeds unit Fq_pf silent (fun _ => tt)
  (fun _ _ => Ret (RoundNumbers 31 8)) 128 4 false 3 _ _ isT Fq_supported.1 Fq_supported.2 erefl isT.
exists P; split; [exact E | exact e].
Qed.
