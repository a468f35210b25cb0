(** Instances of C56: the run at the end of the script, and matrices it cannot optimize. *)
From Coq Require Import ZArith.
From Bignums Require Import BigZ.
From mathcomp Require Import all_ssreflect all_algebra.
From Verif Require Import Base Fq Matrix MatrixSpec Params Montgomery Permutation Spec PermutationProofs PoseidonProofs.
From Verif Require Import Check CheckSound BigField Rate2 RateChecks Shipped TestVectors Sage SageProofs SageTables SageShipped.
Set Implicit Arguments.
Unset Strict Implicit.
Unset Printing Implicit Defensive.
Import GRing.Theory.
Local Open Scope ring_scope.
Delimit Scope Z_scope with Z.

(** poseidonperm_x17.sage:356-381: both permutations of (0, 1, 2) print these words. *)
Definition output_words : seq Z := [:: 6368779772888548211318735707249600947486536081021109980085678920065117075165; 546637332213889354237126997303352456465330747031466737868777261691321847212; 1488544471679348337017344865262529731114801536476862121626711131361325263279]%Z.
Lemma run_big : map BigZ.to_Z (run_textbook bops (map_params bmont rate_2_raw) [:: 0; 1; 2]%bigZ) = output_words.
Proof. by vm_compute. Qed.

Definition input_words : 'rV[Fq]_(1 + 2) := \row_i (i : nat)%:R.
Example script_run : ofR (script_original input_words) = map Fq_of_Z output_words.
Proof.
have -> : script_original input_words = (shipped_poseidon RATE_2_PARAMS input_words^T)^T.
  rewrite /script_original sage_constantsE sage_matrixE; exact: (script_poseidon rate_2_shipped).
rewrite ofR_tr trmxK -(run_textbookE rate_2_shipped) -run_big.
rewrite -map_comp -[LHS]/(run_textbook fops _ _).
have -> : [seq (Fq_of_Z \o BigZ.to_Z) i | i <- run_textbook bops (map_params bmont rate_2_raw) [:: 0%bigZ; 1%bigZ; 2%bigZ]]
  = run_textbook fops (map_params phi (map_params bmont rate_2_raw)) (map phi [:: 0; 1; 2]%bigZ).
  exact: (run_textbook_phi phi0 phi_add phi_mul).
rewrite map_params_comp (eq_map_params _ phi_bmont); congr run_textbook.
rewrite /ofV; have -> : enum 'I_(1 + 2) = [:: 0; 1; 2%:R] :> seq 'I_3.
  by apply: (inj_map val_inj); rewrite val_enum_ord.
by rewrite /= !mxE /phi; congr [:: _; _; _]; rewrite -Fq_of_Z_nat.
Qed.
Example script_run_optimized : script input_words = Ret (script_original input_words).
Proof. by have [] := rate_2_script input_words. Qed.

(** Exchanging two words is invertible, but its lower right entry is not: the script
    raises in [M_hat.inverse()], while the unoptimized permutation is defined. *)
Definition swap (F : fieldType) : 'M[F]_(1 + 1) := \matrix_(i, j) (i != j)%:R.
Example swap_unit (F : fieldType) : swap F \in unitmx.
Proof.
suff /mulmx1_unit [] : swap F *m swap F = 1%:M by [].
apply/matrixP => i j; rewrite !mxE !big_ord_recl big_ord0 !mxE.
by case: i => [[|[|i]] hi] //; case: j => [[|[|j]] hj] //=; rewrite ?mulr0 ?mulr1 ?add0r ?addr0.
Qed.
Example swap_raises (F : fieldType) alpha R_P (rc : seq F) x : (0 < R_P)%N -> perm alpha 8 R_P (swap F) rc x = Panic.
Proof.
move=> p0; rewrite permE // [drsubmx _ \in _](_ : _ = false) ?andbF //.
have -> : drsubmx (swap F) = 0 by apply/matrixP => i j; rewrite !mxE !ord1 eqxx.
by rewrite unitmxE det0 unitr0.
Qed.

(** The values that the test [check_calc_equivalent_matrices_vs_sage] (mds.rs:290-371)
    expects, as entries of the script's matrices for the script's numbers. *)
Definition expected_v : seq Z := [::
  6333346312071277818186618704086159898531924501365547870951425091938056929281;
  6755569399542696339399059951025237225100719468123251062348186764733927391233;
  7740756603642672888894756193883084320427907723891225175607297334590958469121;
  7851338840837568215878966996652842667862592119946814106687401582227972161537]%Z.
Definition expected_w_hat : seq Z := [:: 3;
  844446174942837042424882493878154653137589933515406382793523345591740923902; 981;
  1688892349885674084849764987756309306275179867030812765587046691183481846649]%Z.
Definition expected_M_i : seq Z := [:: 1; 0; 0; 0;
  1949629285152675843545617098663080067734218406516000484720630379218497119024;
  6804287869450188502728877251894011667833647269738979685488937504164506768586; 0;
  6804287869450188502728877251894011667833647269738979685488937504164506768586;
  4924677972410444052137834859533533887056104638988047570112284264367323462906]%Z.

Lemma expected_big :
  [/\ [seq BigZ.to_Z (bmont l) | l <- flatten (map (@elements _) (take 2 rate_2_v_collection))] = expected_v,
      [seq BigZ.to_Z (bmont l) | l <- flatten (map (@elements _) (take 2 rate_2_w_hat_collection))] = expected_w_hat &
      [seq BigZ.to_Z (bmont l) | l <- elements rate_2_M_i] = expected_M_i].
Proof. by split; vm_compute. Qed.

Lemma expected_mont ls zs : [seq BigZ.to_Z (bmont l) | l <- ls] = zs -> map from_montgomery_limbs ls = map Fq_of_Z zs.
Proof. by move=> <-; rewrite -map_comp; apply: eq_map => l; rewrite -phi_bmont. Qed.

Lemma enum1 : enum 'I_1 = [:: 0]. Proof. by apply: (inj_map val_inj); rewrite val_enum_ord. Qed.
Lemma elements_row (F : fieldType) n (v : 'rV[F]_n) : ofR v = elements (ofM v).
Proof. by rewrite /ofM /ofR enum1 /= cats0. Qed.
Lemma elements_col (F : fieldType) n (w : 'cV[F]_n) : ofV w = elements (ofM w).
Proof. by rewrite /ofM /ofV enum1 /=; elim: (enum _) => //= i s ->. Qed.

Example vs_sage : exists M_i vs ws, calc_equivalent_matrices sage_R_P (sage_matrix : 'M_(1 + 2)) = Ret (M_i, vs, ws) /\
  [/\ flatten [seq ofR v | v <- take 2 vs] = map Fq_of_Z expected_v,
      flatten [seq ofV w | w <- take 2 ws] = map Fq_of_Z expected_w_hat &
      elements (ofM M_i^T) = map Fq_of_Z expected_M_i].
Proof.
rewrite sage_matrixE.
have [M_i [vs [ws [E [E1 E2 E3 E4]]]]] := script_matrices rate_2_shipped.
exists M_i, vs, ws; split; first exact: E.
have [H1 H2 H3] := expected_big; split.
- rewrite -(expected_mont H1) map_flatten -map_comp map_take.
  have -> : [seq ofR v | v <- vs] = map (@elements _) (om_v_collection (p_optimized_mds RATE_2_PARAMS)).
    by rewrite E3 -map_comp; apply: eq_map => v; exact: elements_row.
  reflexivity.
- rewrite -(expected_mont H2) map_flatten -map_comp map_take.
  have -> : [seq ofV w | w <- ws] = map (@elements _) (om_w_hat_collection (p_optimized_mds RATE_2_PARAMS)).
    by rewrite E4 -map_comp; apply: eq_map => v; exact: elements_col.
  reflexivity.
- rewrite -E1 -(expected_mont H3); reflexivity.
Qed.
