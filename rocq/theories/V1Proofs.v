(** Generated parameter sets. *)
From Coq Require Import ZArith NArith Lia String.
From mathcomp Require Import all_ssreflect all_algebra.
From Verif Require Import Base Matrix MatrixSpec MatrixProofs MatrixProps Params Permutation Spec.
From Verif Require Import PermutationProofs PoseidonProofs PoseidonProps PrimeField Alpha AlphaProofs.
From Verif Require Import Transcript TranscriptProofs Cauchy Slia Mds MdsProofs MdsCauchy ArcProofs V1.
Set Implicit Arguments.
Unset Strict Implicit.
Unset Printing Implicit Defensive.
Import GRing.Theory.
Local Open Scope ring_scope.
Local Open Scope rust_scope.
Delimit Scope Z_scope with Z.

Section Rows.
Variables (F : fieldType) (t1 : nat).
Local Notation t := (1 + t1)%N.
Definition row_of (m : rmat F) r : 'cV[F]_t := \col_i nth 0 (elements m) (r * t + i).

Lemma row_of_tab R (c : nat -> 'cV[F]_t) r : (r < R)%N -> row_of (tab R c) r = c r.
Proof.
move=> h; apply/colP => i; rewrite mxE /tab nth_mkels //.
by rewrite (mxf_col _ (ltn_ord i)); congr (c _ _ _); apply: val_inj.
Qed.

Lemma tab_row_of R m : wf_shape R t m -> m = tab R (row_of m).
Proof.
move=> h; rewrite [LHS](wf_mkm h); apply: eq_mkm => i j hi hj.
by rewrite (mxf_col _ hj) mxE.
Qed.

Lemma equivalent_constants_ext (M : 'M[F]_t) c c' d d' Rf Rp R : (Rf + Rp + Rf <= R)%N ->
  (0 < Rp)%N ->
  (forall r, (r < R)%N -> c r = c' r) -> (forall r, (r < R)%N -> d r = d' r) ->
  equivalent_constants M c d Rf Rp -> equivalent_constants M c' d' Rf Rp.
Proof.
move=> hR Rp0 ec ed [h1 h2 [e [e1 e2 e3 e4]]]; split.
- by move=> r lt; rewrite -ec -?ed ?h1 //; slia.
- by move=> r lt; rewrite -ec -?ed ?h2 //; slia.
exists e; split.
- by rewrite -ed //; slia.
- by move=> r lt; rewrite -ec ?e2 //; slia.
- by move=> r lt; rewrite -ec -?ed ?e3 //; slia.
- by rewrite -ec ?e4 //; slia.
Qed.
End Rows.

Lemma even_bounds (r : rounds) : ~~ odd (r_F r) -> (0 < r_P r)%N ->
  (r_F r %/ 2 + r_P r + r_F r %/ 2 <= rounds_total r)%N /\
  (rounds_total r - 1 - r_F r %/ 2 = (r_F r %/ 2 + r_P r).-1)%N.
Proof.
move=> even_F r0; have e2 : (r_F r = r_F r %/ 2 + r_F r %/ 2)%N.
  by rewrite addnn -[LHS]odd_double_half (negPf even_F) add0n divn2.
by split; [rewrite /rounds_total {3}e2; slia|rewrite /rounds_total {1}e2; slia].
Qed.

(** * Optimizing any matrix and any constants *)
Section Optimize.
Variables (F : fieldType) (t1 : nat) (M : 'M[F]_(1 + t1)) (r : rounds).
Local Notation t := (1 + t1)%N.

Lemma optimized_ok : (0 < t1 < 8)%N -> (0 < r_P r)%N ->
  (exists om, mds_generate_optimized (ofM M) t r = Ret om) <->
  [/\ M \in unitmx, drsubmx M \in unitmx &
   forall i j : 'I_t, (i == 0) || (j == 0) ->
     let x := (block_mx (ulsubmx M) (ursubmx M) (invmx (drsubmx M) *m dlsubmx M) 1%:M : 'M_t) i j in
     x != 0 /\ x != 1].
Proof.
move=> ht1 r0; rewrite mds_generate_optimizedE //; split.
  case: and3P => [[u uh /and4P [d0 d1 /forallP dr /forallP dc]] _|_ []] //.
  split=> // i j; rewrite -(splitK i) -(splitK j).
  case: (split i) => {}i; case: (split j) => {}j; rewrite /unsplit ?ord1.
  - by move=> _; rewrite block_mxEul !mxE (_ : lshift t1 0 = 0) //; apply: val_inj.
  - by move=> _; rewrite block_mxEur; have := dr j; case/andP.
  - by move=> _; rewrite block_mxEdl; have := dc i; case/andP.
  - by [].
move=> [u uh D]; exists (opt_result M r); case: and3P => // -[]; split=> //.
have D0 (i j : 'I_t) := D i j; rewrite /= in D0.
apply/and4P; split.
- have [h _] := D0 (lshift _ 0) (lshift _ 0) isT; move: h.
  by rewrite block_mxEul !mxE (_ : lshift t1 0 = 0) //; apply: val_inj.
- have [_ h] := D0 (lshift _ 0) (lshift _ 0) isT; move: h.
  by rewrite block_mxEul !mxE (_ : lshift t1 0 = 0) //; apply: val_inj.
- apply/forallP => j; have [h h'] := D0 (lshift _ 0) (rshift 1 j) isT.
  by rewrite block_mxEur in h h'; rewrite h h'.
- apply/forallP => i; have [h h'] := D0 (rshift 1 i) (lshift _ 0) (orbT _).
  by rewrite block_mxEdl in h h'; rewrite h h'.
Qed.

Lemma calc_equivalent_panic : (0 < t1 <= 8)%N -> (0 < r_P r)%N ->
  calc_equivalent_matrices (ofM M) r = Panic <-> drsubmx M \notin unitmx.
Proof. by move=> ht1 r0; rewrite calc_equivalentE //; case: (_ \in unitmx). Qed.

Lemma optimized_result om : (0 < t1 < 8)%N -> (0 < r_P r)%N ->
  mds_generate_optimized (ofM M) t r = Ret om -> om = opt_result M r /\ M \in unitmx /\ drsubmx M \in unitmx.
Proof.
by move=> ht1 r0; rewrite mds_generate_optimizedE //; case: and3P => // -[u uh _] [<-].
Qed.

Lemma opt_result_factorization : drsubmx M \in unitmx -> let om := opt_result M r in
  sparse_factorization M (toM t t (om_M_i om)) (om_M_00 om)
    (fun j => (toM t1 1 (nth (Rmat 0 0 [::]) (om_w_hat_collection om) j))^T)
    (fun j => (toM 1 t1 (nth (Rmat 0 0 [::]) (om_v_collection om) j))^T) (r_P r).
Proof.
move=> uh; have [T [T0 T1 T2]] := equivalent_factorization (r_P r) uh.
exists T; split; rewrite /= ?toM_ofM // => j lt.
rewrite !(nth_map 0%N) ?size_iota // !nth_iota // !add0n !toM_ofM.
exact: T2.
Qed.

Lemma optimized_matrices om : (0 < t1 < 8)%N -> (0 < r_P r)%N ->
  mds_generate_optimized (ofM M) t r = Ret om ->
  let Mi := toM t t (om_M_inverse om) in
  let M' := toM t t (om_M_prime om) in
  let M'' := toM t t (om_M_doubleprime om) in
  let Mh := toM t1 t1 (om_M_hat_inverse om) in
  [/\ [/\ Mi *m M = 1%:M, M *m Mi = 1%:M, Mh *m drsubmx M = 1%:M & drsubmx M *m Mh = 1%:M],
      [/\ toM t1 t1 (om_M_hat om) = drsubmx M, toM 1 t1 (om_v om) = ursubmx M,
          toM t1 1 (om_w om) = dlsubmx M & om_M_00 om = M 0 0],
      [/\ M' *m M'' = M, ulsubmx M' = 1%:M, ursubmx M' = 0, dlsubmx M' = 0 & drsubmx M'' = 1%:M],
      size (om_v_collection om) = r_P r /\ size (om_w_hat_collection om) = r_P r &
      sparse_factorization M (toM t t (om_M_i om)) (om_M_00 om)
        (fun j => (toM t1 1 (nth (Rmat 0 0 [::]) (om_w_hat_collection om) j))^T)
        (fun j => (toM 1 t1 (nth (Rmat 0 0 [::]) (om_v_collection om) j))^T) (r_P r)].
Proof.
move=> ht1 r0 /optimized_result [] // -> [u uh] Mi M' M'' Mh.
split; last exact: opt_result_factorization.
- by rewrite /Mi /Mh /= !toM_ofM !mulVmx ?mulmxV.
- by rewrite /= !toM_ofM.
- rewrite /M' /M'' /= !toM_ofM /diag1 /sparse2 /w_hat_mx mulmx_block !mul0mx !mul1mx !addr0 !add0r mulmx1.
  rewrite mulmxA mulmxV // mul1mx !block_mxKul !block_mxKur !block_mxKdl !block_mxKdr; split=> //.
  rewrite -[RHS](submxK (M : 'M_(1 + t1))); congr block_mx.
  by apply/matrixP => i j; rewrite !ord1 !mxE lshift0 eqxx mulr1n.
- by rewrite /= !size_map !size_iota.
Qed.

Variable arc : rmat F.
Hypothesis wf_arc : wf_shape (rounds_total r) t arc.

Lemma optimized_constants_ok : (t1 < 8)%N -> (0 < rounds_total r)%N ->
  (exists d, arc_generate_optimized (@row_vector_vec F) arc (ofM M) r = Ret d) <-> M \in unitmx.
Proof.
move=> t8 R0; rewrite {1}(tab_row_of wf_arc) arc_generate_optimizedE //.
by case: (M \in unitmx); split=> //; [move=> _; eexists|case].
Qed.

Lemma optimized_constants d : (t1 < 8)%N -> (0 < r_P r)%N -> ~~ odd (r_F r) ->
  arc_generate_optimized (@row_vector_vec F) arc (ofM M) r = Ret d ->
  wf_shape (rounds_total r) t d /\
  equivalent_constants M (@row_of _ t1 arc) (@row_of _ t1 d) (r_F r %/ 2) (r_P r).
Proof.
move=> t8 r0 even_F; rewrite {1}(tab_row_of wf_arc) arc_generate_optimizedE //; last first.
  by rewrite /rounds_total; slia.
case u: (M \in unitmx) => // -[<-]; split; first exact: wf_mkm_shape.
have [hR hi] := even_bounds even_F r0.
have := @opt_rows_equivalent _ _ M (@row_of _ t1 arc) (r_F r %/ 2) (r_P r) u r0.
apply: (equivalent_constants_ext hR r0) => // k hk.
by rewrite row_of_tab // hi.
Qed.

(** Parameters optimized by the generator permute alike. *)
Lemma optimized_params_permute om d a bits (st : seq F) :
  (0 < t1 < 8)%N -> (0 < r_P r)%N -> ~~ odd (r_F r) ->
  mds_generate_optimized (ofM M) t r = Ret om ->
  arc_generate_optimized (@row_vector_vec F) arc (ofM M) r = Ret d -> size st = t ->
  let P := Params t t1 bits a r (ofM M) arc d om in
  wf_params P /\ permute P st = unoptimized_permute P st.
Proof.
move=> ht1 r0 ev eo ed sz P; have [t10 t18] := andP ht1.
have [eom [u uh]] := optimized_result ht1 r0 eo.
have [wd ec] := optimized_constants t18 r0 ev ed.
have shape n m (A : 'M[F]_(n, m)) : wf_shape n m (ofM A) by apply: wf_ofM.
have wf : wf_params P.
  rewrite /wf_params /P eom /= eqxx !shape wf_arc wd !size_map !size_iota eqxx /=.
  by rewrite !all_map; apply/andP; split; apply/allP => x _ /=; apply: shape.
split=> //; apply: (generic_opt_unopt wf) => //; last by rewrite /= toM_ofM.
by rewrite /= toM_ofM eom; apply: opt_result_factorization.
Qed.

(** With [row_vector] of the present matrix library. *)
Lemma present_library_panics : (1 < rounds_total r)%N -> (r_F r %/ 2 < rounds_total r - 1 - r_F r %/ 2)%N ->
  arc_generate_optimized (@row_vector F) arc (ofM M) r = Panic.
Proof.
move=> R1 lt; rewrite /arc_generate_optimized transpose_ofM bind_ret.
case: mds_inverse => //= inv.
rewrite usubP (ltnW R1) bind_ret usubP.
case: leqP => // h; rewrite bind_ret /range.
have [n ->] : exists n, (rounds_total r - 1 - r_F r %/ 2 - r_F r %/ 2)%N = n.+1.
  by exists (rounds_total r - 1 - r_F r %/ 2 - r_F r %/ 2).-1; rewrite prednK // subn_gt0.
have -> : iota (r_F r %/ 2) n.+1 = iota (r_F r %/ 2) n ++ [:: (r_F r %/ 2 + n)%N].
  by rewrite -(iotaD _ n 1) addn1.
rewrite rev_cat /= /arc_step.
have /wf_ofM_iff [A ->] := wf_arc.
by rewrite row_vector_panics // => E; move: R1; rewrite E.
Qed.
End Optimize.

Section Generate.
Variables (L : Type) (PF : prime_field) (Me : merlin) (log2 : Z -> L).
Variable v1_rounds : input L -> alpha -> outcome rounds.
Local Notation p := (pf_p PF).
Variables (M : N) (limbs : nat) (allow : bool).
Local Notation i t := (input_generate log2 M t p limbs allow).
Local Notation gen t := (v1_generate PF Me log2 v1_rounds M t p limbs allow).

Definition generated (t1 : nat) a r (arc : rmat PF) : params PF :=
  let C : 'M_(1 + t1) := cauchy_mx PF (1 + t1) in
  Params (1 + t1) t1 (N.to_nat M) a r (ofM C) arc
    (tab (rounds_total r) (opt_rows C (@row_of _ t1 arc) (rounds_total r - 1 - r_F r %/ 2) (r_F r %/ 2)))
    (opt_result C r).

(** What a successful run returns. *)
Lemma v1_generate_ok a r t1 : (0 < t1 < 8)%N -> (2 ^ 127 <= p)%Z ->
  alpha_generate PF p allow = Ret a -> v1_rounds (i (1 + t1)) a = Ret r -> (0 < r_P r)%N ->
  exists arc, [/\ wf_shape (rounds_total r) (1 + t1) arc,
    v1_generate_arc PF Me (i (1 + t1)) r a = Ret arc & gen (1 + t1) = Ret (generated t1 a r arc)].
Proof.
move=> ht1 big ea er r0.
have [els [E sz _]] := v1_arcE PF Me (i (1 + t1)) r a.
have wf : wf_shape (rounds_total r) (1 + t1) (Rmat (r_P r + r_F r) (1 + t1) els).
  by rewrite /wf_shape /= !eqxx sz eqxx.
exists (Rmat (r_P r + r_F r) (1 + t1) els); split=> //.
rewrite /v1_generate ea bind_ret er bind_ret v1_generate_mdsE // -[in_t _]/(1 + t1)%N.
have [t10 t18] := andP ht1.
have -> : (0 < 1 + t1 <= 8)%N by [].
have /Z.leb_le -> := big; rewrite bind_ret E bind_ret -[in_t _]/(1 + t1)%N.
rewrite cauchy_optimized // bind_ret {1}(tab_row_of wf).
rewrite (arc_generate_optimizedE (cauchy_mx PF (1 + t1))) //; last by rewrite addn_gt0 r0.
by rewrite M_unit // bind_ret.
Qed.

(** The generator can only succeed on supported widths and fields. *)
Lemma v1_generate_inv t P : gen t = Ret P -> (0 < r_P (p_rounds P))%N ->
  exists t1 arc, [/\ t = (1 + t1)%N, (0 < t1 < 8)%N, (2 ^ 127 <= p)%Z,
     wf_shape (rounds_total (p_rounds P)) t arc & [/\ alpha_generate PF p allow = Ret (p_alpha P),
     v1_rounds (i t) (p_alpha P) = Ret (p_rounds P),
     v1_generate_arc PF Me (i t) (p_rounds P) (p_alpha P) = Ret arc &
     P = generated t1 (p_alpha P) (p_rounds P) arc]].
Proof.
move=> H; have := H; rewrite {1}/v1_generate; case ea: alpha_generate => [a|] //.
rewrite bind_ret; case er: (v1_rounds _ a) => [r|] //.
rewrite bind_ret v1_generate_mdsE // -[in_t _]/t.
case: andP => // -[ht /Z.leb_le big]; rewrite bind_ret.
have [els [E sz _]] := v1_arcE PF Me (i t) r a; rewrite E bind_ret.
case: t ht H er E sz => // t1 /andP [_ ht] H er E sz.
have [h|t10] := boolP ((t1 == 0%N) || (8 <= t1)%N).
  by rewrite mds_generate_optimized_bad.
have {}t10 : (0 < t1 < 8)%N by move: t10; rewrite negb_or lt0n -ltnNge.
move=> H' r0; have [eP1 eP2] : p_rounds P = r /\ p_alpha P = a.
  move: H'; case: mds_generate_optimized => //= om.
  by case: arc_generate_optimized => //= oa [<-].
rewrite eP1 in r0 *; rewrite eP2.
have [arc [wf Ea Eg]] := v1_generate_ok t10 big ea er r0.
by exists t1, arc; split=> //; split=> //; move: Eg; rewrite H => -[->].
Qed.

Section Even.
Variables (t1 : nat) (a : alpha) (r : rounds) (arc : rmat PF).
Hypotheses (ht1 : (0 < t1 < 8)%N) (big : (2 ^ 127 <= p)%Z) (r0 : (0 < r_P r)%N).
Hypotheses (wf_arc : wf_shape (rounds_total r) (1 + t1) arc).
Local Notation P := (generated t1 a r arc).

Lemma generated_wf : wf_params P /\ wf_unused P.
Proof.
have shape n m (A : 'M[PF]_(n, m)) : wf_shape n m (ofM A) by apply: wf_ofM.
split.
  rewrite /wf_params /= eqxx !shape wf_mkm_shape wf_arc !size_map !size_iota eqxx /=.
  by rewrite !all_map; apply/andP; split; apply/allP => x _ /=; apply: shape.
by rewrite /wf_unused /= !shape.
Qed.

Local Notation C := (cauchy_mx PF (1 + t1)).
Lemma generated_mdsE : toM (1 + t1) (1 + t1) (p_mds P) = C.
Proof. exact: toM_ofM. Qed.

Lemma generated_factorization : let om := p_optimized_mds P in
  sparse_factorization C (toM (1 + t1) (1 + t1) (om_M_i om)) (om_M_00 om)
    (fun j => (toM t1 1 (nth (Rmat 0 0 [::]) (om_w_hat_collection om) j))^T)
    (fun j => (toM 1 t1 (nth (Rmat 0 0 [::]) (om_v_collection om) j))^T) (r_P r).
Proof.
have [T [T0 T1 T2]] := equivalent_factorization (r_P r) (hat_unit big ht1).
exists T; split; rewrite /= ?toM_ofM // => j lt.
rewrite !(nth_map 0%N) ?size_iota // !nth_iota // !add0n !toM_ofM.
exact: T2.
Qed.

Hypothesis even_F : ~~ odd (r_F r).

Lemma generated_constants :
  equivalent_constants C (@row_of _ t1 (p_arc P)) (@row_of _ t1 (p_optimized_arc P)) (r_F r %/ 2) (r_P r).
Proof.
have [hR hi] := even_bounds even_F r0.
have := @opt_rows_equivalent _ _ C (@row_of _ t1 arc) (r_F r %/ 2) (r_P r) (M_unit big ht1) r0.
apply: (equivalent_constants_ext hR r0) => // k hk.
by rewrite /= row_of_tab // hi.
Qed.

Lemma generated_permute (st : seq PF) : size st = (1 + t1)%N ->
  permute P st = unoptimized_permute P st.
Proof.
move=> sz; have [wf _] := generated_wf.
apply: (generic_opt_unopt wf) => //.
  by have := generated_factorization; rewrite -{1}generated_mdsE.
by have := generated_constants; rewrite -{1}generated_mdsE.
Qed.

Lemma generated_hash (inp st : seq PF) : size inp = (1 + t1)%N -> size st = (1 + t1)%N ->
  n_to_1_fixed_hash P inp st = unoptimized_n_to_1_fixed_hash P inp st.
Proof.
by move=> si ss; rewrite hash_fresh ?ss // unopt_hash_fresh ?ss // generated_permute.
Qed.

Lemma generated_textbook e (st : seq PF) : a = Exponent e -> size st = (1 + t1)%N ->
  permute P st = Ret (ofV (poseidon (fun x => x ^+ N.to_nat e) C (@row_of _ t1 arc)
                         (r_F r %/ 2) (r_P r) (toV (1 + t1) st))).
Proof.
move=> ea sz; have [wf _] := generated_wf; rewrite generated_permute //.
by rewrite (@generic_textbook _ P wf e) // generated_mdsE.
Qed.

Lemma generated_bij e : a = Exponent e -> alpha_generate PF p allow = Ret a ->
  forall y : seq PF, size y = (1 + t1)%N ->
  exists! x : seq PF, size x = (1 + t1)%N /\ permute P x = Ret y.
Proof.
move=> ea ga y sz; rewrite ea in ga; have bs := generate_bijective ga.
have [g gK Kg] := bij_poseidon (@row_of _ t1 arc) bs (M_unit big ht1) (r_F r %/ 2) (r_P r).
exists (ofV (g (toV (1 + t1) y))); split.
  split; first by rewrite size_ofV.
  by rewrite (generated_textbook ea) ?size_ofV // toV_ofV Kg ofV_toV.
by move=> x [sx]; rewrite (generated_textbook ea) // => -[<-]; rewrite toV_ofV gK ofV_toV.
Qed.
End Even.

(** The same, for what the generator returns. *)
Section Returned.
Variables (t : nat) (P : params PF).
Hypotheses (gP : gen t = Ret P) (r0 : (0 < r_P (p_rounds P))%N).

Lemma returned_shape : [/\ (1 < t <= 8)%N, (2 ^ 127 <= p)%Z, wf_params P, wf_unused P &
  [/\ p_t P = t, p_M P = N.to_nat M, alpha_generate PF p allow = Ret (p_alpha P),
      v1_rounds (i t) (p_alpha P) = Ret (p_rounds P) &
      toM t t (p_mds P) = cauchy_mx PF t /\
      v1_generate_arc PF Me (i t) (p_rounds P) (p_alpha P) = Ret (p_arc P)]].
Proof.
have [t1 [arc [et ht1 big wfa [ea er eg eP]]]] := v1_generate_inv gP r0.
subst t; have [wf wfu] := generated_wf (p_alpha P) wfa.
rewrite -eP in wf wfu; split=> //; split=> //; try by rewrite eP.
by split; [rewrite eP generated_mdsE | rewrite eg eP].
Qed.

Hypothesis even_F : ~~ odd (r_F (p_rounds P)).

Lemma returned_hash (inp st : seq PF) : size inp = t -> size st = t ->
  n_to_1_fixed_hash P inp st = unoptimized_n_to_1_fixed_hash P inp st.
Proof.
have [t1 [arc [et ht1 big wfa [ea er eg eP]]]] := v1_generate_inv gP r0.
by move: et wfa => -> wfa si ss; rewrite eP; apply: generated_hash.
Qed.

Lemma returned_textbook e (st : seq PF) : p_alpha P = Exponent e -> size st = t ->
  permute P st = Ret (ofV (poseidon (fun x => x ^+ N.to_nat e) (cauchy_mx PF (1 + p_t1 P))
    (@row_of _ (p_t1 P) (p_arc P)) (r_F (p_rounds P) %/ 2) (r_P (p_rounds P)) (toV (1 + p_t1 P) st))).
Proof.
have [t1 [arc [et ht1 big wfa [ea er eg eP]]]] := v1_generate_inv gP r0.
move: et wfa => -> wfa ae ss; rewrite eP /=; exact: generated_textbook.
Qed.

Lemma returned_bij e : p_alpha P = Exponent e -> forall y : seq PF, size y = t ->
  exists! x : seq PF, size x = t /\ permute P x = Ret y.
Proof.
have [t1 [arc [et ht1 big wfa [ea er eg eP]]]] := v1_generate_inv gP r0.
move: et wfa => -> wfa ae; rewrite eP; exact: generated_bij ae ea.
Qed.
End Returned.

Lemma v1_generate_succeeds t a r : (1 < t <= 8)%N -> (2 ^ 127 <= p)%Z ->
  alpha_generate PF p allow = Ret a -> v1_rounds (i t) a = Ret r -> (0 < r_P r)%N ->
  exists P, [/\ gen t = Ret P, p_alpha P = a & p_rounds P = r].
Proof.
case: t => // t1 ht big ea er r0.
have [arc [_ _ E]] := v1_generate_ok ht big ea er r0.
by exists (generated t1 a r arc).
Qed.
Lemma v1_generate_panics t : ~~ (1 < t <= 8)%N \/ (p < 2 ^ 127)%Z -> gen t = Panic.
Proof.
move=> H; rewrite /v1_generate; case: alpha_generate => [a|] //; rewrite bind_ret.
case: (v1_rounds _ a) => [r|] //; rewrite bind_ret v1_generate_mdsE // -[in_t _]/t.
case: andP => // -[ht /Z.leb_le big]; case: H => [bt|]; last by lia.
have et : t = (1 + 0)%N.
  by move: ht bt; case: (t) => [|[|k]] //= ->.
rewrite et bind_ret; by case: v1_generate_arc.
Qed.
End Generate.
