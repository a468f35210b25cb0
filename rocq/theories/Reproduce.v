(** The generator run for Fq, 128 bits and widths 2..8 returns exactly the shipped
    parameter sets. *)
From Coq Require Import ZArith NArith Reals Lia.
From mathcomp Require Import all_ssreflect all_algebra.
From Verif Require Import Slia Base Fq Matrix MatrixSpec MatrixProofs Params Montgomery Permutation Spec.
From Verif Require Import PermutationProofs PoseidonProofs Check CheckSound BigField RateChecks Shipped Cauchy.
From Verif Require Import PrimeField Alpha Transcript Mds MdsProofs MdsCauchy ArcProofs V1 V1Proofs.
From Verif Require Import Rounds RoundsSpec RoundsProps Strobe MerlinShipped.
Set Implicit Arguments.
Unset Strict Implicit.
Unset Printing Implicit Defensive.
Import GRing.Theory.
Local Open Scope ring_scope.
Delimit Scope Z_scope with Z.

(** * Uniqueness of the optimized matrices and constants *)
Section Unique.
Variables (F : fieldType) (t1 : nat).
Local Notation mat := 'M[F]_(1 + t1).
Local Notation vec := 'cV[F]_(1 + t1).
Variable M : mat.

Lemma factorization_facts Mi m00 w v Rp : sparse_factorization M Mi m00 w v Rp ->
  exists N : nat -> 'M[F]_t1, [/\ N 0%N = 1%:M, Mi = diag1 (N Rp),
    forall j, (j < Rp)%N -> m00%:M = ulsubmx M,
    forall j, (j < Rp)%N -> N j.+1 = N j *m drsubmx M &
    forall j, (j < Rp)%N -> v j = N j *m dlsubmx M /\ w j *m N j.+1 = ursubmx M].
Proof.
case=> N [N0 EMi H]; exists N.
have H' j : (j < Rp)%N -> [/\ m00%:M = ulsubmx M, w j *m N j.+1 = ursubmx M, v j = N j *m dlsubmx M & N j.+1 = N j *m drsubmx M].
  move/H; rewrite /sparse /diag1 -{1}[M]submxK !mulmx_block !mulmx0 !mul0mx !mul1mx !mulmx1 !addr0 !add0r.
  by case/eq_block_mx.
by split=> // j /H' [].
Qed.

Lemma factorization_unique Mi m00 w v Mi' m00' w' v' Rp : drsubmx M \in unitmx -> (0 < Rp)%N ->
  sparse_factorization M Mi m00 w v Rp -> sparse_factorization M Mi' m00' w' v' Rp ->
  [/\ Mi = Mi', m00 = m00' & forall j, (j < Rp)%N -> v j = v' j /\ w j = w' j].
Proof.
move=> u R0 /factorization_facts [N [N0 E1 E2 E3 E4]] /factorization_facts [N' [N0' E1' E2' E3' E4']].
have EN j : (j <= Rp)%N -> N j = N' j.
  by elim: j => [|j IH] h; rewrite ?N0 ?N0' // E3 // E3' // IH // ltnW.
have uN j : (j <= Rp)%N -> N j \in unitmx.
  by elim: j => [|j IH] h; rewrite ?N0 ?unitmx1 // E3 // unitmx_mul u andbT IH // ltnW.
split; first by rewrite E1 E1' EN.
  have : m00%:M = m00'%:M :> 'M[F]_1 by rewrite (E2 _ R0) (E2' _ R0).
  by move/matrixP/(_ 0 0); rewrite !mxE.
move=> j h; have [-> hw] := E4 _ h; have [-> hw'] := E4' _ h; rewrite EN 1?ltnW //; split=> //.
by apply: (can_inj (mulmxK (uN _ h))); rewrite hw EN // hw'.
Qed.

Lemma constants_unique (c d d' : nat -> vec) Rf Rp : M \in unitmx -> (0 < Rp)%N ->
  equivalent_constants M c d Rf Rp -> equivalent_constants M c d' Rf Rp ->
  [/\ forall r, (r < Rf)%N -> d r = d' r, d Rf = d' Rf,
      forall r, (r.+1 < Rp)%N -> d (Rf + r.+1)%N 0 0 = d' (Rf + r.+1)%N 0 0 &
      forall r, (r < Rf)%N -> d (Rf + Rp + r)%N = d' (Rf + Rp + r)%N].
Proof.
move=> u R0 [H1 H2 [e [E0 E1 E2 E3]]] [H1' H2' [e' [E0' E1' E2' E3']]].
have step r : (r.+1 < Rp)%N -> e r.+1 = e' r.+1 -> d (Rf + r.+1)%N 0 0 = d' (Rf + r.+1)%N 0 0 /\ e r = e' r.
  move=> h; rewrite E2 // E2' // => /(can_inj (mulKmx u)) E.
  have hd : d (Rf + r.+1)%N 0 0 = d' (Rf + r.+1)%N 0 0.
    move/matrixP/(_ 0 0): (E); rewrite !mxE /= !mulr1 E1 1?ltnW // E1' 1?ltnW //.
    by rewrite !subrr !add0r.
  by split=> //; move: E; rewrite hd => /addIr /addIr.
have Ee k : (k < Rp)%N -> e (Rp.-1 - k)%N = e' (Rp.-1 - k)%N.
  elim: k => [|k IH] h; first by rewrite subn0 E3 E3'.
  have Ek : (Rp.-1 - k)%N = (Rp.-1 - k.+1).+1 by move: h; clear; slia.
  by have := IH (ltnW h); rewrite Ek => /step []//; move: h; clear; slia.
have Ee' r : (r < Rp)%N -> e r = e' r.
  move=> h; have -> : r = (Rp.-1 - (Rp.-1 - r))%N by move: h; clear; slia.
  by apply: Ee; move: h; clear; slia.
split.
- by move=> r h; rewrite H1 // H1'.
- by rewrite -E0 -E0' Ee'.
- by move=> r h; have [] := step r h (Ee' _ h).
- by move=> r h; rewrite H2 // H2'.
Qed.
End Unique.

(** * The words the permutation does not read *)
(** The rows of [optimized_arc] after the first partial round have one non-zero word. *)
Definition tails_zero (p : params limbs) : bool :=
  let Rf := (r_F (p_rounds p) %/ 2)%N in
  all (fun k => all (fun j => (limbs_val (nth (mkLimbs 0 0 0 0) (elements (p_optimized_arc p)) (k * p_t p + j)) =? 0)%Z)
    (iota 1 (p_t1 p))) (iota Rf.+1 (r_P (p_rounds p)).-1).
Lemma tails_checked : all tails_zero shipped_raw = true.
Proof. vm_cast_no_check (erefl true). Qed.

Lemma limbs0 l : limbs_val l = 0%Z -> from_montgomery_limbs l = 0.
Proof. by rewrite from_montgomery_limbsE => ->. Qed.

Lemma shipped_tails p k j : List.In p shipped -> (0 < k < 31)%N -> (0 < j <= p_t1 p)%N ->
  nth 0 (elements (p_optimized_arc p)) ((4 + k) * p_t p + j) = 0.
Proof.
move=> hp hk hj; have [_ _ _ _ hr] := shipped_spec hp; have [r hin E] := shipped_rawP hp.
have := all_In tails_checked hin; rewrite /tails_zero.
have -> : p_rounds r = RoundNumbers 31 8 by rewrite -hr E.
have -> : p_t1 r = p_t1 p by rewrite E.
have -> : p_t r = p_t p by rewrite E.
have -> : elements (p_optimized_arc p) = map from_montgomery_limbs (elements (p_optimized_arc r)) by rewrite E.
move: (elements _) => els /allP /(_ (4 + k)%N); rewrite mem_iota -[(5 + _)%N]/(35%N).
have -> : (4 < 4 + k < 35)%N by move: hk; clear; slia.
move=> /(_ isT) /allP /(_ j); rewrite mem_iota.
have -> : (0 < j < 1 + p_t1 p)%N by move: hj; clear; slia.
move=> /(_ isT) /Z.eqb_eq /limbs0 H.
have [h|h] := ltnP ((4 + k) * p_t p + j) (size els); last by rewrite nth_default // size_map.
by rewrite (nth_map (mkLimbs 0 0 0 0)).
Qed.

(** * Shipped parameters are generated parameters *)
Lemma params_ext A (p p' : params A) :
  [/\ p_t p = p_t p', p_t1 p = p_t1 p', p_M p = p_M p', p_alpha p = p_alpha p' & p_rounds p = p_rounds p'] ->
  [/\ p_mds p = p_mds p', p_arc p = p_arc p', p_optimized_arc p = p_optimized_arc p' &
      p_optimized_mds p = p_optimized_mds p'] -> p = p'.
Proof. by case: p => ? ? ? ? ? ? ? ? ?; case: p' => ? ? ? ? ? ? ? ? ? /= [-> -> -> -> ->] [-> -> -> ->]. Qed.
Lemma om_ext A (o o' : optimized_mds A) :
  [/\ om_M_hat o = om_M_hat o', om_v o = om_v o', om_w o = om_w o', om_M_prime o = om_M_prime o' &
      om_M_doubleprime o = om_M_doubleprime o'] ->
  [/\ om_M_inverse o = om_M_inverse o', om_M_hat_inverse o = om_M_hat_inverse o' & om_M_00 o = om_M_00 o'] ->
  [/\ om_M_i o = om_M_i o', om_v_collection o = om_v_collection o' & om_w_hat_collection o = om_w_hat_collection o'] ->
  o = o'.
Proof. by case: o => ? ? ? ? ? ? ? ? ? ? ?; case: o' => ? ? ? ? ? ? ? ? ? ? ? /= [-> -> -> -> ->] [-> -> ->] [-> -> ->]. Qed.

Lemma toM_inj (F : fieldType) r c (m m' : rmat F) : wf_shape r c m -> wf_shape r c m' -> toM r c m = toM r c m' -> m = m'.
Proof. by move=> w w' E; rewrite -(ofM_toM w) -(ofM_toM w') E. Qed.

Lemma mulmx1_inv (F : fieldType) n (A B : 'M[F]_n) : A *m B = 1%:M -> B = invmx A.
Proof.
move=> h; have [u _] := mulmx1_unit h.
by rewrite -[B]mul1mx -(mulVmx u) -mulmxA h mulmx1.
Qed.

Section One.
Variable p : params Fq_fieldType.
Hypothesis hp : List.In p shipped.
Local Notation t1 := (p_t1 p).

Lemma Fq_big : (2 ^ 127 <= pf_p Fq_pf)%Z. Proof. by vm_compute. Qed.

Theorem shipped_generated : p = generated (PF := Fq_pf) 128 t1 (p_alpha p) (p_rounds p) (p_arc p).
Proof.
have [ht ht1 hM ha hr] := shipped_spec hp; have wf := shipped_wf hp.
have [_ wu _ hf /andP [hk hd]] := and5P (shipped_check hp).
have t17 : (0 < t1 < 8)%N by move: ht1; clear; slia.
have CM := shipped_mds hp.
have [_ w1 w2 w3 /and5P [w4 /eqP s5 w5 /eqP s6 w6]] := and5P wf.
rewrite ht in w1 w2 w3 w4.
have Rp0 : (0 < r_P (p_rounds p))%N by rewrite hr.
have evF : ~~ odd (r_F (p_rounds p)) by rewrite hr.
have F1 := check_factor_sound ht erefl wf hf.
have F2 := check_consts_sound ht erefl wf Rp0 hk.
have [[D1 D2 D3] [D4 D5] [D6 D7] [D8 D9 D10]] := check_derived_sound ht erefl wf wu hd.
have [u1 u2 u3 u4 /and3P [u5 u6 u7]] := and5P wu; rewrite ht in u4 u5 u6.
rewrite /pM CM in F1 F2 D1 D2 D3 D4 D5 D6 D7 D8.
set G := generated _ _ _ _ _.
have [gw gu] := @generated_wf Fq_pf 128 t1 (p_alpha p) (p_rounds p) (p_arc p) w2.
have G1 := @generated_factorization Fq_pf 128 t1 (p_alpha p) (p_rounds p) (p_arc p) t17 Fq_big.
have G2 := @generated_constants Fq_pf 128 t1 (p_alpha p) (p_rounds p) (p_arc p) t17 Fq_big Rp0 evF.
have uH := hat_unit Fq_big t17; have uM := M_unit Fq_big t17.
have [X1 X2 X3] := factorization_unique uH Rp0 F1 G1.
rewrite -/G in G1 G2 gw gu.
have [Y1 Y2 Y3 Y4] := constants_unique uM Rp0 F2 G2.
have [_ _ _ v3 /and5P [v4 /eqP v5 v6 /eqP v7 v8]] := and5P gw.
have [B1 B2 B3 B4] : [/\ ulsubmx (toM (1 + t1) (1 + t1) (om_M_doubleprime (p_optimized_mds p))) = (cauchy_mx Fq_fieldType (1 + t1) 0 0)%:M,
    ursubmx (toM (1 + t1) (1 + t1) (om_M_doubleprime (p_optimized_mds p))) = ursubmx (cauchy_mx Fq_fieldType (1 + t1)),
    dlsubmx (toM (1 + t1) (1 + t1) (om_M_doubleprime (p_optimized_mds p))) = w_hat_mx (cauchy_mx Fq_fieldType (1 + t1)) &
    drsubmx (toM (1 + t1) (1 + t1) (om_M_prime (p_optimized_mds p))) = drsubmx (cauchy_mx Fq_fieldType (1 + t1))].
  move: D8; rewrite {1}D9; move: (drsubmx _) => N; rewrite -{1}[toM _ _ (om_M_doubleprime _)]submxK D10 /diag1 mulmx_block.
  rewrite !mul0mx !mul1mx !mulmx1 !addr0 !add0r -[RHS]submxK => /eq_block_mx [-> -> E3 E4].
  rewrite E4 in E3 *; split=> //; first by rewrite A00_ul.
  by rewrite /w_hat_mx -E3 mulKmx.
apply: params_ext; split=> //=.
- by apply: (toM_inj w1 (wf_ofM _)); rewrite toM_ofM CM.
- apply: (toM_inj w3 v3); apply/matrixP => i j.
  have row : rcrow t1 (p_optimized_arc p) i = row_of t1 (p_optimized_arc G) i.
    have := ltn_ord i; move: (nat_of_ord i) => k {i j}; rewrite /rounds_total {1 2}hr -[(_ + _)%N]/39%N => hk39.
     have [k4|k4] := ltnP k 4; first by apply: Y1; rewrite hr.
    move: Y2 Y3 Y4; rewrite hr -[(_ %/ 2)%N]/4%N -[r_P _]/31%N => Y2 Y3 Y4.
    have [->|n4] := eqVneq k 4%N; first exact: Y2.
    have [k35|k35] := leqP 35 k.
      have -> : k = (4 + 31 + (k - 35))%N by move: k35; clear; slia.
      by apply: Y4; move: hk39; clear; slia.
    have Ek : k = (4 + (k - 5).+1)%N by move: k4 n4; clear; slia.
    have lk : ((k - 5).+1 < 31)%N by move: k35; clear; slia.
    apply/colP => a; have [a0|a0] := posnP a.
      have -> : a = 0 by apply: val_inj.
      by rewrite Ek; exact: Y3.
    have la : (0 < a <= t1)%N by rewrite a0 -ltnS; exact: (ltn_ord a).
    have := shipped_tails hp (lk : (0 < (k - 5).+1 < 31)%N) la; rewrite ht -Ek => Z0.
    rewrite [LHS]mxE Z0 Ek.
    rewrite row_of_tab; last by rewrite /rounds_total hr -[(_ + r_F _)%N]/39%N; move: lk; clear; slia.
    rewrite /opt_rows /rows_after /rounds_total hr -[r_P _]/31%N -[r_F _]/8%N.
    have -> : (31 + 8 - 1 - 8 %/ 2 = 34)%N by []. have -> : (34 - 8 %/ 2 = 30)%N by [].

    rewrite ifN; last by move: lk; clear; slia.
    rewrite ifN; last by move: lk; clear; slia.
    rewrite ifT; last by move: lk; clear; slia.
    rewrite /head0 !mxE; case: eqP => [Ea|_]; last by rewrite mulr0.
    by rewrite Ea in a0.
  by move/colP/(_ j): row; rewrite !mxE.
- apply: om_ext; split.
  + by apply: (toM_inj u1 (wf_ofM _)); rewrite toM_ofM.
  + by apply: (toM_inj u2 (wf_ofM _)); rewrite toM_ofM.
  + by apply: (toM_inj u3 (wf_ofM _)); rewrite toM_ofM.
  + by apply: (toM_inj u4 (wf_ofM _)); rewrite toM_ofM D9 B4.
  + by apply: (toM_inj u5 (wf_ofM _)); rewrite toM_ofM -[LHS]submxK B1 B2 B3 D10.
  + by apply: (toM_inj u6 (wf_ofM _)); rewrite toM_ofM; exact: mulmx1_inv D2.
  + by apply: (toM_inj u7 (wf_ofM _)); rewrite toM_ofM; exact: mulmx1_inv D5.
  + exact: X2.
  + by apply: (toM_inj w4 v4); exact: X1.
  + apply: (@eq_from_nth _ (Rmat 0 0 [::])); first by rewrite v5 s5.
    move=> j; rewrite s5 => hj; have [X _] := X3 _ hj.
    apply: (@toM_inj _ 1 t1); [by apply: (all_nthP _ w5); rewrite s5 | by apply: (all_nthP _ v6); rewrite v5 |].
    exact: trmx_inj X.
  + apply: (@eq_from_nth _ (Rmat 0 0 [::])); first by rewrite v7 s6.
    move=> j; rewrite s6 => hj; have [_ X] := X3 _ hj.
    apply: (@toM_inj _ t1 1); [by apply: (all_nthP _ w6); rewrite s6 | by apply: (all_nthP _ v8); rewrite v7 |].
    exact: trmx_inj X.
Qed.
End One.

(** * The generator *)
Lemma alpha_q allow : alpha_generate Fq_pf q allow = Ret (Exponent 17).
Proof. by case: allow; vm_compute. Qed.

Local Notation generator lm allow t :=
  (v1_generate Fq_pf merlin128 (log2 lm) (v1_rounds lm) 128 t q 4 allow).

Theorem reproduced lm allow p : accurate lm -> List.In p shipped -> generator lm allow (p_t p) = Ret p.
Proof.
move=> acc hp; have [ht ht1 hM ha hr] := shipped_spec hp.
have t17 : (0 < p_t1 p < 8)%N by move: ht1; clear; slia.
have t28 : (2 <= 1 + p_t1 p <= 8)%N by move: ht1; clear; slia.
have [arc [_ Ea E]] := @v1_generate_ok _ Fq_pf merlin128 (log2 lm) (v1_rounds lm) 128 4 allow
  (Exponent 17) (RoundNumbers 31 8) (p_t1 p) t17 Fq_big (alpha_q allow) (@q_rounds lm _ 4 allow acc t28) isT.
rewrite ht [LHS]E [in RHS](shipped_generated hp) ha hr; congr (Ret (generated _ _ _ _ _)).
have := @shipped_arc _ p hp (input_generate (log2 lm) 128 (1 + p_t1 p) q 4 allow) erefl (esym ht) erefl erefl.
by rewrite [LHS]Ea => -[].
Qed.

(** Every supported width is shipped. *)
Lemma widths_shipped : [seq p_t p | p <- shipped] = iota 2 7.
Proof. by rewrite shippedE. Qed.

Theorem reproduced_widths lm allow t : accurate lm -> (2 <= t <= 8)%N ->
  exists p, [/\ List.In p shipped, p_t p = t & generator lm allow t = Ret p].
Proof.
move=> acc ht; have : t \in iota 2 7 by rewrite mem_iota.
rewrite -widths_shipped => h.
have [p [hp E]] : exists p, List.In p shipped /\ p_t p = t.
  elim: shipped h => //= p l IH; rewrite inE => /orP [/eqP ->|/IH [p' [h1 h2]]]; first by exists p; split=> //; left.
  by exists p'; split=> //; right.
by exists p; split=> //; rewrite -E; exact: reproduced.
Qed.
