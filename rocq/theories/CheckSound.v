(** Soundness of [check_params] over a field. *)
From mathcomp Require Import all_ssreflect all_algebra.
From Verif Require Import Base Matrix MatrixSpec MatrixProofs Params Permutation Spec PermutationProofs Check.
Set Implicit Arguments.
Unset Strict Implicit.
Unset Printing Implicit Defensive.
Import GRing.Theory.
Local Open Scope ring_scope.

Section Sound.
Variable F : fieldType.
Definition field_ops : ops F :=
  Ops 0 1 (fun a b => a + b) (fun a b => a - b) (fun a b => a * b)
    (fun a b => a == b) (fun n => n%:R).
Local Notation o := field_ops.

Definition mrows {r c} (A : 'M[F]_(r, c)) : seq (seq F) :=
  [seq [seq A i j | j <- enum 'I_c] | i <- enum 'I_r].

Lemma eqvP a b : reflect (a = b) (eqv o a b).
Proof.
apply: (iffP idP) => [|->]; last by elim: b => //= x b ->; rewrite eqxx.
by elim: a b => [|x a IH] [|y b] //= /andP [/eqP -> /IH ->].
Qed.

Lemma eqmP a b : reflect (a = b) (eqm o a b).
Proof.
apply: (iffP idP) => [|->].
  by elim: a b => [|x a IH] [|y b] //= /andP [/eqvP -> /IH ->].
elim: b => //= x b ->; rewrite andbT; exact/eqvP.
Qed.

Lemma map_enum_inj n A (f g : 'I_n -> A) :
  [seq f i | i <- enum 'I_n] = [seq g i | i <- enum 'I_n] -> f =1 g.
Proof. by move/eq_in_map => H i; apply: H; rewrite mem_enum. Qed.

Lemma mrows_inj r c (A B : 'M[F]_(r, c)) : mrows A = mrows B -> A = B.
Proof. by move=> /map_enum_inj H; apply/matrixP => i j; have /map_enum_inj := H i; apply. Qed.

Lemma dot_enum n (f g : 'I_n -> F) :
  dot o [seq f i | i <- enum 'I_n] [seq g i | i <- enum 'I_n] = \sum_i f i * g i.
Proof.
by rewrite /dot /= sum_products_foldl add0r zip_map big_map /= big_enum.
Qed.

Lemma mulv_ofV r c (A : 'M[F]_(r, c)) (x : 'cV[F]_c) : mulv o (mrows A) (ofV x) = ofV (A *m x).
Proof. by rewrite /mulv /mrows -map_comp; apply: eq_map => i /=; rewrite dot_enum mxE. Qed.

Lemma nth_enum_map n A (d : A) (f : 'I_n -> A) (i : 'I_n) : nth d [seq f j | j <- enum 'I_n] i = f i.
Proof. by rewrite (nth_map i) ?size_enum_ord // nth_ord_enum. Qed.

Lemma cols_mrows r c (A : 'M[F]_(r, c)) : cols o c (mrows A) = mrows A^T.
Proof.
rewrite /cols /mrows -map_enum_iota; apply: eq_map => j; rewrite -map_comp.
by apply: eq_map => i /=; rewrite nth_enum_map mxE.
Qed.

Lemma mulm_mrows r c s (A : 'M[F]_(r, c)) (B : 'M[F]_(c, s)) :
  mulm o s (mrows A) (mrows B) = mrows (A *m B).
Proof.
rewrite /mulm cols_mrows {1 3}/mrows -map_comp; apply: eq_map => i /=.
rewrite /mulv /mrows -map_comp; apply: eq_map => j /=; rewrite dot_enum mxE.
by apply: eq_bigr => k _; rewrite mxE mulrC.
Qed.

Lemma unitm_mrows n : unitm o n = mrows (1%:M : 'M[F]_n).
Proof.
rewrite /unitm /mrows -map_enum_iota; apply: eq_map => i; rewrite -map_enum_iota.
by apply: eq_map => j; rewrite mxE -val_eqE /=; case: eqP.
Qed.

Lemma rows_toM r c (m : rmat F) : wf_shape r c m -> rows r c (elements m) = mrows (toM r c m).
Proof.
case/and3P=> _ _ /eqP sz; rewrite /rows /mrows -map_enum_iota; apply: eq_map => i.
apply: (@eq_from_nth _ 0).
  rewrite size_map size_enum_ord size_takel // size_drop sz -mulnBl.
  by rewrite leq_pmull // subn_gt0.
rewrite size_takel => [k kc|]; last by rewrite size_drop sz -mulnBl leq_pmull // subn_gt0.
by rewrite nth_take // nth_drop -[k]/(val (Ordinal kc)) nth_enum_map mxE.
Qed.

Lemma row_rcrow t1 R (m : rmat F) r : wf_shape R (1 + t1) m -> (r < R)%N ->
  nth [::] (rows R (1 + t1) (elements m)) r = ofV (rcrow t1 m r).
Proof.
case/and3P=> _ _ /eqP sz rR; rewrite /rows (nth_map 0%N) ?size_iota // nth_iota // add0n.
have le : ((1 + t1) <= size (drop (r * (1 + t1)) (elements m)))%N.
  by rewrite size_drop sz -mulnBl leq_pmull // subn_gt0.
apply: (@eq_from_nth _ 0); rewrite size_takel ?size_ofV // => k kc.
by rewrite nth_take // nth_drop -[k]/(val (Ordinal kc)) nth_ofV mxE.
Qed.

Lemma rows_rcrow t1 R (m : rmat F) : wf_shape R (1 + t1) m ->
  rows R (1 + t1) (elements m) = [seq ofV (rcrow t1 m r) | r <- iota 0 R].
Proof.
move=> wf; apply: (@eq_from_nth _ [::]); rewrite !size_map !size_iota // => r rR.
by rewrite row_rcrow // (nth_map 0%N) ?size_iota // nth_iota.
Qed.

(** ** Blocks *)
Section Blocks.
Variable t1 : nat.
Implicit Type A : 'M[F]_(1 + t1).

Lemma enumS : enum 'I_(1 + t1) = lshift t1 0 :: [seq rshift 1 i | i <- enum 'I_t1].
Proof.
apply: (inj_map val_inj).
rewrite /= val_enum_ord -map_comp /=; congr cons.
by rewrite -[1%N]addn0 iotaDl -val_enum_ord -map_comp; apply: eq_map => i.
Qed.

Lemma mrows_blocks A : mrows A =
  (A 0 0 :: ofR (ursubmx A)) :: [seq (dlsubmx A i 0) :: [seq drsubmx A i j | j <- enum 'I_t1] | i <- enum 'I_t1].
Proof.
have E0 : (0 : 'I_(1 + t1)) = lshift t1 0 by apply: val_inj.
rewrite /mrows enumS /= E0 -map_comp; congr cons.
  by congr cons; rewrite /ofR; apply: eq_map => j; rewrite /= !mxE.
rewrite -map_comp; apply: eq_map => i /=; rewrite !mxE; congr cons.
by rewrite -map_comp; apply: eq_map => j /=; rewrite !mxE.
Qed.

Lemma b00_mrows A : b00 o (mrows A) = A 0 0.
Proof. by rewrite mrows_blocks. Qed.
Lemma b01_mrows A : b01 (mrows A) = ofR (ursubmx A).
Proof. by rewrite mrows_blocks. Qed.
Lemma b10_mrows A : b10 o (mrows A) = ofV (dlsubmx A).
Proof. by rewrite mrows_blocks /b10 /= -map_comp. Qed.
Lemma b11_mrows A : b11 (mrows A) = mrows (drsubmx A).
Proof. by rewrite mrows_blocks /b11 /= -map_comp. Qed.

Lemma ofR_inj n (x y : 'rV[F]_n) : ofR x = ofR y -> x = y.
Proof. by move/map_enum_inj => H; apply/matrixP => i j; rewrite (ord1 i) H. Qed.
Lemma ofV_tr n (x : 'rV[F]_n) : ofV x^T = ofR x.
Proof. by rewrite /ofV /ofR; apply: eq_map => i; rewrite mxE. Qed.
Lemma nseq_ofV n : nseq n (0 : F) = ofV (0 : 'cV[F]_n).
Proof.
have -> : ofV (0 : 'cV[F]_n) = [seq 0 | i <- enum 'I_n] by apply: eq_map => i; rewrite mxE.
by rewrite -[in LHS](size_enum_ord n); elim: (enum 'I_n) => //= x l ->.
Qed.
Lemma nseq_ofR n : nseq n (0 : F) = ofR (0 : 'rV[F]_n).
Proof. by rewrite -ofV_tr trmx0 nseq_ofV. Qed.

Lemma A00_ul A : ulsubmx A = (A 0 0)%:M.
Proof.
rewrite [LHS]mx11_scalar !mxE; congr (A _ _)%:M; exact: val_inj.
Qed.

Lemma diag1P A (N : 'M[F]_t1) : A 0 0 = 1 -> ursubmx A = 0 -> dlsubmx A = 0 -> drsubmx A = N ->
  A = diag1 N.
Proof. by move=> h1 h2 h3 h4; rewrite -[A]submxK h2 h3 h4 A00_ul h1. Qed.

(** ** Factorization *)
Lemma factor_sound (M Mi : 'M[F]_(1 + t1)) vs ws (N0 : 'M[F]_t1) :
  all (wf_shape 1 t1) vs -> all (wf_shape t1 1) ws ->
  factor_loop o t1 (mrows M) (mrows Mi) (mrows N0) vs ws ->
  size ws = size vs /\
  exists N : nat -> 'M[F]_t1,
  [/\ N 0%N = N0, Mi = diag1 (N (size vs)),
      forall j, (j < size vs)%N -> N j.+1 = N j *m drsubmx M,
      forall j, (j < size vs)%N ->
         (toM 1 t1 (nth (Rmat 0 0 [::]) vs j))^T = N j *m dlsubmx M &
      forall j, (j < size vs)%N ->
         (toM t1 1 (nth (Rmat 0 0 [::]) ws j))^T *m N j.+1 = ursubmx M].
Proof.
elim: vs ws N0 => [|v vs IH] [|w ws] N0 //.
- move=> _ _ /= /and4P [/eqP h1 /eqvP h2 /eqvP h3 /eqmP h4]; split=> //.
  exists (fun _ => N0); split=> //.
  apply: diag1P; first by rewrite -b00_mrows.
  + by apply: ofR_inj; rewrite -b01_mrows h2 nseq_ofR.
  + by apply: ofV_inj; rewrite -b10_mrows h3 nseq_ofV.
  + by apply: mrows_inj; rewrite -b11_mrows h4.
- move=> /= /andP [wv wvs] /andP [ww wws].
  rewrite b11_mrows b10_mrows b01_mrows mulm_mrows cols_mrows.
  case/and3P=> /eqvP h1 /eqvP h2 /(IH _ _ wvs wws) [sz [N [E0 E1 E2 E3 E4]]].
  split; first by rewrite sz.
  exists (fun n => if n is n'.+1 then N n' else N0); split=> //.
  + by case=> [|j] jlt; [rewrite E0 | apply: E2].
  + case=> [|j] jlt; last exact: E3.
    apply: ofV_inj; rewrite -mulv_ofV -h1 ofV_tr /=.
    have -> : ofR (toM 1 t1 v) = elements (ofM (toM 1 t1 v)).
      rewrite /ofM /= /ofR; have -> : enum 'I_1 = [:: 0].
        by apply: (inj_map val_inj); rewrite val_enum_ord.
      by rewrite /= cats0.
    by rewrite ofM_toM.
  + case=> [|j] jlt; last exact: E4.
    rewrite /= E0; apply: (can_inj (@trmxK _ _ _)); rewrite trmx_mul trmxK.
    apply: ofV_inj; rewrite -mulv_ofV ofV_tr -h2; congr mulv.
    have -> : ofV (toM t1 1 w) = elements (ofM (toM t1 1 w)).
      rewrite /ofM /= /ofV; have -> : enum 'I_1 = [:: 0].
        by apply: (inj_map val_inj); rewrite val_enum_ord.
      by elim: (enum 'I_t1) => //= i l ->.
    by rewrite ofM_toM.
Qed.

(** ** Constants *)
Lemma add_head_ofV (x : F) (u : 'cV[F]_(1 + t1)) :
  add_head o x (ofV u) = ofV (u + x *: e0 F t1).
Proof.
have E0 : lshift t1 0 = 0 :> 'I_(1 + t1) by apply: val_inj.
rewrite /ofV enumS /= !mxE E0 !eqxx mulr1 -!map_comp; congr cons.
by apply: eq_map => i; rewrite /= !mxE /= mulr0 addr0.
Qed.

Lemma vsub_ofV n (u v : 'cV[F]_n) : vsub o (ofV u) (ofV v) = ofV (u - v).
Proof. by rewrite /vsub /ofV zip_map -map_comp; apply: eq_map => i /=; rewrite !mxE. Qed.

Lemma head_ofV (u : 'cV[F]_(1 + t1)) : head (o0 o) (ofV u) = u 0 0.
Proof. by rewrite /ofV enumS /=; congr (u _ _); apply: val_inj. Qed.

Lemma const_sound (M : 'M[F]_(1 + t1)) (c d : nat -> 'cV[F]_(1 + t1)) n k ev :
  const_loop o (mrows M) (ofV ev) [seq ofV (c r) | r <- iota k n]
      [seq ofV (d r) | r <- iota k.+1 n.-1] ->
  exists e : nat -> 'cV[F]_(1 + t1),
  [/\ e 0%N = ev,
      forall r, (r < n)%N -> e r 0 0 = c (k + r)%N 0 0,
      forall r, (r.+1 < n)%N ->
        e r.+1 = M *m (e r - c (k + r)%N + (d (k + r.+1)%N 0 0) *: e0 F t1) &
      e n.-1 = c (k + n.-1)%N].
Proof.
elim: n k ev => [|[|n] IH] k ev //.
- move=> /= /eqvP /ofV_inj E; exists (fun _ => ev); split=> //.
  + by case=> // _; rewrite addn0 E.
  + by rewrite addn0.
- rewrite [iota k _]/= [iota k.+1 _]/= !map_cons const_loopSS !head_ofV vsub_ofV add_head_ofV mulv_ofV.
  case/andP=> /eqP h0 /IH [e [E0 E1 E2 E3]].
  exists (fun r => if r is r'.+1 then e r' else ev); split=> //.
  + by case=> [|r] rn; rewrite ?addn0 // -addSnnS E1.
  + case=> [|r] rn; first by rewrite E0 addn0 addn1.
    by rewrite E2 // (addSnnS k r) (addSnnS k r.+1).
  + by rewrite -(addSnnS k n); exact: E3.
Qed.
End Blocks.

(** ** The whole check *)
Section All.
Variable p : params F.
Variable t1 : nat.
Hypothesis ht : p_t p = (1 + t1)%N.
Hypothesis ht1 : p_t1 p = t1.
Let Rf := (r_F (p_rounds p) %/ 2)%N.
Let Rp := r_P (p_rounds p).
Hypothesis wf : wf_params p.

Lemma check_factor_sound : check_factor o p ->
  sparse_factorization (pM p t1) (pMi p t1) (om_M_00 (p_optimized_mds p)) (@pw F p t1) (@pv F p t1) Rp.
Proof.
move: wf; rewrite /wf_params /check_factor ht ht1.
case/and5P=> _ w1 w2 w3; case/and5P=> w4 /eqP s5 w5 /eqP s6 w6.
rewrite (rows_toM w1) (rows_toM w4) unitm_mrows -/(pM p t1) -/(pMi p t1) b00_mrows.
case/andP=> /eqP E00 /(factor_sound w5 w6) [_ [N [N0 N1 N2 N3 N4]]].
rewrite s5 -/Rp in N1 N2 N3 N4.
exists N; split=> // j jR.
rewrite /sparse E00 -A00_ul /diag1 -{2}[pM p t1]submxK !mulmx_block.
by rewrite !mulmx1 !mul1mx !mulmx0 !mul0mx !addr0 !add0r /pw /pv N4 // N3 // N2.
Qed.

Lemma check_consts_sound : (0 < Rp)%N -> check_consts o p ->
  equivalent_constants (pM p t1) (@pc F p t1) (@pd F p t1) Rf Rp.
Proof.
move: wf; rewrite /wf_params /check_consts ht ht1.
case/and5P=> _ w1 w2 w3 _ Rp0.
rewrite (rows_toM w1) (rows_rcrow w2) (rows_rcrow w3) -/(pM p t1) -/Rf -/Rp.
have RR : (Rf + Rp + Rf <= rounds_total (p_rounds p))%N := rcount p.
have TD (f : nat -> seq F) a b : (a + b <= rounds_total (p_rounds p))%N ->
    take b (drop a [seq f r | r <- iota 0 (rounds_total (p_rounds p))]) = [seq f r | r <- iota a b].
  move=> h; rewrite -map_drop -map_take drop_iota take_iota add0n; congr (map _ (iota _ _)).
  by apply/minn_idPl; rewrite leq_subRL // (leq_trans _ h) // leq_addr.
have T0 (f : nat -> seq F) : take Rf [seq f r | r <- iota 0 (rounds_total (p_rounds p))] = [seq f r | r <- iota 0 Rf].
  rewrite -[X in take _ X]drop0 TD // add0n (leq_trans _ RR) // leq_addl //.
have b1 : (Rf + Rp <= rounds_total (p_rounds p))%N by apply: leq_trans RR; rewrite leq_addr.
have b2 : (Rf.+1 + Rp.-1 <= rounds_total (p_rounds p))%N by rewrite addSnnS prednK.
rewrite !T0 (TD _ _ _ RR) (TD _ _ _ RR) (TD _ _ _ b1) (TD _ _ _ b2).
rewrite (nth_map 0%N) ?size_iota; last first.
  by apply: leq_trans RR; rewrite -addnA -addn1 leq_add2l addn_gt0 Rp0.
rewrite nth_iota; last first.
  by apply: leq_trans RR; rewrite -addnA -addn1 leq_add2l addn_gt0 Rp0.
case/and3P=> /eqmP /eq_in_map h1 /eqmP /eq_in_map h2 /const_sound [e [E0 E1 E2 E3]].
split.
- by move=> r rR; apply: ofV_inj; apply: h1; rewrite mem_iota.
- by move=> r rR; apply: ofV_inj; apply: h2; rewrite mem_iota leq_addr ltn_add2l.
- by exists e.
Qed.

Lemma check_cauchy_sound : check_cauchy o p ->
  forall i j : 'I_(1 + t1), (i + (1 + t1) + j)%:R != 0 :> F /\
     pM p t1 i j = (i + (1 + t1) + j)%:R^-1.
Proof.
move: wf; rewrite /wf_params /check_cauchy ht ht1 => /and5P [_ w1 _ _ _].
rewrite (rows_toM w1) => /allP H i j.
have := H i; rewrite mem_iota ltn_ord => /(_ erefl) /allP /(_ j).
rewrite mem_iota ltn_ord => /(_ erefl) /eqP.
rewrite nth_enum_map nth_enum_map -/(pM p t1) /= => E.
have n0 : (i + (1 + t1) + j)%:R != 0 :> F.
  by apply/negP => /eqP z; move: E; rewrite z mulr0 => /esym/eqP; rewrite oner_eq0.
by split=> //; apply: (mulIf n0); rewrite E mulVf.
Qed.

Lemma check_derived_sound : wf_unused p -> check_derived o p ->
  let om := p_optimized_mds p in
  [/\ [/\ toM (1 + t1) (1 + t1) (om_M_inverse om) *m pM p t1 = 1%:M,
          pM p t1 *m toM (1 + t1) (1 + t1) (om_M_inverse om) = 1%:M &
          toM t1 t1 (om_M_hat om) = drsubmx (pM p t1)],
      [/\ toM t1 t1 (om_M_hat_inverse om) *m drsubmx (pM p t1) = 1%:M &
          drsubmx (pM p t1) *m toM t1 t1 (om_M_hat_inverse om) = 1%:M],
      [/\ toM 1 t1 (om_v om) = ursubmx (pM p t1) &
          toM t1 1 (om_w om) = dlsubmx (pM p t1)] &
      [/\ toM (1 + t1) (1 + t1) (om_M_prime om) *m toM (1 + t1) (1 + t1) (om_M_doubleprime om) = pM p t1,
          toM (1 + t1) (1 + t1) (om_M_prime om) = diag1 (drsubmx (toM (1 + t1) (1 + t1) (om_M_prime om))) &
          drsubmx (toM (1 + t1) (1 + t1) (om_M_doubleprime om)) = 1%:M]].
Proof.
move=> wu; move: wf wu; rewrite /wf_params /wf_unused /check_derived ht ht1.
case/and5P=> _ w1 _ _ _; case/and5P=> u1 u2 u3 u4 /and3P [u5 u6 u7].
rewrite (rows_toM w1) (rows_toM u1) (rows_toM u4) (rows_toM u5) (rows_toM u6) (rows_toM u7).
rewrite -/(pM p t1) !b11_mrows !mulm_mrows !unitm_mrows !b01_mrows !b10_mrows b00_mrows.
case/andP=> /and5P [/eqmP/mrows_inj h1 /eqmP/mrows_inj h2 /eqmP/mrows_inj h3 /eqvP h4 /eqvP h5].
case/and5P=> /eqmP/mrows_inj h6 /eqP h7 /eqvP h8 /eqvP h9 /eqmP/mrows_inj h10.
split; split=> //.
- exact: mulmx1C.
- exact: mulmx1C.
- apply: ofR_inj; rewrite -h4; have -> : ofR (toM 1 t1 (om_v (p_optimized_mds p))) = elements (ofM (toM 1 t1 (om_v (p_optimized_mds p)))).
    rewrite /ofM /= /ofR; have -> : enum 'I_1 = [:: 0].
      by apply: (inj_map val_inj); rewrite val_enum_ord.
    by rewrite /= cats0.
  by rewrite ofM_toM.
- apply: ofV_inj; rewrite -h5; have -> : ofV (toM t1 1 (om_w (p_optimized_mds p))) = elements (ofM (toM t1 1 (om_w (p_optimized_mds p)))).
    rewrite /ofM /= /ofV; have -> : enum 'I_1 = [:: 0].
      by apply: (inj_map val_inj); rewrite val_enum_ord.
    by elim: (enum 'I_t1) => //= i l ->.
  by rewrite ofM_toM.
- apply: diag1P => //.
  + by apply: ofR_inj; rewrite h8 nseq_ofR.
  + by apply: ofV_inj; rewrite h9 nseq_ofV.
Qed.
End All.
End Sound.
