(** Subspace trails: proofs about [Grain.v] and [TrailsSpec.v]. *)
From mathcomp Require Import all_ssreflect all_algebra.
From Verif Require Import TrailsSpec Grain.
Set Implicit Arguments.
Unset Strict Implicit.
Unset Printing Implicit Defensive.
Import GRing.Theory.
Local Open Scope ring_scope.

Section Trails.
Variables (F : fieldType) (n : nat).
Local Notation t := n.+1.
Implicit Types (M : 'M[F]_t) (P : 'cV[F]_t -> Prop).
Local Notation e0 := (delta_mx 0 0 : 'cV[F]_t).

(** Row [k] is the image of [e0] under [M^(rk)]. *)
Definition krylov M (r : nat) : 'M[F]_t := \matrix_(k, i) (M ^+ (r * k) *m e0) i 0.

Lemma subspace_sum P I (s : seq I) (c : I -> F) (v : I -> 'cV[F]_t) : subspace P -> (forall i, P (v i)) ->
  P (\sum_(i <- s) c i *: v i).
Proof. by case=> P0 Pl Pv; elim: s => [|i s IH]; rewrite ?big_nil // big_cons; apply: Pl. Qed.

Lemma stable_pow M P x k : stable M P -> P x -> P (M ^+ k *m x).
Proof.
by move=> st Px; elim: k => [|k IH]; rewrite ?expr0 ?mul1mx // exprS -mulmxA; apply: st.
Qed.

Lemma krylov_active M r : krylov M r \in unitmx -> no_active_subspace M r.
Proof.
move=> uK P sub st Pe x.
pose c := x^T *m invmx (krylov M r).
have -> : x = \sum_k c 0 k *: (M ^+ (r * k) *m e0).
  apply/matrixP => i j; rewrite (ord1 j) summxE.
  have := congr1 (fun A : 'rV_t => A 0 i) (mulmxKV uK x^T); rewrite -/c !mxE => <-.
  by apply: eq_bigr => k _; rewrite !mxE.
by apply: subspace_sum => // k; rewrite exprM; apply: stable_pow.
Qed.

Lemma trmxX M k : (M ^+ k)^T = M^T ^+ k.
Proof. by elim: k => [|k IH]; rewrite ?expr0 ?trmx1 // exprS trmx_mul IH [RHS]exprSr. Qed.

Lemma mulmx_pow M k : M ^+ k *m M = M ^+ k.+1.
Proof. by rewrite exprSr. Qed.

Lemma e0T_entry M (x : 'cV[F]_t) : (e0^T *m (M *m x)) 0 0 = (M *m x) 0 0.
Proof.
rewrite mxE (bigD1 0) //= big1 ?addr0; last by move=> i i0; rewrite !mxE (negPf i0) mul0r.
by rewrite !mxE eqxx mul1r.
Qed.

Lemma krylov_inactive M r : krylov M^T r \in unitmx -> no_inactive_trail M r.
Proof.
move=> uK x H; have : krylov M^T r *m x = 0.
  apply/matrixP => k j; rewrite (ord1 j); transitivity ((M ^+ (r * k) *m x) 0 0); last by rewrite H // mxE.
  rewrite -e0T_entry mulmxA mxE [in RHS]mxE; apply: eq_bigr => i _; rewrite mxE; congr (_ * _).
  by rewrite -trmxX -[e0 in LHS]trmxK -trmx_mul [LHS]mxE.
by move/(congr1 (mulmx (invmx (krylov M^T r)))); rewrite mulKmx // mulmx0.
Qed.

Lemma inactive_trail_subspace M r : no_inactive_trail M r -> no_inactive_subspace M r.
Proof. by move=> H P sub st in0 x Px; apply: H => k _; apply: in0; rewrite exprM; apply: stable_pow. Qed.

Lemma krylov_trail_free M R :
  (forall r, (0 < r <= R)%N -> krylov M r \in unitmx /\ krylov M^T r \in unitmx) -> trail_free M R.
Proof.
move=> H r /H [u1 u2]; have h := krylov_inactive u2.
by split=> //; [apply: inactive_trail_subspace | apply: krylov_active].
Qed.

(** ** Algorithm 2 *)
Local Notation r0 := (delta_mx 0 0 : 'rV[F]_t).

Lemma tr_r0 : r0^T = e0. Proof. by rewrite trmx_delta. Qed.

(** The row space of a matrix as a predicate on columns *)
Definition in_space m (U : 'M[F]_(m, t)) (x : 'cV[F]_t) : Prop := (x^T <= U)%MS.

Lemma in_space_sub m (U : 'M[F]_(m, t)) : subspace (in_space U).
Proof.
split; first by rewrite /in_space trmx0 sub0mx.
by move=> a x y hx hy; rewrite /in_space linearP /= addmx_sub ?scalemx_sub.
Qed.

Lemma in_space_stable M (U : 'M[F]_t) : (U *m M^T <= U)%MS -> stable M (in_space U).
Proof.
by move=> h x hx; rewrite /in_space trmx_mul; apply: submx_trans h; apply: submxMr.
Qed.

Fixpoint kspan M (k : nat) : 'M[F]_t :=
  if k is k'.+1 then (kspan M k' + r0 *m (M^T) ^+ k)%MS else <<r0>>%MS.

Lemma r0_kspan M k : (r0 <= kspan M k)%MS.
Proof. by elim: k => [|k IH] /=; rewrite ?genmxE // (submx_trans IH) ?addsmxSl. Qed.

Lemma kspan_step M k : (kspan M k *m M^T <= kspan M k.+1)%MS.
Proof.
elim: k => [|k IH].
  by rewrite /= (eqmxMr _ (genmxE _)) expr1 addsmxSr.
rewrite [kspan M k.+1]/= addsmxMr addsmx_sub; apply/andP; split.
  by apply: (submx_trans IH); rewrite [kspan M k.+2]/= addsmxSl.
by rewrite -mulmxA mulmx_pow [kspan M k.+2]/= addsmxSr.
Qed.

Lemma kspan_full_active M k : \rank (kspan M k) = t -> no_active_subspace M 1.
Proof.
move=> rk P sub st Pe x; rewrite expr1 in st.
have full : row_full (kspan M k) by rewrite /row_full rk.
have H j (y : 'cV[F]_t) : in_space (kspan M j) y -> P y.
  elim: j y => [|j IH] y /=.
    rewrite /in_space genmxE => /submxP [D E].
    have -> : y = (D 0 0) *: e0 + 0.
      by rewrite addr0 -[y]trmxK E trmx_mul tr_r0 [D]mx11_scalar tr_scalar_mx mul_mx_scalar mxE eqxx mulr1n.
    by case: sub => P0 Pl; apply: Pl.
  rewrite /in_space => /sub_addsmxP [[u v] /= E].
  have -> : y = v 0 0 *: (M ^+ j.+1 *m e0) + (u *m kspan M j)^T.
    apply: trmx_inj; rewrite E addrC linearP /= trmxK; congr (_ + _).
    by rewrite trmx_mul trmxX -tr_r0 trmxK {1}[v]mx11_scalar mul_scalar_mx.
  case: (sub) => P0 Pl; apply: Pl; first exact: stable_pow.
  by apply: IH; rewrite /in_space trmxK submxMl.
by apply: (H k); rewrite /in_space submx_full.
Qed.

Lemma iota_full : (<<r0>> + \sum_(i < t | (1 <= i)%N) <<delta_mx 0 i : 'rV[F]_t>> :=: (1%:M : 'M[F]_t))%MS.
Proof.
apply/eqmxP; rewrite submx1 /=; apply/row_subP => i; rewrite rowE mulmx1.
case: (posnP i) => i0.
  have -> : i = 0 by apply: val_inj.
  by apply: (submx_trans _ (addsmxSl _ _)); rewrite genmxE.
by apply: (submx_trans _ (addsmxSr _ _)); rewrite (sumsmx_sup i) // genmxE.
Qed.

Lemma algorithm_2_loopE M (full : 'M[F]_t) fuel k : (full :=: (1%:M : 'M[F]_t))%MS ->
  (k + fuel = t)%N -> (k < \rank (kspan M k))%N ->
  exists b, algorithm_2_loop M full fuel (r0 *m (M^T) ^+ k) (kspan M k) = Some b /\
    (b <-> no_active_subspace M 1).
Proof.
move=> fullE; elim: fuel k => [|fuel IH] k.
  by rewrite addn0 => ->; rewrite ltnNge rank_leq_col.
rewrite addnS -addSn => kf kr /=.
rewrite -mulmxA mulmx_pow -/(kspan M k.+1).
set U := kspan M k.+1; have UV : (kspan M k <= U)%MS by apply: addsmxSl.
have -> : (U :&: full == U)%MS.
  by apply/eqmxP/capmx_idPl; rewrite fullE submx1.
rewrite orbF; case: eqP => [rk|rk].
  by exists true; split=> //; split=> // _; apply: kspan_full_active rk.
case: leqP => [le|lt]; last by apply: IH => //; apply: leq_trans lt.
exists false; split=> //; split=> // H; case: rk.
have eqU : (U <= kspan M k)%MS.
  by rewrite -(geq_leqif (mxrank_leqif_sup UV)).
have st : stable (M ^+ 1) (in_space (kspan M k)).
  by rewrite expr1; apply: in_space_stable; apply: submx_trans (kspan_step M k) eqU.
have Pe : in_space (kspan M k) e0 by rewrite /in_space -tr_r0 trmxK r0_kspan.
have all_in := H _ (in_space_sub _) st Pe.
have : row_full U.
  rewrite -sub1mx; apply: submx_trans UV; apply/row_subP => i.
  by have := all_in (row i 1%:M)^T; rewrite /in_space trmxK.
by move/eqP.
Qed.

Lemma algorithm_2P M : exists b, algorithm_2 M = Some b /\ (b <-> no_active_subspace M 1).
Proof.
rewrite /algorithm_2 -[X in algorithm_2_loop _ _ _ X _]mulmx1.
apply: (@algorithm_2_loopE M _ t 0) => //; first exact: iota_full.
by rewrite /= mxrank_gen mxrank_delta.
Qed.

Lemma algorithm_2_true M : algorithm_2 M = Some true <-> no_active_subspace M 1.
Proof.
have [b [-> H]] := algorithm_2P M; split=> [[E]|/H E].
  by apply/H; rewrite E.
by move: E; case: b {H}.
Qed.

Lemma no_active_pow M r : no_active_subspace (M ^+ r) 1 <-> no_active_subspace M r.
Proof. by rewrite /no_active_subspace expr1. Qed.

(** ** Algorithm 3 *)
Lemma algorithm_3P M : algorithm_3 M <-> forall r, (2 <= r <= 4 * t)%N -> no_active_subspace M r.
Proof.
rewrite /algorithm_3; split.
  move/allP=> H r /andP [r2 rt]; apply/no_active_pow/algorithm_2_true/eqP/H.
  by rewrite mem_iota r2 /= addnBA // addnC addnK ltnS.
move=> H; apply/allP => r; rewrite mem_iota => /andP [r2 rt].
apply/eqP/algorithm_2_true/no_active_pow; apply: H; rewrite r2 /=.
by move: rt; rewrite addnBA // addnC addnK ltnS.
Qed.

(** ** Algorithm 1 *)
Lemma generate_vectorspace_0 i M (y : 'rV[F]_t) : (0 < i)%N -> (y <= generate_vectorspace (n := n) i M)%MS -> y 0 0 = 0.
Proof.
have E0 : (0 : 'I_(1 + n)) = lshift n 0 by apply: val_inj.
have H (A : 'M[F]_n) (z : 'rV[F]_(1 + n)) : (z <= row_mx (0 : 'M_(n, 1)) A)%MS -> z 0 0 = 0.
  by case/submxP => D ->; rewrite mul_mx_row mulmx0 E0 row_mxEl mxE.
by case: i => [|[|i]] // _; rewrite /= genmxE; apply: H.
Qed.

Lemma generate_vectorspace_rank i M : (i <= n)%N -> (0 < \rank (generate_vectorspace (n := n) i M))%N.
Proof.
case: i => [|[|i]] /=; first by rewrite mxrank1.
  by rewrite mxrank_gen rank_row_0mx mxrank1.
move=> lt; rewrite mxrank_gen rank_row_0mx mxrank_ker subn_gt0.
by apply: leq_ltn_trans (rank_leq_col _) _.
Qed.

Lemma algorithm_1_stepE (field : seq F) M i : (0 < i <= n)%N ->
  (forall r, (0 < r <= n)%N -> no_inactive_trail M r) -> algorithm_1_step field M i = None.
Proof.
move=> /andP [i0 i_n] H; rewrite /algorithm_1_step.
have Hi := H i; rewrite i0 i_n in Hi; have {}Hi := Hi isT.
have in0 (x : 'cV[F]_t) l : x 0 0 = 0 -> M ^+ i *m x = l *: x -> x = 0.
  move=> x0 Ex; apply: Hi => k _; rewrite exprM.
  have -> : (M ^+ i) ^+ k *m x = l ^+ k *: x; last by rewrite mxE x0 mulr0.
  elim: k => [|k IH]; first by rewrite !expr0 mul1mx scale1r.
  by rewrite exprSr -mulmxA Ex -scalemxAr IH scalerA exprS.
have -> : (M ^+ i - ((M ^+ i) 0 0)%:M == 0) = false.
  apply/negP; rewrite subr_eq0 => /eqP E.
  have n0 : (0 < n)%N := leq_trans i0 i_n.
  pose j : 'I_t := lift 0 (Ordinal n0).
  have : delta_mx j 0 = 0 :> 'cV[F]_t.
    by apply: (in0 _ ((M ^+ i) 0 0)); rewrite ?mxE // {1}E mul_scalar_mx.
  by move/matrixP/(_ j 0)/eqP; rewrite !mxE !eqxx oner_eq0.
set S := generate_vectorspace i M.
have -> : \rank (\sum_(l <- eigenvalues field (M ^+ i)) (S :&: eigenspace_right (M ^+ i) l))%MS = 0%N.
  apply/eqP; rewrite mxrank_eq0 -submx0; elim/big_ind: _ => [|A B hA hB|l _].
  - exact: sub0mx.
  - by rewrite addsmx_sub hA.
  apply/row_subP => k; move: (row_sub k (S :&: eigenspace_right (M ^+ i) l)%MS).
  move: (row k _) => y; rewrite sub_capmx => /andP [yS yE].
  have y0 := generate_vectorspace_0 i0 yS.
  have : y^T = 0.
    apply: (in0 _ l); first by rewrite mxE.
    move/sub_kermxP: yE; rewrite mulmxBr => /eqP; rewrite subr_eq0 => /eqP E.
    by apply: trmx_inj; rewrite trmx_mul trmxK E mul_mx_scalar linearZ /= trmxK.
  by move/(congr1 trmx); rewrite trmxK trmx0 => ->; rewrite sub0mx.
rewrite /=; case: hasP => // -[j]; rewrite mem_iota => /andP [j0 ji] /eqmxP ES.
have jn : (0 < j <= n)%N by rewrite j0 /=; apply: leq_trans i_n; move: ji; rewrite addnC addn1 ltnS.
have sub_st : stable (M ^+ j) (in_space S).
  by apply: in_space_stable; rewrite -[X in (X <= _)%MS]/(subspace_times_matrix S (M ^+ j)) -ES.
have in_S0 x : in_space S x -> x = 0.
  apply: (inactive_trail_subspace (H j jn) (in_space_sub _) sub_st) => y /(generate_vectorspace_0 i0).
  by rewrite mxE.
have := generate_vectorspace_rank M i_n; rewrite -/S lt0n mxrank_eq0 => /negP; case.
apply/eqP/row_matrixP => k; rewrite row0.
by apply: trmx_inj; rewrite trmx0; apply: in_S0; rewrite /in_space trmxK row_sub.
Qed.

Lemma algorithm_1_true (field : seq F) M :
  (forall r, (0 < r <= n)%N -> no_inactive_trail M r) -> algorithm_1 field M = (true, 0%N).
Proof.
move=> H; rewrite /algorithm_1.
have -> : pmap (algorithm_1_step field M) (iota 1 (1 + n - 1)) = [::]; last by [].
have : forall i, i \in iota 1 (1 + n - 1) -> (0 < i <= n)%N.
  by move=> i; rewrite mem_iota addKn.
elim: (iota 1 _) => //= i s IH hs; rewrite algorithm_1_stepE ?hs ?inE ?eqxx //=.
by apply: IH => j js; apply: hs; rewrite inE js orbT.
Qed.

Lemma trail_free_accepted (field : seq F) M : trail_free M (4 * t) -> accepted field M.
Proof.
move=> H; apply/and3P; split.
- rewrite algorithm_1_true // => r /andP [r0 rn].
  have [] // := H r; rewrite r0 /=; apply: leq_trans rn _.
  by apply: leq_trans (leqnSn n) (leq_pmull _ _).
- by apply/eqP/algorithm_2_true; have [] := H 1%N isT.
- by apply/algorithm_3P => r /andP [r2 rt]; have [] // := H r; rewrite (ltnW r2).
Qed.

(** ** What acceptance means *)
Local Notation gv := (generate_vectorspace (n := n)).

Lemma row_mx0_sub (A : 'M[F]_n) (y : 'rV[F]_(1 + n)) :
  (y <= row_mx (0 : 'M_(n, 1)) A)%MS = (y 0 0 == 0) && (rsubmx y <= A)%MS.
Proof.
have E0 : (0 : 'I_(1 + n)) = lshift n 0 by apply: val_inj.
apply/idP/andP => [/submxP [D ->]|[/eqP y0 /submxP [D E]]].
  by rewrite mul_mx_row mulmx0 E0 row_mxEl mxE row_mxKr submxMl.
apply/submxP; exists D; rewrite mul_mx_row mulmx0 -E -[LHS]hsubmxK; congr row_mx.
by apply/matrixP => i j; rewrite !mxE !ord1 -E0.
Qed.

Lemma mul_first M (y : 'rV[F]_(1 + n)) : y 0 0 = 0 ->
  ((M : 'M_(1 + n)) *m y^T) 0 0 = \sum_j y 0 (rshift 1 j) * M 0 (rshift 1 j).
Proof.
move=> y0; have E0 : (0 : 'I_(1 + n)) = lshift n 0 by apply: val_inj.
rewrite mxE big_split_ord /= big_ord1 !mxE -E0 y0 mulr0 add0r.
by apply: eq_bigr => j _; rewrite mxE mulrC.
Qed.

Lemma generate_vectorspaceP i M (y : 'rV[F]_t) : (0 < i)%N ->
  reflect (forall k, (k < i)%N -> (M ^+ k *m y^T) 0 0 = 0) (y <= gv i M)%MS.
Proof.
have M0 : (M ^+ 0 *m y^T) 0 0 = y 0 0 by rewrite expr0 mul1mx mxE.
case: i => [|[|i]] // _; rewrite /= genmxE row_mx0_sub.
  rewrite submx1 andbT; apply: (iffP eqP) => [y0 [|//] _|/(_ 0%N isT)]; by rewrite M0.
set T := \matrix_(_, _) _.
have TE k : y 0 0 = 0 -> (rsubmx (y : 'rV_(1 + n)) *m T^T) 0 k = (M ^+ k.+1 *m y^T) 0 0.
  move=> y0; rewrite mxE (mul_first _ y0); apply: eq_bigr => j _; by rewrite !mxE.
apply: (iffP andP) => [[/eqP y0 /sub_kermxP yT] [|k] ki|H].
- by rewrite M0.
- by rewrite -(TE (Ordinal (ki : (k < i.+1)%N)) y0) yT mxE.
have y0 : y 0 0 = 0 by rewrite -M0 H.
rewrite y0 eqxx; split=> //; apply/sub_kermxP/rowP => k.
by rewrite TE // H ?mxE // ltnS ltn_ord.
Qed.

Lemma generate_vectorspace_anti i M : (0 < i)%N -> (gv i.+1 M <= gv i M)%MS.
Proof.
move=> i0; apply/row_subP => k; apply/generate_vectorspaceP => // j ji.
by have /generate_vectorspaceP := row_sub k (gv i.+1 M); apply=> //; apply: leqW.
Qed.

Lemma generate_vectorspace_fix i M : (0 < i)%N -> M \in unitmx -> (gv i M <= gv i.+1 M)%MS ->
  (gv i M == subspace_times_matrix (gv i M) M)%MS.
Proof.
move=> i0 uM sub; rewrite /subspace_times_matrix.
have Msub : (gv i M *m M^T <= gv i M)%MS.
  apply/row_subP => k; rewrite row_mul; apply/generate_vectorspaceP => // j ji.
  rewrite trmx_mul trmxK mulmxA mulmx_pow.
  have /generate_vectorspaceP := submx_trans (row_sub k (gv i M)) sub; by apply.
by apply/andP; split=> //; rewrite -(geq_leqif (mxrank_leqif_sup Msub)) mxrankMfree // row_free_unit unitmx_tr.
Qed.

Lemma algorithm_1_sound (field : seq F) M : M \in unitmx -> (algorithm_1 field M).1 -> no_inactive_trail M 1.
Proof.
move=> uM; rewrite /algorithm_1 => acc x Hx; apply/eqP/negPn/negP => x0.
have step i : (0 < i <= n)%N -> algorithm_1_step field M i = None.
  move=> hi; have : i \in iota 1 (1 + n - 1) by rewrite mem_iota addKn.
  elim: (iota 1 _) acc => //= j s IH; rewrite inE; case E: (algorithm_1_step _ _ j) => //= acc.
  by case/orP => [/eqP ->|/IH]; last apply.
have drop i : (0 < i <= n)%N -> (\rank (gv i.+1 M) < \rank (gv i M))%N.
  move=> /[dup] hi /andP [i0 _]; have sub := generate_vectorspace_anti M i0.
  rewrite ltn_neqAle mxrankS // andbT; apply: contraL isT => /eqP E.
  have := step i hi; rewrite /algorithm_1_step; do 2 case: ifP => // _.
  case: hasP => // -[]; exists 1%N; first by rewrite mem_iota /= add1n ltnS.
  rewrite expr1; apply: generate_vectorspace_fix => //.
  by rewrite -(geq_leqif (mxrank_leqif_sup sub)) E.
have bound i : (i <= n)%N -> (\rank (gv i.+1 M) <= n - i)%N.
  elim: i => [_|i IH hi]; first by rewrite mxrank_gen rank_row_0mx mxrank1 subn0.
  by rewrite subnS -ltnS prednK ?subn_gt0 //; apply: leq_trans (drop i.+1 hi) (IH (ltnW hi)).
have := bound n (leqnn n); rewrite subnn leqn0 mxrank_eq0 => /eqP S0.
have : (x^T <= gv t M)%MS.
  by apply/generate_vectorspaceP => // k kt; rewrite trmxK -[k]mul1n Hx.
by rewrite S0 submx0 -trmx0 (inj_eq trmx_inj) (negPf x0).
Qed.

Lemma accepted_sound (field : seq F) M : M \in unitmx -> accepted field M ->
  no_inactive_trail M 1 /\ forall r, (0 < r <= 4 * t)%N -> no_active_subspace M r.
Proof.
move=> uM /and3P [a1 a2 a3]; split; first exact: algorithm_1_sound a1.
move=> [|[|r]] // hr; first by apply/algorithm_2_true/eqP.
by move/algorithm_3P: a3; apply.
Qed.
End Trails.
