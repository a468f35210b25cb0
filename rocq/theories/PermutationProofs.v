(** The permutations of the model, expressed with mathematical vectors, and the
    general optimization theorem. *)
From Coq Require Import NArith.
From mathcomp Require Import all_ssreflect all_algebra.
From Verif Require Import Base Matrix MatrixSpec MatrixProofs Params Permutation Spec.
Set Implicit Arguments.
Unset Strict Implicit.
Unset Printing Implicit Defensive.
Import GRing.Theory.
Local Open Scope ring_scope.
Local Open Scope rust_scope.

(** * Arrays holding vectors *)
Section Vectors.
Variable F : fieldType.

Definition mkv (n : nat) (f : nat -> F) : seq F := [seq f i | i <- iota 0 n].
Definition vf {n} (x : 'cV[F]_n) (i : nat) : F := mxf x i 0.

Lemma size_mkv n f : size (mkv n f) = n.
Proof. by rewrite size_map size_iota. Qed.
Lemma nth_mkv n f i : (i < n)%N -> nth 0 (mkv n f) i = f i.
Proof. by move=> h; rewrite (nth_map 0%N) ?size_iota // nth_iota. Qed.
Lemma mkvS n f : mkv n.+1 f = f 0%N :: mkv n (fun i => f i.+1).
Proof. by rewrite /mkv /= -[1%N]addn0 iotaDl -map_comp. Qed.
Lemma vfE n (x : 'cV[F]_n) (i : 'I_n) : vf x i = x i 0.
Proof. exact: (mxfE x i 0). Qed.
Lemma ofV_mkv n (x : 'cV[F]_n) : ofV x = mkv n (vf x).
Proof.
by rewrite /mkv -map_enum_iota /ofV; apply: eq_map => i; rewrite vfE.
Qed.
Lemma eq_mkv n f g : (forall i, (i < n)%N -> f i = g i) -> mkv n f = mkv n g.
Proof. by move=> h; apply/eq_in_map => i; rewrite mem_iota => /h. Qed.
Lemma mkv_ofV n f : mkv n f = ofV (\col_(i < n) f i).
Proof. by rewrite ofV_mkv; apply: eq_mkv => i ir; rewrite -[i]/(val (Ordinal ir)) vfE mxE. Qed.
Lemma size_ofV n (x : 'cV[F]_n) : size (ofV x) = n.
Proof. by rewrite ofV_mkv size_mkv. Qed.
Lemma nth_ofV n (x : 'cV[F]_n) (i : 'I_n) : nth 0 (ofV x) i = x i 0.
Proof. by rewrite ofV_mkv nth_mkv // vfE. Qed.
Lemma toV_ofV n (x : 'cV[F]_n) : toV n (ofV x) = x.
Proof. by apply/matrixP => i j; rewrite mxE nth_ofV (ord1 j). Qed.
Lemma ofV_toV n (s : seq F) : size s = n -> ofV (toV n s) = s.
Proof.
move=> sz; apply: (@eq_from_nth _ 0); rewrite size_ofV // => i ir.
by rewrite -[i]/(val (Ordinal ir)) nth_ofV mxE.
Qed.
Lemma ofV_inj n (x y : 'cV[F]_n) : ofV x = ofV y -> x = y.
Proof. by move=> h; rewrite -[x]toV_ofV h toV_ofV. Qed.

(** Applying a partial function to every element. *)
Fixpoint traverse (f : F -> outcome F) (s : seq F) : outcome (seq F) :=
  match s with
  | [::] => Ret [::]
  | x :: s => y <- f x ;; s' <- traverse f s ;; Ret (y :: s')
  end.

Lemma traverse_size f s s' : traverse f s = Ret s' -> size s' = size s.
Proof.
elim: s s' => [|x s IH] s' /=; first by case=> <-.
case: (f x) => //= y; case: (traverse f s) IH => //= z IH [<-] /=.
by rewrite (IH z).
Qed.

Lemma traverse_ret g s : traverse (fun x => Ret (g x)) s = Ret (map g s).
Proof. by elim: s => //= x s ->. Qed.

(** The loop "[for i in 0..n { a[i] = f(a[i]) }]". *)
Lemma sub_loop f n s : size s = n ->
  for_in (range 0 n) (fun i st => x <- aget st i ;; y <- f x ;; aset st i y) s = traverse f s.
Proof.
rewrite /range subn0.
suff gen pre post : for_in (iota (size pre) (size post))
    (fun i st => x <- aget st i ;; y <- f x ;; aset st i y) (pre ++ post)
    = omap (cat pre) (traverse f post).
  by move=> <-; have := gen [::] s; rewrite /= => ->; case: (traverse f s).
elim: post pre => [|x post IH] pre //=.
rewrite (aget_nth 0) ?nth_cat ?ltnn ?subnn /=; last by rewrite size_cat /= addnS ltnS leq_addr.
case: (f x) => //= y; rewrite aset_cat /= -cat_rcons.
by have := IH (rcons pre y); rewrite size_rcons => ->; case: (traverse f post) => //= z;
  rewrite cat_rcons.
Qed.

End Vectors.

Section Perm.
Variable F : fieldType.
Variable p : params F.
Variable t1 : nat.
Local Notation t := (1 + t1)%N.
Local Notation vec := ('cV[F]_(1 + t1)).
Local Notation mat := ('M[F]_(1 + t1)).
Hypothesis ht : p_t p = t.
Hypothesis ht1 : p_t1 p = t1.

(** ** Layers *)

Definition fullO (x : vec) : outcome vec := omap (toV t) (traverse (sbox p) (ofV x)).
Definition set0v (x : vec) (y : F) : vec := \col_i (if i == 0 then y else x i 0).
Definition partO (x : vec) : outcome vec := y <- sbox p (x 0 0) ;; Ret (set0v x y).

Lemma full_sub_words_ofV x : full_sub_words p (ofV x) = omap (@ofV F t) (fullO x).
Proof.
rewrite /full_sub_words ht sub_loop ?size_ofV // /fullO.
case E: (traverse _ _) => [s|] //=; rewrite ofV_toV //.
by rewrite (traverse_size E) size_ofV.
Qed.

Lemma partial_sub_words_ofV x : partial_sub_words p (ofV x) = omap (@ofV F t) (partO x).
Proof.
rewrite /partial_sub_words /partO (aget_nth 0) ?size_ofV //=.
rewrite -[0%N]/(val (0 : 'I_t)) nth_ofV; case: (sbox p _) => //= y.
rewrite (aset_set_nth 0) size_ofV /=; congr Ret.
have mx1 : maxn 1 t = t by apply/maxn_idPr.
apply: (@eq_from_nth _ 0); rewrite size_set_nth !size_ofV mx1 // => i ir.
rewrite nth_set_nth /=.
have -> : nth 0 (ofV (set0v x y)) i = if i == 0%N then y else nth 0 (ofV x) i; last by [].
by rewrite -[i]/(val (Ordinal ir)) !nth_ofV mxE.
Qed.

Lemma mix_layer_ofM (A : mat) x : mix_layer p (ofM A) (ofV x) = Ret (ofV (A *m x)).
Proof.
rewrite /mix_layer ofM_mkm iter_rows_mkm // bind_ret ht.
rewrite (enumerateE [::]) for_in_map size_map size_iota.
rewrite (@fill_loop _ _ (fun i => \sum_(k < t) mxf A i k * vf x k) _ 0%N); last first.
  move=> i arr /andP [_ ir] _; rewrite subn0 (nth_map 0%N) ?size_iota // nth_iota //.
  by rewrite ofV_mkv /mkv sum_products_map.
congr Ret; rewrite ofV_mkv; apply: (@eq_mkv _ t) => i ir.
rewrite -[i]/(val (Ordinal ir)) vfE mxE; apply: eq_bigr => k _.
by rewrite mxfE vfE.
Qed.

Lemma add_constants_ofV (c : nat -> outcome F) (k : vec) x :
  (forall i : 'I_t, c i = Ret (k i 0)) ->
  add_constants p c (ofV x) = Ret (ofV (x + k)).
Proof.
move=> H; rewrite /add_constants ht.
have gen n : (n <= t)%N -> for_in (range 0 n) (fun i st =>
    x <- aget st i ;; k <- c i ;; aset st i (x + k)) (ofV x)
    = Ret (mkv t (fun i => if (i < n)%N then vf (x + k) i else vf x i)).
  elim: n => [|n IH] nt.
    by rewrite /= ofV_mkv; congr Ret; apply: eq_mkv => i _.
  have E : range 0 n.+1 = rcons (range 0 n) n.
    by rewrite /range !subn0 -{1}addn1 iotaD /= cats1.
  rewrite E for_in_rcons IH ?(ltnW nt) // bind_ret.
  rewrite (aget_nth 0) ?size_mkv // nth_mkv // ltnn bind_ret.
  rewrite -[n]/(val (Ordinal nt)) H bind_ret (aset_set_nth 0) size_mkv ltn_ord; congr Ret.
  apply: (@eq_from_nth _ 0); rewrite size_set_nth !size_mkv ?(maxn_idPr _) ?ltn_ord // => i ir.
  rewrite nth_set_nth /= !nth_mkv //; case: eqP => [->|/eqP ne].
    by rewrite ltnSn -[n]/(val (Ordinal nt)) !vfE mxE.
  by rewrite ltnS [(i <= n)%N]leq_eqVlt (negPf ne).
rewrite gen // ofV_mkv; congr Ret; apply: eq_mkv => i -> //.
Qed.

Lemma add_constants_counter_ofV (rc : seq F) (k : vec) x n :
  (forall i : 'I_t, aget rc (n + i) = Ret (k i 0)) ->
  add_constants_counter p rc (ofV x, n) = Ret (ofV (x + k), (n + t)%N).
Proof.
move=> H; rewrite /add_constants_counter ht.
have gen m : (m <= t)%N -> for_in (range 0 m) (fun i sc =>
      let: (st, counter) := sc in
      x <- aget st i ;; k <- aget rc counter ;;
      st <- aset st i (x + k) ;;
      Ret (st, counter.+1)) (ofV x, n)
    = st <- for_in (range 0 m) (fun i st =>
        x <- aget st i ;; k <- aget rc (n + i) ;; aset st i (x + k)) (ofV x) ;;
      Ret (st, (n + m)%N).
  elim: m => [|m IH] mt; first by rewrite /= addn0.
  have E : range 0 m.+1 = rcons (range 0 m) m.
    by rewrite /range !subn0 -{1}addn1 iotaD /= cats1.
  rewrite E !for_in_rcons IH ?(ltnW mt) // !bindA; apply: bind_ext => st.
  rewrite bind_ret !bindA; apply: bind_ext => y; rewrite !bindA; apply: bind_ext => z.
  by apply: bind_ext => w; rewrite addnS.
rewrite gen //.
have := @add_constants_ofV (fun i => aget rc (n + i)) k x H.
by rewrite /add_constants ht => ->.
Qed.

(** Row [r] of a matrix of round constants. *)
Definition rcrow (m : rmat F) (r : nat) : vec := \col_i nth 0 (elements m) (r * t + i).

Lemma get_rcrow R (m : rmat F) r (i : 'I_t) :
  wf_shape R t m -> (r < R)%N -> get_element m r i = Ret (rcrow m r i 0).
Proof.
case/and3P=> _ /eqP nc /eqP sz rR; rewrite /get_element nc (aget_nth 0) ?sz ?mxE //.
exact: idx_lt.
Qed.

Lemma aget_rcrow R (m : rmat F) r (i : 'I_t) :
  wf_shape R t m -> (r < R)%N -> aget (elements m) (r * t + i) = Ret (rcrow m r i 0).
Proof.
case/and3P=> _ /eqP nc /eqP sz rR; rewrite (aget_nth 0) ?sz ?mxE //.
exact: idx_lt.
Qed.

(** ** Sparse multiplication *)
Lemma sparse_mat_mul_ofV k (v : 'rV[F]_t1) (w : 'cV[F]_t1) x :
  aget (om_v_collection (p_optimized_mds p)) k = Ret (ofM v) ->
  aget (om_w_hat_collection (p_optimized_mds p)) k = Ret (ofM w) ->
  sparse_mat_mul p k (ofV x)
  = Ret (ofV (sparse (om_M_00 (p_optimized_mds p)) w^T v^T *m x)).
Proof.
move=> Hv Hw; rewrite /sparse_mat_mul Hv bind_ret ht ht1.
set m00 := om_M_00 _.
have Ev : elements (ofM v) = mkv t1 (fun j => mxf v 0 j).
  by rewrite ofM_mkm /= /mkels /= cats0.
have Ew : elements (ofM w) = mkv t1 (fun j => mxf w j 0).
  rewrite ofM_mkm /= /mkels /= /mkv.
  by elim: (iota 0 t1) => //= a l ->.
pose add (i : nat) := mxf v 0 i * vf x 0 + vf x i.+1.
have -> : for_in (enumerate (elements (ofM v))) (fun ix add_row =>
      s0 <- aget (ofV x) 0 ;; si <- aget (ofV x) ix.1.+1 ;;
      aset add_row ix.1 (ix.2 * s0 + si)) (nseq t1 0)
    = Ret (mkv t1 add).
  rewrite Ev (enumerateE 0) for_in_map size_mkv.
  rewrite (@fill_loop _ _ add _ 0%N) // => i arr /andP [_ it1] _; rewrite subn0.
  rewrite !(aget_nth 0) ?size_ofV ?ltnS // !bind_ret /=.
  by rewrite nth_mkv // ofV_mkv !nth_mkv.
rewrite bind_ret (aget_nth 0) ?size_ofV // !bind_ret Hw bind_ret Ew.
have Etl y : aslice (y :: mkv t1 (fun i => vf x i.+1)) 1 t = Ret (mkv t1 (fun i => vf x i.+1)).
  by rewrite /aslice /= size_mkv leqnn /= drop0 subn1 /= take_oversize // size_mkv.
have Ex : ofV x = vf x 0 :: mkv t1 (fun i => vf x i.+1).
  by rewrite ofV_mkv mkvS.
rewrite Ex Etl bind_ret bind_ret usubE // bind_ret subn1 /=.
have -> : aslice (mkv t1 add) 0 t1 = Ret (mkv t1 add).
  by rewrite /aslice size_mkv leqnn /= drop0 subn0 take_oversize // size_mkv.
rewrite bind_ret Etl bind_ret !size_mkv eqxx /= drop_oversize ?size_mkv // cats0 take0.
congr Ret; rewrite ofV_mkv mkvS; congr cons.
- rewrite [RHS](vfE _ (0 : 'I_t)) mxE big_split_ord big_ord1 /=.
  have -> : (0 : 'I_t) = lshift t1 0 by apply: val_inj.
  rewrite block_mxEul mxE eqxx mulr1n.
  have -> : x (lshift t1 0) 0 = vf x 0 by rewrite -vfE.
  congr (_ + _); rewrite /mkv sum_products_map; apply: eq_bigr => i _.
  have -> : mxf w i 0 = w i 0 by exact: (mxfE w i 0).
  have -> : vf x i.+1 = x (rshift 1 i) 0 by exact: (vfE x (rshift 1 i)).
  by rewrite block_mxEur mxE.
- apply: eq_mkv => i it1.
  rewrite [RHS](vfE _ (rshift 1 (Ordinal it1))) mxE big_split_ord big_ord1 /=.
  have Hi : vf x i.+1 = x (rshift 1 (Ordinal it1)) 0 by exact: (vfE x (rshift 1 (Ordinal it1))).
  have Hv0 : mxf v 0 i = v 0 (Ordinal it1) by exact: (mxfE v 0 (Ordinal it1)).
  have H0 : vf x 0 = x (lshift t1 0) 0 by exact: (vfE x (lshift t1 0)).
  rewrite block_mxEdl mxE /add Hi Hv0 H0; congr (_ + _).
  rewrite (bigD1 (Ordinal it1)) //= block_mxEdr mxE eqxx mul1r big1 ?addr0 //.
  by move=> j jne; rewrite block_mxEdr mxE eq_sym (negPf jne) mul0r.
Qed.

(** ** The permutations on vectors *)

Hypothesis wf : wf_params p.
Let Rf := (r_F (p_rounds p) %/ 2)%N.
Let Rp := r_P (p_rounds p).
Definition pM : mat := toM t t (p_mds p).
Definition pMi : mat := toM t t (om_M_i (p_optimized_mds p)).
Definition pc (r : nat) : vec := rcrow (p_arc p) r.
Definition pd (r : nat) : vec := rcrow (p_optimized_arc p) r.
Definition pv (j : nat) : 'cV[F]_t1 :=
  (toM 1 t1 (nth (Rmat 0 0 [::]) (om_v_collection (p_optimized_mds p)) j))^T.
Definition pw (j : nat) : 'rV[F]_t1 :=
  (toM t1 1 (nth (Rmat 0 0 [::]) (om_w_hat_collection (p_optimized_mds p)) j))^T.
Definition pSp (j : nat) : mat := sparse (om_M_00 (p_optimized_mds p)) (pw j) (pv j).

Definition fullR (c : nat -> vec) (r : nat) (x : vec) : outcome vec :=
  y <- fullO (x + c r) ;; Ret (pM *m y).
Definition partR (r : nat) (x : vec) : outcome vec :=
  y <- partO (x + pc r) ;; Ret (pM *m y).
Definition unoptV (x : vec) : outcome vec :=
  x <- for_in (iota 0 Rf) (fullR pc) x ;;
  x <- for_in (iota Rf Rp) partR x ;;
  for_in (iota (Rf + Rp) Rf) (fullR pc) x.

Definition partS (r : nat) (y : vec) : outcome vec :=
  z <- partO y ;; Ret (pSp (Rp - r - 1) *m (z + (pd (Rf + r.+1) 0 0) *: e0 F t1)).
Definition optV (x : vec) : outcome vec :=
  x <- for_in (iota 0 Rf) (fullR pd) x ;;
  y <- for_in (iota 0 Rp.-1) partS (pMi *m (x + pd Rf)) ;;
  z <- partO y ;;
  for_in (iota (Rf + Rp) Rf) (fullR pd) (pSp 0 *m z).

Let wfE : [/\ p_mds p = ofM pM, om_M_i (p_optimized_mds p) = ofM pMi,
  wf_shape (r_P (p_rounds p) + r_F (p_rounds p)) t (p_arc p),
  wf_shape (r_P (p_rounds p) + r_F (p_rounds p)) t (p_optimized_arc p) &
  forall j, (j < Rp)%N ->
   aget (om_v_collection (p_optimized_mds p)) j = Ret (ofM (pv j)^T) /\
   aget (om_w_hat_collection (p_optimized_mds p)) j = Ret (ofM (pw j)^T)].
Proof.
move: wf; rewrite /wf_params ht ht1.
case/and5P=> _ w1 w2 w3; case/and5P=> w4 /eqP s5 w5 /eqP s6 w6.
split=> //.
- by rewrite ofM_toM.
- by rewrite ofM_toM.
move=> j jR; rewrite /pv /pw !trmxK.
by split; rewrite (aget_nth (Rmat 0 0 [::])) ?s5 ?s6 // ofM_toM //;
  [apply: (all_nthP _ w5); rewrite s5 | apply: (all_nthP _ w6); rewrite s6].
Qed.

Lemma sim_loop S A k n (f : nat -> S -> outcome S) (g : nat -> A -> outcome A) (rep : nat -> A -> S) a :
  (forall i a, (i < n)%N -> f i (rep (k + i)%N a) = omap (rep (k + i).+1) (g (k + i)%N a)) ->
  for_in (range 0 n) f (rep k a) = omap (rep (k + n)%N) (for_in (iota k n) g a).
Proof.
rewrite /range subn0; elim: n => [|n IH] H; first by rewrite addn0.
have E m : iota m n.+1 = rcons (iota m n) (m + n)%N by rewrite -{1}addn1 iotaD /= cats1.
rewrite !E !for_in_rcons IH; last by move=> i b ilt; apply: H; apply: ltnW.
case: (for_in _ g a) => //= b; rewrite add0n H // addnS; by case: (g _ b).
Qed.

Lemma rcount : (Rf + Rp + Rf <= r_P (p_rounds p) + r_F (p_rounds p))%N.
Proof.
rewrite addnAC [X in (_ <= X)%N]addnC leq_add2r addnn -mul2n mulnC.
exact: leq_trunc_div.
Qed.

Lemma unoptimized_permute_ofV x :
  unoptimized_permute p (ofV x) = omap (@ofV F t) (unoptV x).
Proof.
have [EM _ wc _ _] := wfE.
rewrite /unoptimized_permute /unoptV -/Rf -/Rp.
have F1 k i y : (k + i < Rf + Rp + Rf)%N ->
   (sc <- add_constants_counter p (elements (p_arc p)) (ofV y, ((k + i) * t)%N) ;;
        let: (st, counter) := sc in
        st <- full_sub_words p st ;; st <- mix_layer_mds p st ;; Ret (st, counter))
   = omap (fun y => (ofV y, ((k + i).+1 * t)%N)) (fullR pc (k + i) y).
  move=> lt; rewrite (add_constants_counter_ofV (k := pc (k + i))); last first.
    by move=> j; apply: (aget_rcrow _ wc); apply: leq_trans rcount.
  rewrite bind_ret full_sub_words_ofV /fullR; case: (fullO _) => //= z.
  by rewrite /mix_layer_mds EM mix_layer_ofM /= [((k + i).+1 * _)%N]mulSn [(_ + (k + i) * _)%N]addnC.
have F2 k i y : (k + i < Rf + Rp + Rf)%N ->
   (sc <- add_constants_counter p (elements (p_arc p)) (ofV y, ((k + i) * t)%N) ;;
        let: (st, counter) := sc in
        st <- partial_sub_words p st ;; st <- mix_layer_mds p st ;; Ret (st, counter))
   = omap (fun y => (ofV y, ((k + i).+1 * t)%N)) (partR (k + i) y).
  move=> lt; rewrite (add_constants_counter_ofV (k := pc (k + i))); last first.
    by move=> j; apply: (aget_rcrow _ wc); apply: leq_trans rcount.
  rewrite bind_ret partial_sub_words_ofV /partR; case: (partO _) => //= z.
  by rewrite /mix_layer_mds EM mix_layer_ofM /= [((k + i).+1 * _)%N]mulSn [(_ + (k + i) * _)%N]addnC.
pose rep r (y : vec) := (ofV y, (r * t)%N).
rewrite (@sim_loop _ _ 0 Rf _ (fullR pc) rep x); last first.
  by move=> i y lt; apply: F1; rewrite add0n -addnA ltn_addr.
rewrite add0n; case: (for_in (iota 0 Rf) _ x) => //= x1.
rewrite (@sim_loop _ _ Rf Rp _ partR rep x1); last first.
  by move=> i y lt; apply: F2; rewrite -addnA ltn_add2l ltn_addr.
case: (for_in (iota Rf Rp) _ x1) => //= x2.
rewrite (@sim_loop _ _ (Rf + Rp) Rf _ (fullR pc) rep x2); last first.
  by move=> i y lt; apply: F1; rewrite ltn_add2l.
by case: (for_in _ _ x2).
Qed.

Lemma permute_ofV x : (0 < Rp)%N -> permute p (ofV x) = omap (@ofV F t) (optV x).
Proof.
move=> Rp0; have [EM EMi _ wd Hvw] := wfE.
rewrite /permute /optV -/Rf -/Rp.
have F1 k y : (k < Rf + Rp + Rf)%N ->
   (st <- add_constants p (get_element (p_optimized_arc p) k) (ofV y) ;;
    st <- full_sub_words p st ;; mix_layer_mds p st)
   = omap (@ofV F t) (fullR pd k y).
  move=> lt; rewrite (add_constants_ofV (k := pd k)); last first.
    by move=> j; apply: (get_rcrow _ wd); apply: leq_trans rcount.
  rewrite bind_ret full_sub_words_ofV /fullR; case: (fullO _) => //= z.
  by rewrite /mix_layer_mds EM mix_layer_ofM.
rewrite (@sim_loop _ _ 0 Rf _ (fullR pd) (fun _ => @ofV F t) x); last first.
  by move=> i y lt; rewrite add0n F1 // -addnA ltn_addr.
case: (for_in (iota 0 Rf) _ x) => //= x1.
rewrite (add_constants_ofV (k := pd Rf)); last first.
  move=> j; apply: (get_rcrow _ wd); apply: leq_trans rcount.
  by rewrite -addnA -{1}[Rf]addn0 ltn_add2l addn_gt0 Rp0.
rewrite bind_ret /mix_layer_mi EMi mix_layer_ofM bind_ret usubE // bind_ret subn1.
pose rep r (y : vec) := (ofV y, (Rf + r)%N).
have -> : (ofV (pMi *m (x1 + pd Rf)), Rf) = rep 0%N (pMi *m (x1 + pd Rf)) by rewrite /rep addn0.
rewrite (@sim_loop _ _ 0 Rp.-1 _ partS rep); last first.
  move=> i y lt; rewrite add0n /rep.
  have iR : (i.+1 < Rp)%N by rewrite -(prednK Rp0) ltnS.
  rewrite partial_sub_words_ofV /partS; case: (partO y) => //= z.
  rewrite (aget_nth 0) ?size_ofV // bind_ret.
  have -> : get_element (p_optimized_arc p) (Rf + i).+1 0 = Ret (pd (Rf + i.+1) 0 0).
    rewrite -addnS -[0%N]/(val (0 : 'I_t)); apply: (get_rcrow _ wd).
    by apply: leq_trans rcount; rewrite -addnA ltn_add2l ltn_addr.
  rewrite bind_ret.
  have -> : aset (ofV z) 0 (nth 0 (ofV z) 0 + pd (Rf + i.+1) 0 0)
     = Ret (ofV (z + pd (Rf + i.+1) 0 0 *: e0 F t1)).
    rewrite (aset_set_nth 0) size_ofV /=; congr Ret.
    have mx1 : maxn 1 t = t by apply/maxn_idPr.
    apply: (@eq_from_nth _ 0); rewrite size_set_nth !size_ofV mx1 // => k kr.
    rewrite nth_set_nth /= -[k]/(val (Ordinal kr)) !nth_ofV -[0%N]/(val (0 : 'I_t)) nth_ofV.
    rewrite !mxE; case: (k =P 0%N) => [k0|/eqP k0].
      by have -> : Ordinal kr = 0 by [apply: val_inj]; rewrite eqxx mulr1.
    have -> : (Ordinal kr == 0) = false by apply/negbTE.
    by rewrite mulr0 addr0.
  rewrite bind_ret usubE ?bind_ret ?usubE ?bind_ret; last 2 first.
  - by rewrite subn_gt0; apply: ltnW.
  - by apply: ltnW; apply: ltnW.
  have [|Hv Hw] := Hvw (Rp - i - 1)%N.
    by rewrite -subnDA addn1 ltn_subrL.
  by rewrite (sparse_mat_mul_ofV _ Hv Hw) !trmxK /= addnS.
rewrite add0n; case: (for_in _ partS _) => //= y.
rewrite partial_sub_words_ofV; case: (partO y) => //= z.
have [|Hv Hw] := Hvw 0%N; first exact: Rp0.
rewrite (sparse_mat_mul_ofV _ Hv Hw) !trmxK bind_ret.
pose rep2 (r : nat) (y : vec) := (ofV y, r).
have -> : (Rf + Rp.-1).+1 = (Rf + Rp)%N by rewrite -addnS prednK.
rewrite -/(pSp 0).
rewrite (@sim_loop _ _ (Rf + Rp) Rf _ (fullR pd) rep2 (pSp 0 *m z)); last first.
  move=> i u lt; rewrite /rep2.
  have := F1 (Rf + Rp + i)%N u; rewrite ltn_add2l => /(_ lt).
  case: (add_constants _ _ _) => [a|] /=; last by case: (fullR _ _ _).
  case: (full_sub_words _ _) => [b|] /=; last by case: (fullR _ _ _).
  by move=> ->; case: (fullR _ _ _).
by case: (for_in _ _ _).
Qed.

(** ** The optimization theorem on vectors *)

Lemma diag1_0 (N : 'M[F]_t1) (x : vec) : (diag1 N *m x) 0 0 = x 0 0.
Proof.
have -> : (0 : 'I_t) = lshift t1 0 by apply: val_inj.
rewrite mxE big_split_ord big_ord1 /= block_mxEul mxE eqxx mul1r big1 ?addr0 // => i _.
by rewrite block_mxEur mxE mul0r.
Qed.

Lemma set0v_add (x d : vec) y : d 0 0 = 0 -> set0v (x + d) y = set0v x y + d.
Proof.
move=> d0; apply/matrixP => i j; rewrite !mxE (ord1 j); case: eqP => [->|_] //.
by rewrite d0 addr0.
Qed.

Lemma set0v_e0 (x : vec) y : set0v x y = x + (y - x 0 0) *: e0 F t1.
Proof.
apply/matrixP => i j; rewrite !mxE (ord1 j) eqxx andbT; case: eqP => [->|_].
  by rewrite mulr1 addrC subrK.
by rewrite mulr0 addr0.
Qed.

Lemma diag1_e0 (N : 'M[F]_t1) : diag1 N *m e0 F t1 = e0 F t1.
Proof.
apply/matrixP => i j; rewrite (ord1 j) -colE mxE [RHS]mxE eqxx andbT /diag1.
have E0 : (0 : 'I_t) = lshift t1 0 by apply: val_inj.
rewrite -[i]splitK; case: (split i) => k /=.
  by rewrite E0 block_mxEul mxE (ord1 k) eqxx.
by rewrite E0 block_mxEdl mxE.
Qed.

Lemma set0v_diag1 (N : 'M[F]_t1) (x : vec) y : set0v (diag1 N *m x) y = diag1 N *m set0v x y.
Proof. by rewrite !set0v_e0 mulmxDr -scalemxAr diag1_e0 diag1_0. Qed.

Lemma partO_diag1 (N : 'M[F]_t1) x : partO (diag1 N *m x) = omap (mulmx (diag1 N)) (partO x).
Proof. by rewrite /partO diag1_0; case: (sbox p _) => //= y; rewrite set0v_diag1. Qed.

Lemma partO_add (x d : vec) : d 0 0 = 0 -> partO (x + d) = omap (fun z => z + d) (partO x).
Proof.
move=> d0; rewrite /partO mxE d0 addr0; case: (sbox p _) => //= y.
by rewrite set0v_add.
Qed.

Lemma opt_unopt : (0 < Rp)%N ->
  sparse_factorization pM pMi (om_M_00 (p_optimized_mds p)) pw pv Rp ->
  equivalent_constants pM pc pd Rf Rp ->
  forall x, optV x = unoptV x.
Proof.
move=> Rp0 [N [N0 EMi Hsp]] [H1 H2 [e [E0 E1 E2 E3]]] x.
rewrite /optV /unoptV.
have -> : for_in (iota 0 Rf) (fullR pd) x = for_in (iota 0 Rf) (fullR pc) x.
  by apply: eq_in_for_in => r y; rewrite mem_iota add0n /= => rR; rewrite /fullR H1.
case: (for_in _ _ x) => // x1; rewrite !bind_ret.
have last y : for_in (iota (Rf + Rp) Rf) (fullR pd) y = for_in (iota (Rf + Rp) Rf) (fullR pc) y.
  apply: eq_in_for_in => r u; rewrite mem_iota => /andP [r1 r2].
  by rewrite /fullR -(subnKC r1) H2 // ltn_subLR.
have inv n : (n < Rp)%N ->
  for_in (iota 0 n) partS (pMi *m (x1 + pd Rf))
  = omap (fun xr => diag1 (N (Rp - n)%N) *m (xr + e n)) (for_in (iota Rf n) partR x1).
  elim: n => [|n IH] nR; first by rewrite /= subn0 E0 -EMi.
  have E m : iota m n.+1 = rcons (iota m n) (m + n)%N by rewrite -{1}addn1 iotaD /= cats1.
  rewrite !E !for_in_rcons IH ?(ltnW nR) // add0n.
  case: (for_in _ partR x1) => //= xr.
  rewrite /partS /partR partO_diag1.
  have -> : xr + e n = (xr + pc (Rf + n)) + (e n - pc (Rf + n)) by rewrite -addrA [pc _ + _]addrC subrK.
  rewrite partO_add; last first.
    have -> : (e n - pc (Rf + n)) 0 0 = e n 0 0 - pc (Rf + n) 0 0 by rewrite !mxE.
    by rewrite E1 ?(ltnW nR) // subrr.
  case: (partO _) => //= z.
  rewrite E2 //; congr Ret.
  set dl := e n - _; set k := pd _ 0 0.
  have -> : diag1 (N (Rp - n)%N) *m (z + dl) + k *: e0 F t1 = diag1 (N (Rp - n)%N) *m (z + dl + k *: e0 F t1).
    by rewrite [in RHS]mulmxDr -scalemxAr diag1_e0.
  have -> : (Rp - n)%N = (Rp - n.+1).+1 by rewrite subnSK // ltnW.
  have -> : ((Rp - n.+1).+1 - 1 = Rp - n.+1)%N by rewrite subn1.
  rewrite mulmxA /pSp Hsp; last by rewrite ltn_subrL.
  by rewrite -mulmxA -!mulmxDr !addrA.
have -> : iota Rf Rp = rcons (iota Rf Rp.-1) (Rf + Rp.-1)%N.
  by rewrite -{1}(prednK Rp0) -{1}addn1 iotaD /= cats1.
rewrite for_in_rcons inv ?prednK // bindA.
case: (for_in _ partR x1) => //= xr.
have -> : (Rp - Rp.-1 = 1)%N by rewrite -{1}(prednK Rp0) subSn ?subnn.
rewrite partO_diag1 E3 /partR; case: (partO _) => //= z.
by rewrite mulmxA /pSp Hsp // N0 last /diag1 -scalar_mx_block mul1mx.
Qed.

End Perm.
