(** The optimized round constants are equivalent to the original ones. *)
From Coq Require Import ZArith NArith Lia PeanoNat.
From mathcomp Require Import all_ssreflect all_algebra.
From Verif Require Import Base Matrix MatrixSpec MatrixProofs MatrixProps Params Spec.
From Verif Require Import Slia Mds MdsProofs.
Set Implicit Arguments.
Unset Strict Implicit.
Unset Printing Implicit Defensive.
Import GRing.Theory.
Local Open Scope ring_scope.
Local Open Scope rust_scope.

Lemma for_in_iotaS S k n (body : nat -> S -> outcome S) s :
  for_in (iota k n.+1) body s = bind (body k s) (for_in (iota k.+1 n) body).
Proof. by []. Qed.

Section Arc.
Variable F : fieldType.

Lemma row_vector_vecE R t (f : nat -> nat -> F) i : (i < R)%N ->
  row_vector_vec (mkm R t f) i = Ret (ofM (\row_(j < t) f i j)).
Proof.
move=> hi; rewrite /row_vector_vec [n_cols _]/= /range subn0.
rewrite (push_row (f := f i)) => [|j hj]; last by rewrite get_mkm.
rewrite bind_ret cat0s size_map size_iota.
have -> : [seq f i j | j <- iota 0 t] = mkels 1 t (fun _ j => f i j) by rewrite /mkels /= cats0.
by rewrite new_mkm ?mul1n // mkm_ofM.
Qed.

Lemma add_row_loop R t (f : nat -> nat -> F) r (delta : seq F) k n :
  (r < R)%N -> size delta = t -> (k + n <= t)%N ->
  for_in (iota k n) (fun j temp =>
     curr <- get_element temp r j ;; d <- aget delta j ;; set_element temp r j (curr + d))
   (mkm R t (fun i j => if (i == r) && (j < k)%N then f i j + nth 0 delta j else f i j))
  = Ret (mkm R t (fun i j => if (i == r) && (j < k + n)%N then f i j + nth 0 delta j else f i j)).
Proof.
move=> hr sd; elim: n k => [|n IH] k hk; first by rewrite addn0.
have kt : (k < t)%N by apply: leq_trans hk; rewrite addnS ltnS leq_addr.
rewrite for_in_iotaS get_mkm // bind_ret (aget_nth 0) ?sd // bind_ret set_mkm // bind_ret.
rewrite addnS -addSn -IH ?addSn -?addnS //; congr (for_in _ _ _).
apply: eq_mkm => i j hi hj; rewrite eqxx ltnn andbF.
by case: eqP => [->|] //=; rewrite ltnS [(j <= k)%N]leq_eqVlt; case: (j =P k) => [->|].
Qed.

Lemma set_row_loop R t (f : nat -> nat -> F) r (s : seq F) k n :
  (r < R)%N -> size s = t -> (k + n <= t)%N ->
  for_in (iota k n) (fun j arc => set_element arc r j (nth 0 s j))
   (mkm R t (fun i j => if (i == r) && (j < k)%N then nth 0 s j else f i j))
  = Ret (mkm R t (fun i j => if (i == r) && (j < k + n)%N then nth 0 s j else f i j)).
Proof.
move=> hr sd; elim: n k => [|n IH] k hk; first by rewrite addn0.
have kt : (k < t)%N by apply: leq_trans hk; rewrite addnS ltnS leq_addr.
rewrite for_in_iotaS set_mkm // bind_ret.
rewrite addnS -addSn -IH ?addSn -?addnS //; congr (for_in _ _ _).
apply: eq_mkm => i j hi hj; by case: eqP => [->|] //=; rewrite ltnS [(j <= k)%N]leq_eqVlt; case: (j =P k) => [->|].
Qed.

Lemma set_constantsE R t (f : nat -> nat -> F) r (s : seq F) : (r < R)%N -> size s = t ->
  set_constants_by_round (mkm R t f) r s
  = Ret (mkm R t (fun i j => if i == r then nth 0 s j else f i j)).
Proof.
move=> hr sd; rewrite /set_constants_by_round require_ret ?sd ?eqxx //.
rewrite (enumerateE 0) for_in_map sd.
rewrite (_ : mkm R t f = mkm R t (fun i j => if (i == r) && (j < 0)%N then nth 0 s j else f i j));
  last by apply: eq_mkm => i j _ _; rewrite ltn0 andbF.
rewrite (@set_row_loop R t f r s 0 t) //.
by congr Ret; apply: eq_mkm => i j hi hj; rewrite add0n hj andbT.
Qed.

Section Step.
Variables (t1 R : nat) (M : 'M[F]_(1 + t1)).
Local Notation t := (1 + t1)%N.
Local Notation vec := ('cV[F]_t).

(** A table of constants given by its rows. *)
Definition tab (c : nat -> vec) : rmat F := mkm R t (fun i j => mxf (c i) j 0).

Lemma eq_tab (c d : nat -> vec) : (forall i, (i < R)%N -> c i = d i) -> tab c = tab d.
Proof. by move=> H; apply: eq_mkm => i j hi _; rewrite H. Qed.

(** [x] with word 0 cleared, and word 0 of [x] alone. *)
Definition tail0 (x : vec) : vec := x - x 0 0 *: e0 F t1.
Definition head0 (x : vec) : vec := x 0 0 *: e0 F t1.

Definition step_rows (r : nat) (c : nat -> vec) : nat -> vec := fun i =>
  if i == r then c r + tail0 (invmx M *m c r.+1)
  else if i == r.+1 then head0 (invmx M *m c r.+1)
  else c i.

Lemma mxf_col n (x : 'cV[F]_n.+1) j (h : (j < n.+1)%N) : mxf x j 0 = x (Ordinal h) 0.
Proof. by rewrite (@mxf_at _ n.+1 1 x j 0 h isT); congr (x _ _); apply: val_inj. Qed.
Lemma mxf_row n (x : 'rV[F]_n) j (h : (j < n)%N) : mxf x 0 j = x 0 (Ordinal h).
Proof. by rewrite (@mxf_at _ 1 n x 0 j isT h); congr (x _ _); apply: val_inj. Qed.

Lemma head0E (x : vec) j : (j < t)%N -> mxf (head0 x) j 0 = if j is 0%N then x 0 0 else 0.
Proof.
by move=> h; rewrite (mxf_col _ h) !mxE; case: j h => [|j] h /=; rewrite ?mulr1 ?mulr0.
Qed.
Lemma tail0E (x : vec) j : (j < t)%N -> mxf (tail0 x) j 0 = if j is 0%N then 0 else mxf x j 0.
Proof.
move=> h; rewrite !(mxf_col _ h) !mxE; case: j h => [|j] h /=; rewrite ?mulr1 ?mulr0 ?subr0 //.
by apply/eqP; rewrite subr_eq0; apply/eqP; congr (x _ _); apply: val_inj.
Qed.

Lemma arc_stepE r (c : nat -> vec) : (r.+1 < R)%N ->
  arc_step (@row_vector_vec F) t (ofM (invmx M^T)) r (tab c) = Ret (tab (step_rows r c)).
Proof.
move=> hr; rewrite /arc_step row_vector_vecE // bind_ret.
have -> : \row_(j < t) mxf (c r.+1) j 0 = (c r.+1)^T.
  by apply/rowP => j; rewrite !mxE (mxf_col _ (ltn_ord j)); congr (c _ _ _); apply: val_inj.
rewrite mul_ofM // bind_ret -trmx_inv -trmx_mul.
set x := invmx M *m c r.+1.
rewrite require_ret ?eqxx // require_ret ?eqxx //.
have E j (h : (j < t)%N) : get_element (ofM x^T) 0 j = Ret (x (Ordinal h) 0).
  by rewrite get_mxf // (mxf_row _ h) mxE.
rewrite /range (push_row (f := fun j => mxf x j 0)) => [|j /andP [j1 hj]]; last first.
  by move: hj; rewrite subnKC // => hj; rewrite (E j hj) (mxf_col _ hj).
rewrite bind_ret /range subn0.
set delta := _ ++ _.
have sd : size delta = t by rewrite size_cat size_map size_iota subn1.
rewrite (_ : tab c = mkm R t (fun i j => if (i == r) && (j < 0)%N then mxf (c i) j 0 + nth 0 delta j
    else mxf (c i) j 0)); last by apply: eq_mkm => i j _ _; rewrite ltn0 andbF.
rewrite (@add_row_loop R t (fun i j => mxf (c i) j 0) r delta 0 t) ?(ltnW hr) // bind_ret.
rewrite (E 0%N isT) bind_ret usubE // bind_ret.
rewrite set_constantsE //; last by rewrite /= size_nseq subn1.
congr Ret; apply: eq_mkm => i j hi hj; rewrite add0n hj andbT /step_rows.
case: (i =P r.+1) => [->|nr].
  rewrite gtn_eqF ?ltnSn // head0E //.
  case: j hj => [|j] hj /=; first by congr (x _ _); apply: val_inj.
  by rewrite nth_nseq; case: ifP.
case: (i =P r) => [->|//].
rewrite -/x !(mxf_col _ hj) mxE -!(mxf_col _ hj) tail0E //; congr (_ + _).
case: j hj => [|j] hj //.
by rewrite /delta /= (nth_map 0%N) ?size_iota ?subn1 // nth_iota ?subn1 // add1n.
Qed.

(** Running the loop down from row [hi]: after [k] steps row [hi - k] holds
    [pushed k], and the rows above it up to [hi] only a word 0. *)
Variables (c : nat -> vec) (hi : nat).
Fixpoint pushed (k : nat) : vec :=
  if k is k'.+1 then c (hi - k) + tail0 (invmx M *m pushed k') else c hi.
Definition rows_after (k i : nat) : vec :=
  if (i + k < hi)%N then c i
  else if (i + k == hi)%N then pushed k
  else if (i <= hi)%N then head0 (invmx M *m pushed (hi - i))
  else c i.

Lemma rows_after0 : rows_after 0 =1 c.
Proof.
move=> i; rewrite /rows_after addn0; case: ltnP => // hi_i; case: eqP => [->|ne] //.
by case: leqP => // i_hi; case: ne; apply/eqP; rewrite eqn_leq hi_i i_hi.
Qed.

Lemma rows_after_step a k : (a + k).+1 = hi -> step_rows a (rows_after k) =1 rows_after k.+1.
Proof.
move=> E i; rewrite /step_rows.
have Ea : rows_after k a = c a by rewrite /rows_after -E ltnSn.
have Ea1 : rows_after k a.+1 = pushed k by rewrite /rows_after (_ : (a.+1 + k)%N = hi) // ltnn eqxx.
rewrite Ea Ea1 /rows_after.
case: (i =P a) => [->|na].
  rewrite (_ : (a + k.+1)%N = hi) ?ltnn ?eqxx /=; last by rewrite -E addnS.
  congr (c _ + _).
  by rewrite -E subSS addnK.
case: (i =P a.+1) => [->|na1].
  have -> : (a.+1 + k.+1)%N = hi.+1 by rewrite -E; slia.
  rewrite ltnNge leqnSn gtn_eqF // -[in RHS]E subSS addKn ltnS leq_addr.
  by [].
have l1 : (i + k.+1 < hi)%N = (i < a)%N by rewrite -E; slia.
have l2 : (i + k.+1 == hi)%N = (i == a)%N by rewrite -E; slia.
have l3 : (i + k < hi)%N = (i <= a)%N by rewrite -E; slia.
have l4 : (i + k == hi)%N = (i == a.+1)%N by rewrite -E; slia.
rewrite l1 l2 l3 l4 (introF eqP na) (introF eqP na1) leq_eqVlt (introF eqP na) /=.
by [].
Qed.

Lemma eq_step_rows r (d d' : nat -> vec) : d =1 d' -> step_rows r d =1 step_rows r d'.
Proof. by move=> H i; rewrite /step_rows !H. Qed.

Lemma arc_loop a n k : (a + n + k)%N = hi -> (hi < R)%N ->
  for_in (rev (iota a n)) (arc_step (@row_vector_vec F) t (ofM (invmx M^T))) (tab (rows_after k))
  = Ret (tab (rows_after (n + k))).
Proof.
elim: n k => [|n IH] k E hR; first by [].
rewrite -{1}addn1 iotaD rev_cat /= arc_stepE; last by apply: leq_ltn_trans hR; rewrite -E; slia.
rewrite bind_ret (eq_tab (d := rows_after k.+1)) => [|i _]; last first.
  by apply: rows_after_step; rewrite -E; slia.
by rewrite IH //; [rewrite addSnnS|rewrite -E; slia].
Qed.

(** The whole function, for a unit matrix of at most 8 rows. *)
Definition opt_rows (Rf : nat) : nat -> vec := rows_after (hi - Rf).
End Step.

Lemma usubP (a b : nat) : usub a b = if (b <= a)%N then Ret (a - b)%N else Panic.
Proof. by rewrite /usub; case: ltnP => h. Qed.

Lemma arc_generate_optimizedE t1 (M : 'M[F]_(1 + t1)) (r : rounds) (c : nat -> 'cV[F]_(1 + t1)) :
  (t1 < 8)%N -> (0 < rounds_total r)%N ->
  let hi := (rounds_total r - 1 - r_F r %/ 2)%N in
  arc_generate_optimized (@row_vector_vec F) (tab (rounds_total r) c) (ofM M) r =
  if M \in unitmx then Ret (tab (rounds_total r) (opt_rows M c hi (r_F r %/ 2))) else Panic.
Proof.
move=> t8 R0 hi; rewrite /arc_generate_optimized transpose_ofM bind_ret.
rewrite /mds_inverse inverse_ret // unitmx_tr; case: (M \in unitmx) => //.
rewrite bind_ret usubP R0 bind_ret usubP -/hi.
have lt : (r_F r %/ 2 <= rounds_total r - 1)%N.
  move: R0; rewrite /rounds_total; have := leq_div (r_F r) 2.
  case E: (r_F r) => [|f]; first by rewrite div0n.
  have : (f.+1 %/ 2 < f.+1)%N by rewrite ltn_Pdiv.
  by slia.
rewrite lt bind_ret /range.
have [le|gt] := leqP (r_F r %/ 2) hi; last first.
  have z : (hi - r_F r %/ 2 = 0)%N by apply/eqP; rewrite subn_eq0 ltnW.
  by rewrite /opt_rows z /=; congr Ret; apply: eq_tab => i _; rewrite rows_after0.
rewrite -(eq_tab (c := rows_after M c hi 0)); last by move=> i _; rewrite rows_after0.
have -> : n_cols (tab (rounds_total r) (rows_after M c hi 0)) = (1 + t1)%N by [].
have hiR : (hi < rounds_total r)%N by move: lt R0; rewrite /hi; slia.
by rewrite (arc_loop M c (hi := hi)) ?addn0 ?subnKC.
Qed.

Lemma opt_rows_equivalent t1 (M : 'M[F]_(1 + t1)) (c : nat -> 'cV[F]_(1 + t1)) Rf Rp :
  M \in unitmx -> (0 < Rp)%N ->
  equivalent_constants M c (opt_rows M c (Rf + Rp).-1 Rf) Rf Rp.
Proof.
move=> u Rp0.
have : ((Rf + Rp).-1 = Rf + Rp.-1)%N by case: Rp Rp0 => // Rp _; rewrite addnS.
move: (Rf + Rp).-1 => hi hiE.
have eh : (hi - Rf = Rp.-1)%N by rewrite hiE addKn.
rewrite /opt_rows eh.
have at_Rf : rows_after M c hi Rp.-1 Rf = pushed M c hi Rp.-1.
  by rewrite /rows_after -hiE ltnn eqxx.
split.
- by move=> r lt; rewrite /rows_after hiE ltn_add2r lt.
- move=> r lt; rewrite /rows_after.
  rewrite ifN; last by rewrite hiE; slia.
  rewrite ifN; last by rewrite hiE; slia.
  by rewrite ifN //; rewrite hiE; slia.
exists (fun r => pushed M c hi (Rp.-1 - r)); split.
- by rewrite subn0 at_Rf.
- move=> r lt; case E: (Rp.-1 - r)%N => [|k] /=.
    by rewrite hiE; congr (c _ _ _); slia.
  rewrite !mxE /= mulr1 subrr addr0.
  by rewrite hiE -E; congr (c _ _ _); slia.
- move=> r lt.
  have E : (Rp.-1 - r = (Rp.-1 - r.+1).+1)%N by slia.
  rewrite E /=; set y := pushed M c hi _.
  have -> : (hi - (Rp.-1 - r.+1).+1 = Rf + r)%N by rewrite hiE; slia.
  have -> : rows_after M c hi Rp.-1 (Rf + r.+1) = head0 (invmx M *m y).
    rewrite /rows_after ifN; last by rewrite hiE; slia.
    rewrite ifN; last by rewrite hiE; slia.
    rewrite ifT; last by rewrite hiE; slia.
    by rewrite (_ : (hi - (Rf + r.+1) = Rp.-1 - r.+1)%N) // hiE; slia.
  have -> : c (Rf + r)%N + tail0 (invmx M *m y) - c (Rf + r)%N = tail0 (invmx M *m y) by rewrite addrC addKr.
  have -> (x : 'cV[F]_(1 + t1)) : head0 x 0 0 = x 0 0 by rewrite !mxE /= mulr1.
  by rewrite /tail0 subrK mulmxA mulmxV // mul1mx.
- by rewrite subnn /= hiE.
Qed.
End Arc.
