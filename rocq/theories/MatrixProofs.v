(** Proofs about the matrix library model. *)
From mathcomp Require Import all_ssreflect all_algebra.
From Verif Require Import Base Matrix MatrixSpec.
Set Implicit Arguments.
Unset Strict Implicit.
Unset Printing Implicit Defensive.
Import GRing.Theory.
Local Open Scope ring_scope.
Local Open Scope rust_scope.

Section Proofs.
Variable F : fieldType.
Implicit Types f g : nat -> nat -> F.

(** * Matrices given by a function on indices *)

Definition mkels (r c : nat) f : seq F :=
  flatten [seq [seq f i j | j <- iota 0 c] | i <- iota 0 r].
Definition mkm (r c : nat) f : rmat F := Rmat r c (mkels r c f).

Lemma size_flatten_unif (T : eqType) A (s : seq T) c (h : T -> seq A) :
  (forall x, x \in s -> size (h x) = c) -> size (flatten (map h s)) = (size s * c)%N.
Proof.
elim: s => //= x s IH H; rewrite size_cat H ?mem_head // IH ?mulSn //.
by move=> y ys; apply: H; rewrite inE ys orbT.
Qed.

Lemma size_mkels r c f : size (mkels r c f) = (r * c)%N.
Proof.
by rewrite /mkels (@size_flatten_unif _ _ _ c) ?size_iota // => x _; rewrite size_map size_iota.
Qed.

Lemma eq_mkels r c f g :
  (forall i j, (i < r)%N -> (j < c)%N -> f i j = g i j) -> mkels r c f = mkels r c g.
Proof.
move=> H; rewrite /mkels; congr flatten; apply/eq_in_map => i; rewrite mem_iota add0n => /= ir.
by apply/eq_in_map => j; rewrite mem_iota add0n => /= jc; apply: H.
Qed.

Lemma eq_mkm r c f g :
  (forall i j, (i < r)%N -> (j < c)%N -> f i j = g i j) -> mkm r c f = mkm r c g.
Proof. by move=> H; rewrite /mkm (eq_mkels H). Qed.

Lemma nth_flatten_unif (rows : seq (seq F)) c i j :
  all (fun r => size r == c) rows -> (j < c)%N ->
  nth 0 (flatten rows) (i * c + j) = nth 0 (nth [::] rows i) j.
Proof.
move=> H jc; elim: rows i H => [|r rows IH] i /=; first by rewrite !nth_nil.
case/andP=> /eqP sr H; rewrite nth_cat sr.
case: i => [|i] /=; first by rewrite mul0n add0n jc.
rewrite mulSn -addnA ltnNge leq_addr /= addKn; exact: IH.
Qed.

Lemma nth_mkels r c f i j : (i < r)%N -> (j < c)%N -> nth 0 (mkels r c f) (i * c + j) = f i j.
Proof.
move=> ir jc; rewrite /mkels nth_flatten_unif //; last first.
  by apply/allP => x /mapP [k _ ->]; rewrite size_map size_iota.
by rewrite (nth_map 0%N) ?size_iota // nth_iota // (nth_map 0%N) ?size_iota // nth_iota.
Qed.

Lemma idx_lt r c i j : (i < r)%N -> (j < c)%N -> (i * c + j < r * c)%N.
Proof.
move=> ir jc; apply: (@leq_trans (i * c + c)); first by rewrite ltn_add2l.
by rewrite -mulSnr leq_mul2r ir orbT.
Qed.

Lemma get_mkm r c f i j : (i < r)%N -> (j < c)%N -> get_element (mkm r c f) i j = Ret (f i j).
Proof.
move=> ir jc; rewrite /get_element (aget_nth 0) /= ?size_mkels ?idx_lt //.
by rewrite nth_mkels.
Qed.

Lemma new_mkm r c ne f : ne = (r * c)%N -> mnew r c ne (mkels r c f) = Ret (mkm r c f).
Proof. by move=> ->; rewrite /mnew eqxx size_mkels eqxx. Qed.

(** Conversions. *)
Definition mxf {r c} (A : 'M[F]_(r, c)) (i j : nat) : F :=
  match insub i, insub j with
  | Some i', Some j' => A i' j'
  | _, _ => 0
  end.

Lemma mxfE r c (A : 'M[F]_(r, c)) (i : 'I_r) (j : 'I_c) : mxf A i j = A i j.
Proof. by rewrite /mxf !valK. Qed.

Lemma map_enum_iota n A (h : nat -> A) : [seq h (i : 'I_n) | i <- enum 'I_n] = [seq h i | i <- iota 0 n].
Proof. by rewrite -val_enum_ord -[RHS]map_comp. Qed.

Lemma ofM_mkm r c (A : 'M[F]_(r, c)) : ofM A = mkm r c (mxf A).
Proof.
rewrite /ofM /mkm /mkels -map_enum_iota; congr (Rmat _ _ (flatten _)).
apply: eq_map => i; rewrite -map_enum_iota; apply: eq_map => j; by rewrite mxfE.
Qed.

Lemma mkm_ofM r c f : mkm r c f = ofM (\matrix_(i < r, j < c) f i j).
Proof.
rewrite ofM_mkm; apply: eq_mkm => i j ir jc.
by rewrite -[i]/(val (Ordinal ir)) -[j]/(val (Ordinal jc)) mxfE mxE.
Qed.

Lemma mx_mxf r c (A : 'M[F]_(r, c)) : \matrix_(i < r, j < c) mxf A i j = A.
Proof. by apply/matrixP => i j; rewrite mxE mxfE. Qed.

Lemma toM_mkm r c f : toM r c (mkm r c f) = \matrix_(i < r, j < c) f i j.
Proof. by apply/matrixP => i j; rewrite !mxE /= nth_mkels. Qed.

Lemma toM_ofM r c (A : 'M[F]_(r, c)) : toM r c (ofM A) = A.
Proof. by rewrite ofM_mkm toM_mkm mx_mxf. Qed.

Lemma ofM_inj r c (A B : 'M[F]_(r, c)) : ofM A = ofM B -> A = B.
Proof. by move=> H; rewrite -(toM_ofM A) H toM_ofM. Qed.

Lemma reshape_rows (s : seq F) r c : size s = (r * c)%N ->
  s = mkels r c (fun i j => nth 0 s (i * c + j)).
Proof.
elim: r s => [|r IH] s; first by rewrite mul0n => /size0nil ->.
rewrite mulSn => sz; rewrite /mkels /=.
have s1 : size (take c s) = c by rewrite size_takel // sz leq_addr.
rewrite -{1}(cat_take_drop c s); congr (_ ++ _).
  apply: (@eq_from_nth _ 0); first by rewrite size_map size_iota s1.
  move=> j; rewrite s1 => jc; rewrite (nth_map 0%N) ?size_iota // nth_iota //.
  by rewrite nth_take // mul0n.
have s2 : size (drop c s) = (r * c)%N by rewrite size_drop sz addKn.
rewrite {1}(IH _ s2) /mkels -[1%N]addn0 iotaDl -map_comp; congr flatten.
apply: eq_map => i /=; apply: eq_map => j.
by rewrite nth_drop addnA -mulSn.
Qed.

Lemma wf_mkm r c (m : rmat F) : wf_shape r c m ->
  m = mkm r c (fun i j => nth 0 (elements m) (i * c + j)).
Proof.
by case: m => nr nc s /and3P [/eqP /= -> /eqP -> /eqP sz]; rewrite /mkm /= -reshape_rows.
Qed.

Lemma ofM_toM r c (m : rmat F) : wf_shape r c m -> ofM (toM r c m) = m.
Proof. by move=> wf; rewrite [in RHS](wf_mkm wf) mkm_ofM. Qed.

Lemma wf_ofM r c (A : 'M[F]_(r, c)) : wf_shape r c (ofM A).
Proof. by rewrite ofM_mkm /wf_shape /= size_mkels !eqxx. Qed.

Lemma size_ofM r c (A : 'M[F]_(r, c)) : size (elements (ofM A)) = (r * c)%N.
Proof. by case/and3P: (wf_ofM A) => _ _ /eqP. Qed.

Lemma wf_mkm_shape r c f : wf_shape r c (mkm r c f).
Proof. by rewrite /wf_shape /= size_mkels !eqxx. Qed.

(** * Loops that fill an array *)

Definition emits (b : seq F * nat -> outcome (seq F * nat)) (l : seq F) : Prop :=
  forall pre rest, b (pre ++ rest, size pre) =
    if (size l <= size rest)%N
    then Ret (pre ++ l ++ drop (size l) rest, (size pre + size l)%N)
    else Panic.

Lemma emits_emit v x : v = Ret x -> emits (emit v) [:: x].
Proof.
move=> -> pre [|y rest] //=; rewrite /emit /=; first by rewrite cats0 aset_oob.
by rewrite aset_cat /= drop0 addn1.
Qed.

Lemma emits_nil : emits (@Ret _) [::].
Proof. by move=> pre rest; rewrite /= drop0 addn0. Qed.

Lemma emits_bind b1 b2 l1 l2 : emits b1 l1 -> emits b2 l2 ->
  emits (fun st => bind (b1 st) b2) (l1 ++ l2).
Proof.
move=> H1 H2 pre rest; rewrite size_cat H1; case: ifP => sz /=; last first.
  by rewrite ifN // -ltnNge; apply: leq_trans (leq_addr _ _); rewrite ltnNge sz.
rewrite -size_cat catA H2 size_drop leq_subRL //; case: ifP => // _.
by rewrite drop_drop addnC -!catA !size_cat addnA.
Qed.

Lemma emits_for (T : eqType) (xs : seq T) body (G : T -> seq F) :
  (forall x, x \in xs -> emits (body x) (G x)) ->
  emits (for_in xs body) (flatten [seq G x | x <- xs]).
Proof.
elim: xs => [|x xs IH] H; first exact: emits_nil.
apply: emits_bind; first by apply: H; rewrite mem_head.
by apply: IH => y ys; apply: H; rewrite inE ys orbT.
Qed.

Lemma emits_for1 (T : eqType) (xs : seq T) v (h : T -> F) :
  (forall x, x \in xs -> v x = Ret (h x)) ->
  emits (for_in xs (fun x => emit (v x))) [seq h x | x <- xs].
Proof.
move=> H; rewrite -[map _ _]flatten_seq1 -map_comp.
by apply: emits_for => x xin; apply: emits_emit; apply: H.
Qed.

Lemma emits_run b l n : emits b l -> size l = n -> b (nseq n 0, 0%N) = Ret (l, n).
Proof.
move=> H <-; have := H [::] (nseq (size l) 0).
by rewrite /= size_nseq leqnn drop_oversize ?size_nseq // cats0 add0n.
Qed.

(** An array of the wrong length: either the loop or the constructor panics. *)
Lemma emits_run_bad b l nr nc ne : emits b l -> size l = (nr * nc)%N -> ne <> (nr * nc)%N ->
  (st <- b (nseq ne 0, 0%N) ;; mnew nr nc ne st.1) = Panic.
Proof.
move=> H sz /eqP bad; have := H [::] (nseq ne 0); rewrite /= add0n => ->.
by case: ifP => //= _; rewrite /mnew bad.
Qed.

(** A loop over two ranges that fills an [r x c] array. *)
Lemma emits_mkels r c (v : nat -> nat -> outcome F) f :
  (forall i j, (i < r)%N -> (j < c)%N -> v i j = Ret (f i j)) ->
  emits (for_in (range 0 r) (fun i => for_in (range 0 c) (fun j => emit (v i j)))) (mkels r c f).
Proof.
move=> H; rewrite /range !subn0; apply: emits_for => i; rewrite mem_iota add0n /= => ir.
by apply: emits_for1 => j; rewrite mem_iota add0n /= => jc; apply: H.
Qed.

(** * The operations *)

Lemma transpose_mkm r c f : transpose (mkm r c f) = Ret (mkm c r (fun i j => f j i)).
Proof.
rewrite /transpose /= (emits_run (l := mkels c r (fun i j => f j i))).
- by rewrite /= new_mkm // size_mkels mulnC.
- by apply: emits_mkels => i j ic jr; rewrite get_mkm.
- by rewrite !size_mkels mulnC.
Qed.

Lemma transpose_ofM r c (A : 'M[F]_(r, c)) : transpose (ofM A) = Ret (ofM A^T).
Proof.
rewrite ofM_mkm transpose_mkm mkm_ofM; congr (Ret (ofM _)).
by apply/matrixP => i j; rewrite !mxE mxfE.
Qed.

Lemma hadamard_mkm r c f g :
  hadamard_product (mkm r c f) (mkm r c g) = Ret (Ok (mkm r c (fun i j => f i j * g i j))).
Proof.
rewrite /hadamard_product /= (emits_run (l := mkels r c (fun i j => f i j * g i j))).
- by rewrite /= new_mkm // size_mkels.
- by apply: emits_mkels => i j ic jr; rewrite !get_mkm.
- by rewrite !size_mkels.
Qed.

Lemma sum_products_foldl (l : seq (F * F)) a :
  foldl (fun acc xy => acc + xy.1 * xy.2) a l = a + \sum_(xy <- l) xy.1 * xy.2.
Proof.
elim: l a => [|x l IH] a /=; first by rewrite big_nil addr0.
by rewrite IH big_cons addrA.
Qed.

Lemma sum_products_map n (f g : nat -> F) :
  sum_products [seq f i | i <- iota 0 n] [seq g i | i <- iota 0 n] = \sum_(i < n) f i * g i.
Proof.
rewrite /sum_products sum_products_foldl add0r zip_map big_map /=.
have -> : iota 0 n = index_iota 0 n by rewrite /index_iota subn0.
by rewrite big_mkord.
Qed.

Lemma iter_rows_mkm r c f : (0 < c)%N ->
  iter_rows (mkm r c f) = Ret [seq [seq f i j | j <- iota 0 c] | i <- iota 0 r].
Proof.
move=> c0; rewrite /iter_rows /= /mkels chunks_flatten //.
by apply/allP => x /mapP [k _ ->]; rewrite size_map size_iota.
Qed.

(** The shared body of [mat_mul] and [square_mat_mul]. *)
Lemma mul_body r c s f g : (0 < c)%N ->
  emits (for_in [seq [seq f i j | j <- iota 0 c] | i <- iota 0 r] (fun row st =>
          bind (iter_rows (mkm s c g)) (fun rrows =>
          for_in rrows (fun column => emit (dot_product row column)) st)))
        (mkels r s (fun i j => \sum_(k < c) f i k * g j k)).
Proof.
move=> c0; rewrite /mkels.
pose G (row : seq F) := [seq sum_products row [seq g j k | k <- iota 0 c] | j <- iota 0 s].
have -> : [seq [seq \sum_(k < c) f i k * g j k | j <- iota 0 s] | i <- iota 0 r]
   = [seq G x | x <- [seq [seq f i j | j <- iota 0 c] | i <- iota 0 r]].
  by rewrite -map_comp; apply: eq_map => i /=; apply: eq_map => j; rewrite sum_products_map.
apply: emits_for => row /mapP [i _ ->].
rewrite iter_rows_mkm //= /G => pre rest.
rewrite for_in_map.
move: pre rest; apply: emits_for1 => j _.
by rewrite /dot_product !size_map !size_iota eqxx.
Qed.

Lemma mat_mul_mkm r c s ne f g : (0 < c)%N -> ne = (r * s)%N ->
  mat_mul ne (mkm r c f) (mkm c s g) = Ret (mkm r s (fun i j => \sum_(k < c) f i k * g k j)).
Proof.
move=> c0 ->; rewrite /mat_mul transpose_mkm /= iter_rows_mkm //=.
rewrite (emits_run (@mul_body r c s f (fun i j => g j i) c0)) ?size_mkels //=.
by rewrite new_mkm.
Qed.

Lemma square_mat_mul_mkm n f g : (0 < n)%N ->
  square_mat_mul (n * n) (mkm n n f) (mkm n n g) = Ret (mkm n n (fun i j => \sum_(k < n) f i k * g k j)).
Proof.
move=> c0; rewrite /square_mat_mul transpose_mkm /= iter_rows_mkm //=.
rewrite (emits_run (@mul_body n n n f (fun i j => g j i) c0)) ?size_mkels //=.
by rewrite new_mkm.
Qed.

Lemma mat_mul_ofM r c s ne (A : 'M[F]_(r, c)) (B : 'M[F]_(c, s)) :
  (0 < c)%N -> ne = (r * s)%N -> mat_mul ne (ofM A) (ofM B) = Ret (ofM (A *m B)).
Proof.
move=> c0 neE; rewrite !ofM_mkm mat_mul_mkm // -ofM_mkm mkm_ofM; congr (Ret (ofM _)).
by apply/matrixP => i j; rewrite !mxE; apply: eq_bigr => k _; rewrite !mxfE.
Qed.

Lemma square_mat_mul_ofM n (A B : 'M[F]_n) : (0 < n)%N ->
  square_mat_mul (n * n) (ofM A) (ofM B) = Ret (ofM (A *m B)).
Proof.
move=> c0; rewrite !ofM_mkm square_mat_mul_mkm // -ofM_mkm mkm_ofM; congr (Ret (ofM _)).
by apply/matrixP => i j; rewrite !mxE; apply: eq_bigr => k _; rewrite !mxfE.
Qed.

(** A loop that overwrites consecutive positions. *)
Lemma fill_loop n (h : nat -> F) (body : nat -> seq F -> outcome (seq F)) (off : nat) :
  (forall i arr, (off <= i < off + n)%N -> size arr = n -> body i arr = aset arr (i - off) (h i)) ->
  for_in (iota off n) body (nseq n 0) = Ret [seq h i | i <- iota off n].
Proof.
move=> H.
suff gen k m : (k + m = n)%N ->
    for_in (iota (off + k) m) body ([seq h i | i <- iota off k] ++ nseq m 0)
      = Ret [seq h i | i <- iota off n].
  by have := gen 0%N n; rewrite addn0 add0n; apply.
elim: m k => [|m IH] k; first by rewrite addn0 => -> /=; rewrite cats0.
move=> kmn /=; rewrite H; last 2 first.
- by rewrite leq_addr ltn_add2l -kmn addnS ltnS leq_addr.
- by rewrite size_cat /= size_map size_iota size_nseq.
rewrite addKn; have := aset_cat [seq h i | i <- iota off k] (nseq m 0) 0 (h (off + k)%N).
rewrite size_map size_iota => -> /=; rewrite -addnS -cat_rcons -map_rcons.
have -> : rcons (iota off k) (off + k)%N = iota off k.+1 by rewrite -cats1 -addn1 iotaD.
by apply: IH; rewrite addSnnS.
Qed.

Lemma enumerateE A (d : A) (s : seq A) : enumerate s = [seq (i, nth d s i) | i <- iota 0 (size s)].
Proof.
apply: (@eq_from_nth _ (0%N, d)).
  by rewrite /enumerate size_zip size_iota minnn size_map size_iota.
move=> i; rewrite /enumerate size_zip size_iota minnn => lt.
by rewrite nth_zip ?size_iota // nth_iota // (nth_map 0%N) ?size_iota // nth_iota.
Qed.

Lemma scalar_mul_elements (m : rmat F) c : size (elements m) = (n_rows m * n_cols m)%N ->
  scalar_mul m c = Ret (Rmat (n_rows m) (n_cols m) [seq x * c | x <- elements m]).
Proof.
move=> sz; rewrite /scalar_mul (enumerateE 0) for_in_map.
rewrite (@fill_loop _ (fun i => nth 0 (elements m) i * c) _ 0%N); last first.
  by move=> i arr _ _; rewrite subn0.
rewrite /= /mnew sz eqxx /= size_map size_iota eqxx /=; congr (Ret (Rmat _ _ _)).
rewrite -sz (@map_comp _ _ _ (fun x => x * c) (nth 0 (elements m))) map_nth_iota0 //.
by rewrite take_size.
Qed.

Lemma scalar_mul_mkm r c f x :
  scalar_mul (mkm r c f) x = Ret (mkm r c (fun i j => f i j * x)).
Proof.
rewrite scalar_mul_elements /= ?size_mkels //; congr (Ret (Rmat _ _ _)).
rewrite /mkels map_flatten -map_comp; congr flatten; apply: eq_map => i /=.
by rewrite -map_comp.
Qed.

Lemma row_vector_mkm r c f i : (i < r)%N ->
  row_vector (mkm r c f) i =
    if (r * c == c)%N then Ret (mkm 1 c (fun _ j => f i j)) else Panic.
Proof.
move=> ir; rewrite /row_vector /range subn0 (@fill_loop _ (fun j => f i j) _ 0%N); last first.
  by move=> j arr /andP [_ jc] _; rewrite get_mkm //= subn0.
rewrite /= /mnew !size_mkels mul1n size_map size_iota.
case: eqVneq => //= E; rewrite ?E ?eqxx /=; congr (Ret (Rmat _ _ _)).
by rewrite /mkels /= cats0.
Qed.

Lemma row_vector_oob r c f i : (r <= i)%N -> (0 < c)%N -> row_vector (mkm r c f) i = Panic.
Proof.
move=> ri c0; rewrite /row_vector /range subn0; case: c c0 => //= c _.
rewrite /get_element /= aget_oob // size_mkels addn0 leq_mul2r ri orbT //.
Qed.

Lemma iota_split n d : (n <= d)%N -> iota 0 d = iota 0 n ++ iota n (d - n).
Proof. by move=> nd; rewrite -{1}(subnKC nd) iotaD. Qed.

(** All indices but [i]. *)
Lemma iota_bump n i : (i <= n)%N ->
  iota 0 i ++ iota i.+1 (n - i) = [seq bump i k | k <- iota 0 n].
Proof.
move=> ile; rewrite (iota_split ile) map_cat; congr (_ ++ _).
  rewrite -{1}[iota 0 i]map_id; apply/eq_in_map => k; rewrite mem_iota add0n /= => ki.
  by rewrite /bump leqNgt ki.
rewrite -[i.+1]add1n iotaDl; apply/eq_in_map => k; rewrite mem_iota => /andP [ik _].
by rewrite /bump ik.
Qed.

Lemma nth_mkels_div r c f k : (k < r * c)%N -> nth 0 (mkels r c f) k = f (k %/ c)%N (k %% c)%N.
Proof.
move=> kr; have c0 : (0 < c)%N by move: kr; case: (c) => //; rewrite muln0.
rewrite {1}(divn_eq k c) nth_mkels ?ltn_mod //.
by rewrite ltn_divLR.
Qed.

Lemma set_mkm r c f i j v : (i < r)%N -> (j < c)%N ->
  set_element (mkm r c f) i j v
    = Ret (mkm r c (fun i' j' => if (i' == i) && (j' == j) then v else f i' j')).
Proof.
move=> ir jc; rewrite /set_element (aset_set_nth 0) /= size_mkels idx_lt //=.
congr (Ret (Rmat _ _ _)); apply: (@eq_from_nth _ 0).
  by rewrite size_set_nth !size_mkels; apply/maxn_idPr; rewrite idx_lt.
move=> k; rewrite size_set_nth size_mkels.
rewrite (maxn_idPr _) ?idx_lt // => kr; rewrite nth_set_nth /= nth_mkels_div //.
rewrite nth_mkels_div //; have c0 : (0 < c)%N by apply: leq_ltn_trans jc.
case: (eqVneq k (i * c + j)%N) => [->|ne].
  by rewrite divnMDl // divn_small // addn0 modnMDl modn_small // !eqxx.
case: ifP => // /andP [/eqP E1 /eqP E2].
by case/eqP: ne; rewrite {1}(divn_eq k c) E1 E2.
Qed.

Lemma mkels_const r c x : mkels r c (fun _ _ => x) = nseq (r * c) x.
Proof.
apply: (@eq_from_nth _ 0); first by rewrite size_mkels size_nseq.
by move=> k; rewrite size_mkels => kr; rewrite nth_mkels_div // nth_nseq kr.
Qed.

Lemma identity_mkm n : identity F n (n * n) = Ret (mkm n n (fun i j => (i == j)%:R)).
Proof.
rewrite /identity /mnew eqxx size_nseq eqxx /= -mkels_const /range subn0.
rewrite -[Rmat n n _]/(mkm n n (fun _ _ => 0)).
suff gen k m : (k + m = n)%N ->
   for_in (iota k m) (fun i m => set_element m i i 1)
     (mkm n n (fun i j => ((i == j) && (i < k)%N)%:R))
   = Ret (mkm n n (fun i j => (i == j)%:R)).
  rewrite -(gen 0%N n) //; congr (for_in _ _ _); apply: eq_mkm => i j _ _.
  by rewrite ltn0 andbF.
elim: m k => [|m IH] k.
  rewrite addn0 => -> /=; congr Ret; apply: eq_mkm => i j ir _; by rewrite ir andbT.
move=> kn /=; rewrite set_mkm -?kn ?addnS ?ltnS ?leq_addr //= -addnS kn -(IH k.+1); last by rewrite addSnnS.
congr (for_in _ _ _); apply: eq_mkm => i j _ _.
have -> : (i < k.+1)%N = (i == k) || (i < k)%N by rewrite ltnS leq_eqVlt.
case: (eqVneq i k) => [->|_] //=.
by rewrite ltnn andbF andbT eq_sym; case: eqVneq.
Qed.

Lemma identity_ofM n : identity F n (n * n) = Ret (ofM (1%:M : 'M[F]_n)).
Proof.
rewrite identity_mkm mkm_ofM; congr (Ret (ofM _)); by apply/matrixP => i j; rewrite !mxE.
Qed.

Lemma cofactors_mkm n f : cofactors (mkm n n f) = Ret (mkm n n (fun i j => (-1) ^+ (i + j))).
Proof.
rewrite /cofactors /= (emits_run (l := mkels n n (fun i j => (-1) ^+ (i + j)))).
- by rewrite /= new_mkm // size_mkels.
- exact: emits_mkels.
- by rewrite !size_mkels.
Qed.

(** * Determinants *)

Lemma first_col_minor_mkm d f i : (i <= d)%N ->
  first_col_minor d (mkm d.+1 d.+1 f) i = Ret (mkm d d (fun k l => f (bump i k) l.+1)).
Proof.
move=> id; rewrite /first_col_minor.
pose row k := [seq f k l | l <- iota 1 d].
have H k : (k < d.+1)%N -> emits (for_in (range 1 d.+1) (fun l => emit (get_element (mkm d.+1 d.+1 f) k l))) (row k).
  move=> kd; rewrite /range subn1 /=; apply: emits_for1 => l; rewrite mem_iota => /andP [_ ld].
  by rewrite get_mkm.
have E1 : emits (for_in (range 0 i) (fun k => for_in (range 1 d.+1) (fun l => emit (get_element (mkm d.+1 d.+1 f) k l))))
     (flatten [seq row k | k <- iota 0 i]).
  rewrite {1}/range subn0; apply: emits_for => k; rewrite mem_iota add0n /= => ki.
  by apply: H; apply: (leq_trans ki); apply: leqW.
have E2 : emits (for_in (range i.+1 d.+1) (fun k => for_in (range 1 d.+1) (fun l => emit (get_element (mkm d.+1 d.+1 f) k l))))
     (flatten [seq row k | k <- iota i.+1 (d - i)]).
  rewrite {1}/range subSS; apply: emits_for => k; rewrite mem_iota => /andP [_].
  by rewrite addSn subnKC // => kd; apply: H.
have lE : flatten [seq row k | k <- iota 0 i] ++ flatten [seq row k | k <- iota i.+1 (d - i)]
    = mkels d d (fun k l => f (bump i k) l.+1).
  rewrite -flatten_cat -map_cat iota_bump // -map_comp; congr flatten; apply: eq_map => k /=.
  by rewrite /row -[1%N]addn0 iotaDl -map_comp.
have := emits_run (emits_bind E1 E2) (n := (d * d)%N); rewrite lE size_mkels => /(_ erefl).
case: (for_in (range 0 i)) => //= st ->; exact: new_mkm.
Qed.

Lemma det_recSS d (m : rmat F) : det_rec d.+2 m =
  if (8 < d.+2)%N then Panic
  else
    st <- for_in (range 0 d.+2) (fun i st =>
            minor <- first_col_minor d.+1 m i ;;
            x <- get_element m i 0 ;;
            y <- det_rec d.+1 minor ;;
            Ret (if st.2 then st.1 + x * y else st.1 - x * y, ~~ st.2))
          (0, true) ;;
    Ret st.1.
Proof. by []. Qed.

Lemma det_rec_mkm n f : (0 < n <= 8)%N ->
  det_rec n (mkm n n f) = Ret (\det (\matrix_(i < n, j < n) f i j)).
Proof.
elim: n f => // n IH f /andP [_ n8].
case: n IH n8 => [|d] IH n8.
  by rewrite det_mx11 mxE /= get_mkm.
rewrite det_recSS ltnNge n8.
pose term i : F := f i 0%N * \det (\matrix_(k < d.+1, l < d.+1) f (bump i k) l.+1).
pose b (i : nat) (st : F * bool) := Ret (st.1 + (-1) ^+ (~~ st.2) * term i, ~~ st.2).
rewrite (@eq_in_for_in _ _ _ _ b); last first.
  move=> i st; rewrite /range subn0 mem_iota add0n leq0n andTb => id.
  rewrite first_col_minor_mkm // bind_ret get_mkm // bind_ret IH ?(ltnW n8) // bind_ret /b.
  by case: st.2 => /=; rewrite ?mul1r ?expr1 ?mulN1r.
have L m k a : (k + m <= d.+2)%N ->
   for_in (iota k m) b (a, ~~ odd k) = Ret (a + \sum_(k <= i < k + m) (-1) ^+ i * term i, ~~ odd (k + m)).
  elim: m k a => [|m IHm] k a km; first by rewrite addn0 big_geq ?addr0.
  rewrite /= -[~~ ~~ odd k]/(~~ odd k.+1) IHm ?addSnnS //.
  by rewrite negbK signr_odd -addrA -[in RHS]addSnnS [in RHS]big_ltn ?addSn ?ltnS ?leq_addr // addnS.
rewrite /range subn0 L //= add0r add0n; congr Ret.
rewrite (expand_det_col _ ord0) big_mkord; apply: eq_bigr => i _.
rewrite mxE /cofactor addn0 /term mulrCA; congr (_ * (_ * \det _)).
by apply/matrixP => k l; rewrite !mxE.
Qed.

Lemma det_rec_big n m : (8 < n)%N -> det_rec n m = @Panic F.
Proof. by case: n => [|[|n]] // n8; rewrite /= n8. Qed.

Lemma determinant_ofM n (A : 'M[F]_n) : (0 < n <= 8)%N -> determinant (ofM A) = Ret (\det A).
Proof. by move=> n8; rewrite ofM_mkm /determinant /= det_rec_mkm // mx_mxf. Qed.

Lemma minor_at_mkm d f i j : (i <= d)%N -> (j <= d)%N ->
  minor_at d.+1 d (mkm d.+1 d.+1 f) i j = Ret (mkm d d (fun k l => f (bump i k) (bump j l))).
Proof.
move=> id jd; rewrite /minor_at.
pose row k := [seq f k (bump j l) | l <- iota 0 d].
set body := fun k st => _.
have H k : (k < d.+1)%N -> emits (body k) (row k).
  move=> kd; rewrite /row; have -> : [seq f k (bump j l) | l <- iota 0 d] =
    [seq f k l | l <- iota 0 j] ++ [seq f k l | l <- iota j.+1 (d - j)].
    by rewrite -map_cat iota_bump // -map_comp.
  apply: emits_bind.
    rewrite /range subn0; apply: emits_for1 => l; rewrite mem_iota add0n /= => lj.
    by rewrite get_mkm // (leq_trans lj) // leqW.
  rewrite /range subSS; apply: emits_for1 => l; rewrite mem_iota => /andP [_].
  by rewrite addSn subnKC // => ld; rewrite get_mkm.
have E1 : emits (for_in (range 0 i) body) (flatten [seq row k | k <- iota 0 i]).
  rewrite {1}/range subn0; apply: emits_for => k; rewrite mem_iota add0n /= => ki.
  by apply: H; apply: (leq_trans ki); apply: leqW.
have E2 : emits (for_in (range i.+1 d.+1) body) (flatten [seq row k | k <- iota i.+1 (d - i)]).
  rewrite {1}/range subSS; apply: emits_for => k; rewrite mem_iota => /andP [_].
  by rewrite addSn subnKC // => kd; apply: H.
have lE : flatten [seq row k | k <- iota 0 i] ++ flatten [seq row k | k <- iota i.+1 (d - i)]
    = mkels d d (fun k l => f (bump i k) (bump j l)).
  by rewrite -flatten_cat -map_cat iota_bump // -map_comp.
have := emits_run (emits_bind E1 E2) (n := (d * d)%N); rewrite lE size_mkels => /(_ erefl).
case: (for_in (range 0 i)) => //= st ->; exact: new_mkm.
Qed.

(** The (unsigned) minor of entry (i, j). *)
Definition minor_fun (n : nat) f (i j : nat) : F :=
  \det (\matrix_(k < n.-1, l < n.-1) f (bump i k) (bump j l)).

Lemma minor_matrix_mkm d f : (0 < d <= 8)%N ->
  minor_matrix d.+1 d (mkm d.+1 d.+1 f) = Ret (mkm d.+1 d.+1 (minor_fun d.+1 f)).
Proof.
move=> d8; rewrite /minor_matrix (emits_run (l := mkels d.+1 d.+1 (minor_fun d.+1 f))).
- by rewrite bind_ret [_.1]/fst new_mkm //; exact: size_mkels.
- apply: emits_mkels => i j id jd; rewrite minor_at_mkm //= /determinant /=.
  by rewrite det_rec_mkm.
- by rewrite /elements /mkm !size_mkels.
Qed.

Lemma minors_mkm n f : (1 < n <= 8)%N -> minors (mkm n n f) = Ret (mkm n n (minor_fun n f)).
Proof.
case/andP; case: n => [|[|[|n]]] // _ n8.
  rewrite /minors [n_rows _]/= !get_mkm // !bind_ret /mnew /=; congr (Ret (Rmat _ _ _)).
  by rewrite /mkels /= /minor_fun !det_mx11 !mxE.
have -> : minors (mkm n.+3 n.+3 f) =
    if (8 < n.+3)%N then Panic else minor_matrix n.+3 n.+2 (mkm n.+3 n.+3 f) by [].
by rewrite ltnNge n8; apply: minor_matrix_mkm; exact: ltnW.
Qed.

Lemma signed_minor_cofactor n f (i j : 'I_n) :
  minor_fun n f i j * (-1) ^+ (i + j) = cofactor (\matrix_(i < n, j < n) f i j) i j.
Proof.
rewrite /cofactor mulrC; congr (_ * _); rewrite /minor_fun; congr (\det _).
by apply/matrixP => k l; rewrite !mxE.
Qed.

Lemma rmat_eqbxx (m : rmat F) : rmat_eqb m m.
Proof. by rewrite /rmat_eqb !eqxx. Qed.

Lemma inverse_ofM n (A : 'M[F]_n) : (1 < n <= 8)%N ->
  inverse (ofM A) = Ret (if \det A == 0 then Err NoMatrixInverse else Ok (ofM (invmx A))).
Proof.
move=> n8; have n0 : (0 < n <= 8)%N by case/andP: n8 => /ltnW -> ->.
have [n1 _] := andP n8.
rewrite /inverse.
have -> : size (elements (ofM A)) = (n * n)%N by exact: size_ofM.
rewrite [n_rows _]/= identity_ofM /=.
have -> : (n == 1)%N = false by case: eqP n1 => // ->.
rewrite determinant_ofM //=; case: eqVneq => // d0.
rewrite {1}ofM_mkm minors_mkm //= {1}ofM_mkm cofactors_mkm /= hadamard_mkm /= transpose_mkm /=.
rewrite /fdiv (negbTE d0) /= scalar_mul_mkm /=.
have -> : mkm n n (fun i j => minor_fun n (mxf A) j i * (-1) ^+ (j + i) * (1 / \det A)) = ofM (invmx A).
  rewrite mkm_ofM; congr (ofM _); apply/matrixP => i j.
  rewrite /invmx unitmxE unitfE d0 !mxE signed_minor_cofactor mx_mxf mulrC div1r //.
rewrite square_mat_mul_ofM /=; last by case/andP: n0.
by rewrite mulmxV ?unitmxE ?unitfE // rmat_eqbxx.
Qed.

Lemma inverse_ofM1 (A : 'M[F]_1) :
  inverse (ofM A) = if \det A == 0 then Panic else Ret (Ok (ofM (invmx A))).
Proof.
rewrite /inverse.
have -> : size (elements (ofM A)) = (1 * 1)%N by exact: size_ofM.
rewrite [n_rows _]/= identity_ofM /= {1}ofM_mkm get_mkm //= /finverse.
rewrite -[0%N]/(val (ord0 : 'I_1)) mxfE det_mx11; case: eqVneq => //= a0.
congr (Ret (Ok _)); rewrite ofM_mkm /mkm /mkels /=; congr (Rmat _ _ [:: _]).
rewrite -[0%N]/(val (ord0 : 'I_1)) mxfE /invmx unitmxE det_mx11 unitfE a0 !mxE.
rewrite /cofactor addn0 expr0 mul1r.
have -> : row' ord0 (col' ord0 A) = 1%:M by apply/matrixP; case.
by rewrite det1 mulr1.
Qed.

Lemma inverse_big n (A : 'M[F]_n) : (n == 0%N) || (8 < n)%N -> inverse (ofM A) = Panic.
Proof.
move=> H; rewrite /inverse.
have -> : size (elements (ofM A)) = (n * n)%N by exact: size_ofM.
rewrite [n_rows _]/= identity_ofM /=; case/orP: H => [/eqP n0|n8].
  by move: A; rewrite n0 /= => A.
by rewrite (_ : (n == 1)%N = false) ?/determinant /= ?det_rec_big //; case: (n) n8 => [|[|]].
Qed.

(** * MDS accessors *)

Lemma mds_v_mkm d f : mds_v d (mkm d.+1 d.+1 f) = Ret (mkm 1 d (fun _ j => f 0%N j.+1)).
Proof.
rewrite /mds_v /aslice [n_rows _]/=.
have -> : size (elements (mkm d.+1 d.+1 f)) = (d.+1 * d.+1)%N by exact: size_mkels.
rewrite leq_pmulr // subn1 [d.+1.-1]/= [elements _]/=.
have -> : take d (drop 1 (mkels d.+1 d.+1 f)) = mkels 1 d (fun _ j => f 0%N j.+1).
  rewrite /mkels /= drop0 cats0 take_size_cat ?size_map ?size_iota //.
  by rewrite -[1%N]addn0 iotaDl -map_comp.
by rewrite /= new_mkm // mul1n.
Qed.

Lemma mds_w_mkm d f : mds_w d (mkm d.+1 d.+1 f) = Ret (mkm d 1 (fun i _ => f i.+1 0%N)).
Proof.
rewrite /mds_w /= /range subn1 /= (@fill_loop _ (fun i => f i 0%N) _ 1%N); last first.
  by move=> i arr /andP [i1 id] _; rewrite get_mkm //= usubE.
have -> : [seq f i 0%N | i <- iota 1 d] = mkels d 1 (fun i _ => f i.+1 0%N).
  by rewrite /mkels /= flatten_map1 -[1%N]addn0 iotaDl -map_comp.
by rewrite /= new_mkm // muln1.
Qed.

Lemma mds_hat_mkm d f : mds_hat d (d * d) (mkm d.+1 d.+1 f) = Ret (mkm d d (fun i j => f i.+1 j.+1)).
Proof.
rewrite /mds_hat (emits_run (l := mkels d d (fun i j => f i.+1 j.+1))) ?size_mkels //=.
  by rewrite new_mkm.
rewrite /range subn1 /= /mkels -[1%N]addn0 iotaDl.
have -> : [seq [seq f i.+1 j.+1 | j <- iota 0 d] | i <- iota 0 d] =
   [seq [seq f i j | j <- [seq (1 + j)%N | j <- iota 0 d]] | i <- [seq (1 + i)%N | i <- iota 0 d]].
  by rewrite -[RHS]map_comp; apply: eq_map => i /=; rewrite -map_comp.
apply: emits_for => i /mapP [i' i'd ->]; apply: emits_for1 => j /mapP [j' j'd ->].
by move: i'd j'd; rewrite !mem_iota !add0n /= => *; rewrite get_mkm.
Qed.

End Proofs.
