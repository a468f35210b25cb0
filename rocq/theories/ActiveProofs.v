(** Counting active S-boxes; differential uniformity of power maps. *)
From mathcomp Require Import all_ssreflect all_algebra.
From Verif Require Import Spec Slia Cauchy TrailsSpec ActiveSpec.
Set Implicit Arguments.
Unset Strict Implicit.
Unset Printing Implicit Defensive.
Import GRing.Theory.
Local Open Scope ring_scope.

(** * The branch number of an MDS matrix *)
Lemma mds_branch (F : fieldType) n (M : 'M[F]_n) : mds_mx M -> branch M n.+1.
Proof.
move=> mds x x0; rewrite leqNgt; apply/negP => lt.
pose A := [pred i | x i 0 != 0]; pose B := [pred i | (M *m x) i 0 == 0].
have AB : (#|A| <= #|B|)%N.
  have : (#|B| + wt (M *m x) = n)%N.
    rewrite -[RHS]card_ord -(cardC B); congr (_ + _)%N.
  by move: lt; rewrite ltnS -/(wt x) /wt; slia.
pose f (j : 'I_#|A|) : 'I_n := enum_val j; pose g (j : 'I_#|A|) : 'I_n := enum_val (widen_ord AB j).
have fi : injective f by exact: enum_val_inj.
have gi : injective g by move=> i j /enum_val_inj /(congr1 val) /= /val_inj.
have u := mds _ g f gi fi.
have : mxsub g f M *m (\col_j x (f j) 0) = 0.
  apply/colP => i; rewrite [RHS]mxE.
  have /eqP Z : (M *m x) (g i) 0 == 0 by have := enum_valP (widen_ord AB i); rewrite inE.
  rewrite -[RHS]Z !mxE [RHS](bigID (fun j => j \in A)) /= [X in _ = _ + X]big1 ?addr0; last first.
    by move=> j; rewrite inE negbK => /eqP ->; rewrite mulr0.
  by rewrite [RHS]big_enum_val; apply: eq_bigr => j _; rewrite !mxE.
move/(congr1 (mulmx (invmx (mxsub g f M)))); rewrite mulKmx // mulmx0 => E.
case/eqP: x0; apply/colP => i; rewrite mxE; apply/eqP/negPn/negP => xi.
have iA : i \in A by [].
have /colP/(_ (enum_rank_in iA i)) := E; rewrite !mxE /f enum_rankK_in // => /eqP.
by rewrite (negbTE xi).
Qed.

(** * Active S-boxes *)
Section Sums.
Local Open Scope nat_scope.
Lemma sum_pairs (f : nat -> nat) b a m : (forall r, a <= r -> r.+1 < a + m -> b <= f r + f r.+1) ->
  m./2 * b <= \sum_(a <= r < a + m) f r.
Proof.
elim/ltn_ind: m a => -[|[|m]] IH a H //.
rewrite -[m.+2./2]/(m./2.+1) mulSn.
rewrite big_ltn; last by rewrite -addSnnS leq_addr.
rewrite big_ltn; last by rewrite -!addSnnS leq_addr.
rewrite addnA leq_add //; first by apply: H => //; rewrite -!addSnnS ltnS leq_addr.
have := IH m _ a.+2; rewrite -!addSnnS; apply=> // r ar rm; apply: H => //.
by do 2 apply: ltnW.
by rewrite -!addSnnS.
Qed.

Lemma sum_eq0 (f : nat -> nat) a m k : \sum_(a <= r < a + m) f r = 0 -> k < m -> f (a + k) = 0.
Proof.
elim: m => // m IH; rewrite addnS big_nat_recr ?leq_addr //= => /eqP; rewrite addn_eq0 => /andP [/eqP E /eqP Em].
by rewrite ltnS leq_eqVlt => /orP [/eqP ->|/(IH E)].
Qed.

Lemma sum_windows (f : nat -> nat) t a m : 0 < t ->
  (forall r, a <= r -> r + t <= a + m -> 0 < \sum_(r <= k < r + t) f k) ->
  m %/ t <= \sum_(a <= r < a + m) f r.
Proof.
move=> t0; elim/ltn_ind: m a => m IH a H.
have [lt|le] := ltnP m t; first by rewrite divn_small.
rewrite -(subnK le) divnDr ?dvdnn // divnn t0 addn1 -addn1 addnC.
rewrite (@big_cat_nat _ _ _ (a + t)) ?leq_addr ?leq_add2l //=; last by rewrite (subnK le).
rewrite leq_add //; first by apply: H; rewrite ?leq_add2l.
have -> : a + (m - t + t) = (a + t) + (m - t) by rewrite -addnA [t + _]addnC.
apply: IH; first by rewrite ltn_subrL t0 (leq_trans t0 le).
move=> r h1 h2; apply: H; first by apply: leq_trans h1; rewrite leq_addr.
by apply: leq_trans h2 _; rewrite -addnA subnKC.
Qed.
End Sums.

(** Differences [d r] before and [s r] after the S-boxes of round [r] *)
Section Trail.
Variables (F : fieldType) (n : nat) (M : 'M[F]_n.+1) (Rf Rp : nat) (d s : nat -> 'cV[F]_n.+1).
Local Notation is_full := (is_full Rf Rp).
Local Notation R := (Rf + Rp + Rf)%N.
Hypothesis M_unit : M \in unitmx.
Hypothesis d0 : d 0%N != 0.
Hypothesis dS : forall r, (r.+1 < R)%N -> d r.+1 = M *m s r.
Hypothesis s_zero : forall r i, (r < R)%N -> (s r i 0 == 0) = (d r i 0 == 0).
Hypothesis s_linear : forall r i, (r < R)%N -> ~~ is_full r -> i != 0 -> s r i 0 = d r i 0.
Definition act (r : nat) : nat := if is_full r then wt (d r) else (d r 0 0 != 0).

Lemma d_neq0 r : (r < R)%N -> d r != 0.
Proof.
elim: r => [//|r IH] lt; rewrite dS //; apply: contra (IH (ltnW lt)) => /eqP E.
have {}E : s r = 0 by rewrite -[s r](mulKmx M_unit) E mulmx0.
by apply/eqP/colP => i; apply/eqP; rewrite [X in _ == X]mxE -s_zero ?(ltnW lt) // E mxE.
Qed.

Lemma wt_s r : (r < R)%N -> wt (s r) = wt (d r).
Proof. by move=> lt; apply: eq_card => i; rewrite !inE s_zero. Qed.

Lemma two_full b r : branch M b -> (r.+1 < R)%N -> is_full r -> is_full r.+1 -> (b <= act r + act r.+1)%N.
Proof.
move=> Hb lt f1 f2; rewrite /act f1 f2 dS // -wt_s ?(ltnW lt) //; apply: Hb.
by apply: contra (d_neq0 lt) => /eqP E; rewrite dS // E mulmx0.
Qed.

Lemma partial_window a : no_inactive_trail M 1 -> (Rf <= a)%N -> (a + n.+1 <= Rf + Rp)%N ->
  (0 < \sum_(a <= r < a + n.+1) act r)%N.
Proof.
move=> Ht h1 h2; rewrite lt0n; apply/negP => /eqP H.
have np k : (k < n.+1)%N -> ~~ is_full (a + k).
  by move=> lt; rewrite negb_or -leqNgt -ltnNge (leq_trans h1 (leq_addr _ _)) (leq_trans _ h2) // ltn_add2l.
have aR k : (k < n.+1)%N -> (a + k < R)%N.
  by move=> lt; apply: (leq_trans _ (leq_addr Rf _)); apply: leq_trans h2; rewrite ltn_add2l.
have D0 k : (k < n.+1)%N -> d (a + k) 0 0 = 0.
  by move=> lt; have := sum_eq0 H lt; rewrite /act (negbTE (np k lt)); case: eqP.
have Dk k : (k <= n)%N -> d (a + k) = M ^+ k *m d a.
  elim: k => [|k IH] lt; first by rewrite addn0 expr0 mul1mx.
  have -> : d (a + k.+1) = M *m s (a + k) by have := aR k.+1 lt; rewrite addnS; apply: dS.
  rewrite exprS -mulmxE -mulmxA -IH ?(ltnW lt) //; congr (_ *m _); apply/colP => i.
  have [->|i0] := eqVneq i 0; last by rewrite s_linear // ?np ?aR ?(leqW lt).
  by rewrite D0 ?(leqW lt) //; apply/eqP; rewrite s_zero ?aR ?(leqW lt) // D0 // (leqW lt).
have aR0 : (a < R)%N by have := aR 0%N isT; rewrite addn0.
have /eqP := d_neq0 aR0; apply; apply: Ht => k lt.
by rewrite mul1n -Dk // D0.
Qed.

Lemma trail_bound b : branch M b -> no_inactive_trail M 1 ->
  (2 * (Rf./2 * b) + Rp %/ n.+1 <= \sum_(r < R) act r)%N.
Proof.
move=> Hb Ht; rewrite -(big_mkord xpredT act).
rewrite (@big_cat_nat _ _ _ (Rf + Rp)) ?leq_addr //= (@big_cat_nat _ _ _ Rf) ?leq_addr //=.
rewrite mul2n -addnn addnAC leq_add ?leq_add //.
- rewrite -{2}[Rf]add0n; apply: sum_pairs => r _; rewrite add0n => lt.
  apply: two_full; rewrite ?/ActiveSpec.is_full ?lt ?(ltnW lt) //.
  by apply: leq_trans lt _; rewrite -addnA leq_addr.
- by apply: sum_windows => // r h1 h2; apply: partial_window.
- apply: sum_pairs => r h lt.
  by apply: two_full; rewrite ?/ActiveSpec.is_full ?h ?(leqW h) ?orbT.
Qed.
End Trail.

Section Active.
Variables (F : fieldType) (n : nat) (S : F -> F) (M : 'M[F]_n.+1) (c : nat -> 'cV[F]_n.+1) (Rf Rp : nat).
Local Notation vec := 'cV[F]_n.+1.
Local Notation before := (before S M c Rf Rp).
Local Notation active := (active S M c Rf Rp).
Local Notation is_full := (is_full Rf Rp).

(** Two runs give a trail. *)
Lemma active_bound (x y : vec) b : injective S -> M \in unitmx -> x != y -> branch M b -> no_inactive_trail M 1 ->
  (2 * (Rf./2 * b) + Rp %/ n.+1 <= active_total S M c Rf Rp x y)%N.
Proof.
move=> S_inj M_unit xy Hb Ht.
pose d r : vec := before r x - before r y.
pose s r : vec := \col_i (if is_full r || (i == 0) then S (before r x i 0) - S (before r y i 0) else d r i 0).
apply: leq_trans (@trail_bound _ _ _ Rf Rp d s M_unit _ _ _ _ b Hb Ht) _.
- by rewrite /d /= opprD addrACA subrr addr0 subr_eq0.
- move=> r _; rewrite /d /= opprD addrACA subrr addr0 -mulmxBr; congr (_ *m _).
  by apply/colP => i; rewrite !mxE; case: ifP.
- by move=> r i _; rewrite /d !mxE; case: ifP => _; rewrite !subr_eq0 // (inj_eq S_inj).
- by move=> r i _ f i0; rewrite /s mxE (negbTE f) (negbTE i0).
apply: eq_leq; apply: eq_bigr => r _; rewrite /act /active /d; case: ifP => _; last by rewrite !mxE subr_eq0.
by apply: eq_card => i; rewrite !inE !mxE subr_eq0.
Qed.
End Active.

(** The states counted are those of the permutation. *)
Section Run.
Variables (F : fieldType) (t1 : nat) (S : F -> F) (M : 'M[F]_(1 + t1)) (c : nat -> 'cV[F]_(1 + t1)) (Rf Rp : nat).
Local Notation before := (@before F t1 S M c Rf Rp).
Local Notation is_full := (is_full Rf Rp).
Local Notation round := (fun x r => if is_full r then full_round S M x (c r) else partial_round S M x (c r)).

Lemma beforeE r x : before r x = foldl round x (iota 0 r) + c r.
Proof.
elim: r => [|r IH]; first by [].
have -> : iota 0 r.+1 = iota 0 r ++ [:: r] by rewrite -[X in iota _ X]addn1 iotaD.
rewrite foldl_cat [foldl _ _ [:: r]]/= /=; congr (_ + _).
have Eb : before r x = foldl round x (iota 0 r) + c r by [].
rewrite /full_round /partial_round -Eb; case: ifP => f; congr (_ *m _); by apply/colP => i; rewrite !mxE f.
Qed.

Lemma after_poseidon x : after S M c Rf Rp (Rf + Rp + Rf) x = poseidon S M c Rf Rp x.
Proof.
rewrite /after beforeE addrK /poseidon !iotaD !foldl_cat !add0n.
have E (f g : 'cV[F]_(1 + t1) -> nat -> 'cV[F]_(1 + t1)) z s : {in s, forall r y, f y r = g y r} -> foldl f z s = foldl g z s.
  elim: s z => //= r s IH z H; rewrite H ?inE ?eqxx //; apply: IH => k ks y.
  by apply: H; rewrite inE ks orbT.
rewrite (E _ (fun x r => full_round S M x (c r)) x (iota 0 Rf)); last first.
  by move=> r; rewrite mem_iota /ActiveSpec.is_full /= => ->.
rewrite (E _ (fun x r => partial_round S M x (c r)) _ (iota Rf Rp)); last first.
  by move=> r; rewrite mem_iota /ActiveSpec.is_full /= => /andP [h1 h2] y; rewrite ifN // negb_or -leqNgt -ltnNge h1.
by apply: E => r; rewrite mem_iota /ActiveSpec.is_full => /andP [-> _] y; rewrite orbT.
Qed.
End Run.

(** * Differential uniformity of x^e *)
Lemma size_diff_poly (F : fieldType) (a b : F) e : (1 < e)%N -> a != 0 -> e%:R != 0 :> F ->
  let p := ('X + a%:P) ^+ e - 'X^e - b%:P in p != 0 /\ (size p <= e)%N.
Proof.
move=> e1 a0 e0 p.
have E : p = \poly_(i < e) (a ^+ (e - i) *+ 'C(e, i)) - b%:P.
  rewrite /p addrC [_ + a%:P]addrC exprDn big_ord_recr /= subnn expr0 mul1r binn mulr1n addrK addrC poly_def.
  congr (_ - _); apply: eq_bigr => i _.
  by rewrite -polyC_exp mul_polyC scalerMnl.
split; last first.
  rewrite E (leq_trans (size_add _ _)) // geq_max size_poly size_opp (leq_trans (size_polyC_leq1 _)) //.
  exact: ltnW.
apply/eqP => /(congr1 (fun r : {poly F} => r`_e.-1)); rewrite E coefD coefN coefC coef0 coef_poly.
rewrite prednK ?(ltnW e1) // leqnn.
have -> : (e.-1 == 0)%N = false by case: e e1 {e0 p E} => // -[].
rewrite subr0 -[X in (X - e.-1)%N](prednK (ltnW e1)) subSnn expr1.
have -> : 'C(e, e.-1) = e by rewrite -{1}(prednK (ltnW e1)) binSn prednK // ltnW.
by rewrite -mulr_natr => /eqP; rewrite mulf_eq0 (negbTE a0) (negbTE e0).
Qed.

Lemma power_uniformity (F : fieldType) e : (1 < e)%N -> e%:R != 0 :> F -> uniformity (fun x : F => x ^+ e) e.-1.
Proof.
move=> e1 e0 a b a0 xs u /allP H.
have [p0 sp] := size_diff_poly b e1 a0 e0.
rewrite -ltnS prednK ?(ltnW e1) // (leq_trans _ sp) //; apply: max_poly_roots => //.
apply/allP => x /H /eqP E; rewrite /root !(hornerE, horner_exp) E subrr.
by [].
Qed.

(** * Differential uniformity of the inverse *)
Lemma inverse_pairs (F : fieldType) (a b : F) xs : a != 0 -> uniq xs ->
  all (fun x => [&& x != 0, x + a != 0 & (x + a)^-1 - x^-1 == b]) xs -> (size xs <= 2)%N.
Proof.
move=> a0 u /allP H; pose p := b *: ('X * ('X + a%:P)) + a%:P.
have p0 : p != 0.
  apply/eqP => /(congr1 (fun r : {poly F} => r.[0])); rewrite hornerD hornerZ hornerM hornerX hornerC horner0.
  by rewrite mul0r mulr0 add0r => /eqP; rewrite (negbTE a0).
have sp : (size p <= 3)%N.
  rewrite (leq_trans (size_add _ _)) // geq_max; apply/andP; split; last first.
    by rewrite (leq_trans (size_polyC_leq1 _)).
  by rewrite (leq_trans (size_scale_leq _ _)) // mulrC size_mulX ?size_XaddC // -size_poly_eq0 size_XaddC.
rewrite -ltnS (leq_trans _ sp) //; apply: max_poly_roots => //; apply/allP => x /H /and3P [x0 xa /eqP E].
rewrite /root hornerD hornerZ hornerM hornerD hornerX !hornerC -E mulrBl !mulrA.
rewrite [_ * x * _]mulrAC mulVf // mul1r mulVf // mul1r opprD addrA subrr add0r addrC subrr.
by [].
Qed.

Lemma inverse_uniformity (F : fieldType) : uniformity (fun x : F => x^-1) 4.
Proof.
move=> a b a0 xs u /allP H; rewrite -(count_predC (fun x => (x != 0) && (x + a != 0))) -[4%N]/(2 + 2)%N leq_add //.
  rewrite -size_filter; apply: (@inverse_pairs _ a b) => //; first exact: filter_uniq.
  by apply/allP => x; rewrite mem_filter => /andP [/andP [-> ->] /H].
rewrite -size_filter; apply: (@leq_trans (size [:: 0; -a])) => //; apply: uniq_leq_size; first exact: filter_uniq.
by move=> x; rewrite mem_filter /= negb_and !negbK !inE addr_eq0 => /andP [].
Qed.

(** * Counting the inputs of a layer of S-boxes *)
Definition prodl (T : Type) (ls : seq (seq T)) : seq (seq T) :=
  foldr (fun l acc => [seq a :: b | a <- l, b <- acc]) [:: [::]] ls.
Lemma size_prodl (T : Type) (ls : seq (seq T)) : size (prodl ls) = (\prod_(l <- ls) size l)%N.
Proof. by elim: ls => [|l ls IH]; rewrite ?big_nil // big_cons /= size_allpairs IH. Qed.
Lemma mem_prodl (T : eqType) (ls : seq (seq T)) (s : seq T) :
  all2 (fun x l => x \in l) s ls -> s \in prodl ls.
Proof. by elim: ls s => [|l ls IH] [|x s] //= /andP [xl /IH h]; apply/allpairsP; exists (x, s). Qed.

Lemma product_bound (T : eqType) n (P : 'I_n -> pred T) (d : 'I_n -> nat) (xs : seq {ffun 'I_n -> T}) :
  (forall i l, uniq l -> all (P i) l -> (size l <= d i)%N) ->
  uniq xs -> all (fun x : {ffun 'I_n -> T} => [forall i, P i (x i)]) xs -> (size xs <= \prod_i d i)%N.
Proof.
move=> Hd u /allP H; pose l i := undup [seq (x : {ffun 'I_n -> T}) i | x <- xs].
have ld i : (size (l i) <= d i)%N.
  apply: Hd; first exact: undup_uniq.
  by apply/allP => a; rewrite mem_undup => /mapP [x /H /forallP h ->].
apply: (@leq_trans (\prod_i size (l i))%N); last by apply: leq_prod.
have -> : (\prod_i size (l i) = size (prodl [seq l i | i <- enum 'I_n]))%N.
  by rewrite size_prodl big_map big_enum.
have <- : size [seq [seq (x : {ffun 'I_n -> T}) i | i <- enum 'I_n] | x <- xs] = size xs by rewrite size_map.
apply: uniq_leq_size.
  rewrite map_inj_uniq // => x y E; apply/ffunP => i.
  by have /eq_in_map -> := E; rewrite ?mem_enum.
move=> s /mapP [x xx ->]; apply: mem_prodl.
elim: (enum 'I_n) => //= i s' ->; rewrite andbT mem_undup.
by apply/mapP; exists x.
Qed.

Section Layers.
Variables (F : fieldType) (S : F -> F) (d N : nat).
Hypothesis Hd : uniformity S d.
Hypothesis HN : card_le F N.

Lemma layer_bound n (a b : 'cV[F]_n) xs : uniq xs -> all (follows S a b) xs ->
  (size xs <= d ^ wt a * N ^ (n - wt a))%N.
Proof.
move=> u /allP H; pose g (x : 'cV[F]_n) : {ffun 'I_n -> F} := [ffun i => x i 0].
have gi : injective g by move=> x y /ffunP E; apply/colP => i; have := E i; rewrite !ffunE.
rewrite -(size_map g).
pose P i v := S (v + a i 0) - S v == b i 0.
have -> : (d ^ wt a * N ^ (n - wt a) = \prod_(i < n) if (a i 0 != 0)%R then d else N)%N.
  rewrite [RHS](bigID (fun i => a i 0 != 0)) /= (eq_bigr (fun _ => d)); last by move=> i ->.
  rewrite [X in _ = (_ * X)%N](eq_bigr (fun _ => N)); last by move=> i /negbTE ->.
  rewrite !prod_nat_const; congr (_ * _ ^ _)%N.
  by rewrite -[X in (X - _)%N]card_ord -(cardC [pred i | a i 0 != 0]) addKn.
apply: (@product_bound _ _ P); last 2 first.
- by rewrite map_inj_uniq.
- apply/allP => _ /mapP [x /H /eqP E ->]; apply/forallP => i.
  by rewrite /P ffunE -E !mxE.
move=> i l ul al; case: ifP => [a0|_]; last exact: HN.
exact: (Hd a0 ul al).
Qed.

Lemma round_bound full n (a b : 'cV[F]_n.+1) xs k : k = (if full then wt a else (a 0 0 != 0)) ->
  uniq xs -> all (follows_round S full a b) xs -> (size xs <= d ^ k * N ^ (n.+1 - k))%N.
Proof.
move=> kE u /allP H; pose g (x : 'cV[F]_n.+1) : {ffun 'I_n.+1 -> F} := [ffun i => x i 0].
have gi : injective g by move=> x y /ffunP E; apply/colP => i; have := E i; rewrite !ffunE.
rewrite -(size_map g).
pose A i := (full || (i == 0)) && (a i 0 != 0).
have kA : k = #|[pred i | A i]|.
  rewrite kE /A; case: full {H kE A} => //; case: (eqVneq (a 0 0) 0) => a0 /=.
    by apply/esym/eq_card0 => i; rewrite !inE; case: eqP => //= ->; rewrite a0 eqxx.
  by apply/esym/(@eq_card1 _ 0) => i; rewrite !inE; case: eqP => //= ->.
pose P i v := if full || (i == 0) then S (v + a i 0) - S v == b i 0 else true.
have -> : (d ^ k * N ^ (n.+1 - k) = \prod_(i < n.+1) if A i then d else N)%N.
  rewrite [RHS](bigID A) /= (eq_bigr (fun _ => d)); last by move=> i ->.
  rewrite [X in _ = (_ * X)%N](eq_bigr (fun _ => N)); last by move=> i /negbTE ->.
  rewrite !prod_nat_const -kA; congr (_ * _ ^ _)%N.
  by rewrite kA -[X in (X - _)%N]card_ord -(cardC [pred i | A i]) addKn.
apply: (@product_bound _ _ P); last 2 first.
- by rewrite map_inj_uniq.
- apply/allP => _ /mapP [x /H /eqP E ->]; apply/forallP => i.
  by rewrite /P ffunE; case: ifP => // f; rewrite -E !mxE f.
move=> i l ul al; rewrite /A; case: ifP => [/andP [f a0]|_]; last exact: HN.
apply: (@Hd (a i 0) (b i 0) a0 l ul); apply: sub_all al => v.
by rewrite /P f.
Qed.

(** Two consecutive full rounds: the difference [b0] after the S-boxes of the first
    becomes [M *m b0] before those of the second. *)
Lemma two_layers n (M : 'M[F]_n) b (a0 b0 b1 : 'cV[F]_n) xs0 xs1 : injective S -> (0 < d <= N)%N -> branch M b ->
  (b <= 2 * n)%N -> a0 != 0 -> uniq xs0 -> all (follows S a0 b0) xs0 -> uniq xs1 -> all (follows S (M *m b0) b1) xs1 ->
  (size xs0 * size xs1 <= d ^ b * N ^ (2 * n - b))%N.
Proof.
move=> Si /andP [d0 dN] Hb bn a00 u0 H0 u1 H1.
case: xs0 u0 H0 => [|x xs0] u0 H0; first by rewrite mul0n.
have /andP [/eqP E _] := H0.
have w0 : wt b0 = wt a0.
  apply: eq_card => i; rewrite !inE -E !mxE subr_eq0 (inj_eq Si).
  by rewrite -subr_eq0 addrC addKr.
have b00 : b0 != 0.
  apply: contra a00 => /eqP Z; have := w0; rewrite Z /wt => /esym.
  rewrite [RHS](eq_card0 _); last by move=> i; rewrite !inE mxE eqxx.
  by move/card0_eq => Z'; apply/eqP/colP => i; have := Z' i; rewrite !inE mxE => /negbFE/eqP.
have := leq_mul (layer_bound u0 H0) (layer_bound u1 H1); move/leq_trans; apply.
have := Hb _ b00; rewrite w0; set w := wt a0; set w' := wt _ => h.
have wn (v : 'cV[F]_n) : (wt v <= n)%N by rewrite -[X in (_ <= X)%N]card_ord max_card.
have h0 : (w <= n)%N := wn _; have h1 : (w' <= n)%N := wn _; move: w w' h h0 h1 => w w' h h0 h1.
rewrite mulnACA -!expnD.
have -> : (n - w + (n - w') = 2 * n - (w + w'))%N by slia.
rewrite -{1}(subnKC h) expnD -mulnA leq_mul2l; apply/orP; right.
have -> : (2 * n - b = (w + w' - b) + (2 * n - (w + w')))%N by slia.
rewrite expnD leq_mul2r; apply/orP; right.
by case: (w + w' - b)%N => // k; rewrite leq_exp2r.
Qed.

Lemma characteristic_bound n (M : 'M[F]_n.+1) Rf Rp e (a b : nat -> 'cV[F]_n.+1) xs k :
  injective S -> (0 < d <= N)%N -> M \in unitmx -> branch M e -> no_inactive_trail M 1 ->
  characteristic_inputs S M Rf Rp a b xs ->
  k = (2 * (Rf./2 * e) + Rp %/ n.+1)%N ->
  (\prod_(r < Rf + Rp + Rf) size (xs r) <= d ^ k * N ^ ((Rf + Rp + Rf) * n.+1 - k))%N.
Proof.
move=> Si /andP [d0 dN] Mu Hb Ht [a0 aS H] kE; set R := (Rf + Rp + Rf)%N in aS H *.
have [[r r0]|E] := altP (@forallPn [finType of 'I_R] (fun r => size (xs r) != 0%N)).
  by move: r0; rewrite negbK => /eqP r0; rewrite (bigD1 r) //= r0.
have {}E r : (r < R)%N -> size (xs r) != 0%N by move=> lt; apply: (forallP (negbNE E) (Ordinal lt)).
have X r : (r < R)%N -> exists x, follows_round S (is_full Rf Rp r) (a r) (b r) x.
  by move=> lt; have [_ ] := H r lt; have := E r lt; case: (xs r) => // x l _ /andP [Hx _]; exists x.
have bz r i : (r < R)%N -> (b r i 0 == 0) = (a r i 0 == 0).
  move=> /X [x /eqP <-]; rewrite !mxE; case: ifP => _.
    by rewrite subr_eq0 (inj_eq Si) -subr_eq0 addrC addKr.
  by rewrite addrC addKr.
have bl r i : (r < R)%N -> ~~ is_full Rf Rp r -> i != 0 -> b r i 0 = a r i 0.
  by move=> /X [x /eqP <-] f i0; rewrite !mxE (negbTE f) (negbTE i0) /= addrC addKr.
have kb := @trail_bound _ _ M Rf Rp a b Mu a0 aS bz bl e Hb Ht.
set A := act Rf Rp a in kb; rewrite -kE -/R in kb.
apply: (@leq_trans (\prod_(r < R) (d ^ A r * N ^ (n.+1 - A r)))%N).
  by apply: leq_prod => r _; have [u al] := H r (ltn_ord r); apply: (round_bound _ u al).
have An r : (A r <= n.+1)%N.
  rewrite /A /act; case: ifP => _; first by rewrite -[X in (_ <= X)%N]card_ord max_card.
  by case: (_ == _).
rewrite big_split /= -!expn_sum sumnB; last by move=> r _.
rewrite sum_nat_const card_ord.
set sA := (\sum_(r < R) A r)%N in kb *.
have sR : (sA <= R * n.+1)%N.
  by rewrite /sA -[X in (_ <= X * _)%N](card_ord R) -sum_nat_const; apply: leq_sum => r _.
rewrite -{1}(subnKC kb) expnD -mulnA leq_mul2l; apply/orP; right.
have -> : (R * n.+1 - k = (sA - k) + (R * n.+1 - sA))%N by move: (R * n.+1)%N sR kb => z; clearbody sA; clear; slia.
rewrite expnD leq_mul2r; apply/orP; right.
by case: (sA - k)%N => // m; rewrite leq_exp2r.
Qed.
End Layers.
