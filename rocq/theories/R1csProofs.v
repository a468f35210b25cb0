(** Proofs about the R1CS gadget. *)
From Coq Require Import NArith PArith Pnat.
From mathcomp Require Import all_ssreflect all_algebra.
From Verif Require Import Base Matrix MatrixSpec MatrixProofs Params Permutation PermutationProofs R1cs R1csSpec.
Set Implicit Arguments.
Unset Strict Implicit.
Unset Printing Implicit Defensive.
Import GRing.Theory.
Local Open Scope ring_scope.
Local Open Scope rust_scope.

Section Proofs.
Variable F : fieldType.
Local Notation csys := (csys F).
Local Notation fpvar := (fpvar F).
Implicit Types (a : wire -> F) (cs : csys) (x y : fpvar) (ws : seq fpvar).

(** ** Linear combinations *)
Lemma eval_lc_nil a : eval_lc a [::] = 0.
Proof. by rewrite /eval_lc big_nil. Qed.
Lemma eval_lc_cat a l l' : eval_lc a (l ++ l') = eval_lc a l + eval_lc a l'.
Proof. by rewrite /eval_lc big_cat. Qed.
Lemma eval_lc_rcons a l k w : eval_lc a (rcons l (k, w)) = eval_lc a l + k * a w.
Proof. by rewrite -cats1 eval_lc_cat /eval_lc big_seq1. Qed.
Lemma eval_lc_scale a (l : lc F) k : eval_lc a [seq (kw.1 * k, kw.2) | kw <- l] = eval_lc a l * k.
Proof. by rewrite /eval_lc big_map mulr_suml; apply: eq_bigr => kw _; rewrite /= mulrAC. Qed.
Lemma eval_lc_flatten a (ls : seq (lc F)) : eval_lc a (flatten ls) = \sum_(l <- ls) eval_lc a l.
Proof. by elim: ls => [|l ls IH]; rewrite ?big_nil ?eval_lc_nil //= big_cons eval_lc_cat IH. Qed.
Lemma eval_wit a n : eval_lc a [:: (1, Wit n)] = a (Wit n).
Proof. by rewrite /eval_lc big_seq1 mul1r. Qed.

Definition agree m n a a' : Prop := forall w, wire_in m n w -> a w = a' w.
Lemma eval_lc_agree m n a a' l : agree m n a a' -> scoped m n l -> eval_lc a l = eval_lc a' l.
Proof.
move=> H; elim: l => [|kw l IH]; rewrite ?eval_lc_nil //= => /andP [hk /IH E].
by move: E; rewrite /eval_lc !big_cons => ->; rewrite H.
Qed.
Lemma wire_inW m n n' w : (n <= n')%N -> wire_in m n w -> wire_in m n' w.
Proof. by case: w => //= i le lt; apply: leq_trans lt le. Qed.
Lemma scopedW m n n' (l : lc F) : (n <= n')%N -> scoped m n l -> scoped m n' l.
Proof. by move=> le; apply: sub_all => kw; apply: wire_inW. Qed.
Lemma scoped_constrW m n n' (c : constr F) : (n <= n')%N -> scoped_constr m n c -> scoped_constr m n' c.
Proof. by move=> le /and3P [h1 h2 h3]; rewrite /scoped_constr !(scopedW le). Qed.

(** ** Triangular lists of constraints: the k-th one defines wire n+k *)
Definition defines (n : nat) (l : lc F) : bool :=
  if l is [:: (k, Wit i)] then (k == 1) && (i == n) else false.
Lemma definesP n l : reflect (l = [:: (1, Wit n)]) (defines n l).
Proof.
apply: (iffP idP) => [|->]; last by rewrite /= !eqxx.
by case: l => [|[k [|i|i]] [|y l]] //= /andP [/eqP -> /eqP ->].
Qed.

Fixpoint tri (m n : nat) (new : seq (constr F)) : bool :=
  if new is (la, lb, l) :: r then
    [&& scoped m n la, scoped m n lb, defines n l & tri m n.+1 r]
  else true.

Lemma tri_cat m n r r' : tri m n (r ++ r') = tri m n r && tri m (n + size r) r'.
Proof.
elim: r n => [|[[la lb] l] r IH] n; first by rewrite addn0.
by rewrite /= IH addSnnS -!andbA.
Qed.

Lemma tri_unique m n new a a' : tri m n new -> agree m n a a' ->
  satisfies a new -> satisfies a' new -> agree m (n + size new) a a'.
Proof.
elim: new n => [|[[la lb] l] r IH] n; first by rewrite addn0.
case/and4P=> sa sb /definesP -> tr ag /andP [/eqP a1 /= /andP [/eqP h1 hs]] /andP [/eqP a1' /= /andP [/eqP h1' hs']].
rewrite -addSnnS; apply: IH => //; last 2 first.
- by rewrite /satisfies a1 eqxx.
- by rewrite /satisfies a1' eqxx.
move: h1 h1'; rewrite /= !eval_wit => h1 h1' [|i|i] //= lt; try exact: (ag (Inst i)).
- by rewrite a1.
- move: lt; rewrite ltnS leq_eqVlt => /orP [/eqP ->|lt]; last exact: (ag (Wit i)).
  by rewrite -h1 -h1' (eval_lc_agree ag sa) (eval_lc_agree ag sb).
Qed.

(** Any assignment extends to one that satisfies a triangular list. *)
Definition upd a n v : wire -> F := fun w => if w is Wit i then (if i == n then v else a w) else a w.
Lemma agree_upd m n a v : agree m n a (upd a n v).
Proof. by case=> //= i lt; case: eqP => // E; rewrite E ltnn in lt. Qed.

Lemma agree_trans m n a a' a'' : agree m n a a' -> agree m n a' a'' -> agree m n a a''.
Proof. by move=> h h' w hw; rewrite h ?h'. Qed.
Lemma agreeW m n n' a a' : (n <= n')%N -> agree m n' a a' -> agree m n a a'.
Proof. by move=> le h w hw; apply: h; apply: wire_inW hw. Qed.

Lemma tri_extend m n new a : tri m n new -> a One = 1 ->
  exists a', agree m n a a' /\ satisfies a' new.
Proof.
elim: new n a => [|[[la lb] l] r IH] n a; first by move=> _ h; exists a; split=> //; rewrite /satisfies h eqxx.
case/and4P=> sa sb /definesP -> tr a1.
have [a' [ag /andP [o1 hr]]] := IH n.+1 (upd a n (eval_lc a la * eval_lc a lb)) tr a1.
have ag' : agree m n a a'.
  by apply: (agree_trans (agree_upd (m := m) (n := n) a _)); apply: agreeW ag.
exists a'; split=> //; rewrite /satisfies o1 /= hr andbT /holds /= eval_wit.
rewrite -(eval_lc_agree ag' sa) -(eval_lc_agree ag' sb) -ag /=; last by rewrite ltnS.
by rewrite eqxx.
Qed.

Lemma tri_scoped m n new : tri m n new -> all (scoped_constr m (n + size new)) new.
Proof.
elim: new n => [|[[la lb] l] r IH] n //= /and4P [sa sb /definesP -> /IH]; rewrite addSnnS => ->.
by rewrite andbT /scoped_constr /= !(scopedW _ sa) ?(scopedW _ sb) ?leq_addr //= andbT addnS ltnS leq_addr.
Qed.

(** ** Growth of a constraint system *)
Record ext cs cs' (k : nat) : Prop := Ext {
  ext_setup : cs_setup cs' = cs_setup cs;
  ext_ninst : cs_ninst cs' = cs_ninst cs;
  ext_inst : cs_inst cs' = cs_inst cs;
  ext_nwit : cs_nwit cs' = (cs_nwit cs + k)%N;
  ext_new : exists new, [/\ cs_cons cs' = cs_cons cs ++ new, size new = k,
     tri (cs_ninst cs) (cs_nwit cs) new &
     cs_setup cs = false -> satisfies (asg cs') new];
  ext_wit : if cs_setup cs then cs_wit cs' = cs_wit cs
            else exists vals, cs_wit cs' = cs_wit cs ++ vals /\ size vals = k }.

Definition inv cs := cs_setup cs || (size (cs_wit cs) == cs_nwit cs).

Lemma ext_agree cs cs' k : inv cs -> ext cs cs' k -> cs_setup cs = false ->
  agree (cs_ninst cs) (cs_nwit cs) (asg cs) (asg cs').
Proof.
rewrite /inv => hi [h1 h2 h3 h4 h5 h6] hs; move: h6 hi; rewrite hs /= => -[vals [E _]] /eqP sz.
by case=> //= i lt; rewrite ?h3 // E nth_cat sz lt.
Qed.

Lemma ext_refl cs : ext cs cs 0.
Proof.
split=> //; first by rewrite addn0.
- by exists [::]; rewrite cats0; split=> // _; rewrite /satisfies /= eqxx.
- by case: (cs_setup cs) => //; exists [::]; rewrite cats0.
Qed.

Lemma ext_trans cs cs' cs'' k k' : inv cs' -> ext cs cs' k -> ext cs' cs'' k' -> ext cs cs'' (k + k').
Proof.
move=> hi e1 e2; have ag := ext_agree hi e2.
case: e1 => h1 h2 h3 h4 [new [n1 n2 n3 n4]] h6.
case: e2 => g1 g2 g3 g4 [new' [m1 m2 m3 m4]] g6.
split; rewrite ?g1 ?g2 ?g3 ?g4 ?h4 ?addnA //.
- exists (new ++ new'); split.
  + by rewrite m1 n1 catA.
  + by rewrite size_cat n2 m2.
  + by rewrite tri_cat n3 n2 -h4 -h2 m3.
  + move=> hs; rewrite h1 in m4 ag; have /andP [_ s1] := n4 hs; have /andP [o2 s2] := m4 hs.
    rewrite /satisfies o2 all_cat s2 andbT /=.
    have sc := tri_scoped n3; rewrite n2 -h4 -h2 in sc.
    elim: new sc s1 {n1 n2 n3 n4} => //= c r IH /andP [/and3P [c1 c2 c3] /IH sr] /andP [hc hr].
    rewrite sr // andbT; move: hc; rewrite /holds.
    by rewrite (eval_lc_agree (ag hs) c1) (eval_lc_agree (ag hs) c2) (eval_lc_agree (ag hs) c3).
- move: h6 g6; rewrite h1; case: (cs_setup cs) => [-> //|[v [-> s]] [v' [-> s']]].
  by exists (v ++ v'); rewrite catA size_cat s s'.
Qed.

Lemma ext_sat cs cs' k a : ext cs cs' k -> satisfies a (cs_cons cs') -> satisfies a (cs_cons cs).
Proof.
by move=> e /andP [o1]; have [new [-> _ _ _]] := ext_new e; rewrite all_cat /satisfies o1 => /andP [->].
Qed.

Lemma ext_wf_var cs cs' k x : inv cs -> ext cs cs' k -> wf_var cs x -> wf_var cs' x.
Proof.
move=> hi e; case: x => //= v /andP [h1 h2].
rewrite (ext_ninst e) (ext_nwit e) (ext_setup e) (scopedW _ h1) ?leq_addr //=.
case: (cs_setup cs) h2 (ext_agree hi e) => //= /eqP -> ag.
by rewrite (eval_lc_agree (ag erefl) h1).
Qed.

Lemma ext_wf_vars cs cs' k ws : inv cs -> ext cs cs' k -> all (wf_var cs) ws -> all (wf_var cs') ws.
Proof. by move=> hi e; apply: sub_all => x; apply: ext_wf_var e. Qed.

(** The new witnesses are determined by the values [f]. *)
Definition det (A : Type) cs cs' (f : (wire -> F) -> A) : Prop :=
  forall a a', satisfies a (cs_cons cs') -> satisfies a' (cs_cons cs') -> f a = f a' ->
  forall i, (cs_nwit cs <= i < cs_nwit cs')%N -> a (Wit i) = a' (Wit i).

Lemma det_same A cs cs' (f : _ -> A) : ext cs cs' 0 -> det cs cs' f.
Proof.
move=> e a a' _ _ _ i; rewrite (ext_nwit e) addn0 => /andP [h1 h2].
by move: (leq_ltn_trans h1 h2); rewrite ltnn.
Qed.

Lemma det_trans A B cs cs1 cs2 k (f : _ -> A) (g : _ -> B) : ext cs1 cs2 k ->
  det cs cs1 f -> det cs1 cs2 g ->
  (forall a a', satisfies a (cs_cons cs1) -> satisfies a' (cs_cons cs1) -> f a = f a' -> g a = g a') ->
  det cs cs2 f.
Proof.
move=> e d1 d2 fg a a' sa sa' E i /andP [h1 h2].
have s1 := ext_sat e sa; have s1' := ext_sat e sa'.
case: (ltnP i (cs_nwit cs1)) => h; first by apply: d1 => //; rewrite h1.
by apply: d2 => //; [apply: fg | rewrite h].
Qed.

Lemma det_sub A B cs cs' (f : _ -> A) (g : _ -> B) : det cs cs' g ->
  (forall a a', satisfies a (cs_cons cs') -> satisfies a' (cs_cons cs') -> f a = f a' -> g a = g a') ->
  det cs cs' f.
Proof. by move=> d fg a a' sa sa' E; apply: d => //; apply: fg. Qed.

(** ** Operations *)
Lemma alloc_mul_spec v w cs : inv cs -> wf_var cs (Var v) -> wf_var cs (Var w) ->
  exists r cs', [/\ alloc_mul v w cs = Ret (r, cs'), ext cs cs' 1, inv cs', wf_var cs' (Var r) &
    forall a, satisfies a (cs_cons cs') -> eval a (Var r) = eval a (Var v) * eval a (Var w)].
Proof.
case: cs => su m ins n wit cons; rewrite /inv /= => hi /andP [sv vv] /andP [sw vw].
rewrite /alloc_mul /new_witness /=.
have SEM a : satisfies a (rcons cons (a_lc v, a_lc w, [:: (1, Wit n)])) ->
    a (Wit n) = eval_lc a (a_lc v) * eval_lc a (a_lc w).
  by rewrite /satisfies all_rcons => /and3P [_ /eqP h _]; move: h; rewrite /= eval_wit.
case: su hi vv vw => /= [hi vv vw|/eqP hi /eqP vv /eqP vw].
- do 2!eexists; split; first by reflexivity.
  + split=> //=; first by rewrite addn1.
    exists [:: (a_lc v, a_lc w, [:: (1, Wit n)])]; split=> //=; first by rewrite cats1.
    by rewrite sv sw !eqxx.
  + by [].
  + by rewrite /= ltnSn.
  + by move=> a /SEM; rewrite /= eval_wit.
- rewrite vv vw /=; do 2!eexists; split; first by reflexivity.
  + split=> //=; first by rewrite addn1.
    * exists [:: (a_lc v, a_lc w, [:: (1, Wit n)])]; split=> //=; first by rewrite cats1.
        by rewrite sv sw !eqxx.
      move=> _; rewrite /satisfies /= eqxx andbT /= /holds /= eval_wit /=.
      rewrite nth_rcons hi ltnn eqxx.
      set a := asg _; set a' := asg _.
      have ag : agree m n a' a.
        by case=> //= i lt; rewrite nth_rcons hi lt.
      by rewrite (eval_lc_agree ag sv) (eval_lc_agree ag sw).
    * by eexists; split; [rewrite -cats1; reflexivity|].
  + by rewrite /inv /= size_rcons hi.
  + by rewrite /= ltnSn eval_wit /= nth_rcons hi ltnn eqxx.
  + by move=> a /SEM; rewrite /= eval_wit.
Qed.

Lemma eval_add_constant a v k : a One = 1 -> eval_lc a (a_lc (add_constant v k)) = eval_lc a (a_lc v) + k.
Proof.
move=> o1; rewrite /add_constant; case: eqP => [->|_]; first by rewrite addr0.
by rewrite /= eval_lc_rcons o1 mulr1.
Qed.
Lemma eval_mul_constant a v k : eval_lc a (a_lc (mul_constant v k)) = eval_lc a (a_lc v) * k.
Proof.
rewrite /mul_constant; case: eqP => [->|_]; first by rewrite mulr1.
by rewrite /= eval_lc_scale.
Qed.

Lemma asg_one cs : asg cs One = 1. Proof. by []. Qed.

Lemma wf_add_constant cs v k : wf_var cs (Var v) -> wf_var cs (Var (add_constant v k)).
Proof.
move=> /= /andP [s h]; have E := eval_add_constant v k (asg_one cs); move: E.
rewrite /add_constant; case: eqP => [_ _|_ /= E]; first by rewrite s h.
rewrite /scoped all_rcons -/(scoped _ _ _) s /=.
by case: (cs_setup cs) h => //= /eqP -> /=; rewrite -E.
Qed.
Lemma wf_mul_constant cs v k : wf_var cs (Var v) -> wf_var cs (Var (mul_constant v k)).
Proof.
move=> /= /andP [s h]; have E := eval_mul_constant (asg cs) v k; move: E.
rewrite /mul_constant; case: eqP => [_ _|_ /= E]; first by rewrite s h.
rewrite /scoped all_map /=; apply/andP; split; first exact: s.
by case: (cs_setup cs) h => //= /eqP -> /=; rewrite -E.
Qed.

Lemma fp_mul_spec x y cs : inv cs -> wf_var cs x -> wf_var cs y ->
  exists r cs', [/\ fp_mul x y cs = Ret (r, cs'), ext cs cs' (is_var x && is_var y), inv cs',
    [/\ wf_var cs' r, is_var r = is_var x || is_var y & det cs cs' (fun a => (eval a x, eval a y))] &
    forall a, satisfies a (cs_cons cs') -> eval a r = eval a x * eval a y].
Proof.
move=> hi; case: x y => [c|v] [d|w] hx hy /=.
- by exists (Constant (c * d)), cs; split=> //; [exact: ext_refl | split=> //; exact/det_same/ext_refl].
- exists (Var (mul_constant w c)), cs; split=> //; [exact: ext_refl| |].
  + by split; rewrite ?wf_mul_constant //; exact/det_same/ext_refl.
  + by move=> a _; rewrite /= eval_mul_constant mulrC.
- exists (Var (mul_constant v d)), cs; split=> //; [exact: ext_refl| |].
  + by split; rewrite ?wf_mul_constant //; exact/det_same/ext_refl.
  + by move=> a _; rewrite /= eval_mul_constant.
- have [r [cs' [EM e hi' wr sem]]] := alloc_mul_spec hi hx hy; rewrite EM.
  exists (Var r), cs'; split=> //; split=> // a a' sa sa' [E1 E2] i.
  rewrite (ext_nwit e) addn1 ltnS => /anti_leq <-.
  have H b : satisfies b (cs_cons cs') -> b (Wit (cs_nwit cs)) = eval b (Var v) * eval b (Var w).
    move/sem <-; move: {wr sem}r EM => r.
    rewrite /alloc_mul /new_witness; case: (cs_setup cs) => [|] /=; last case: (value2 _ _ _) => //= ?.
    - by case=> <- _; rewrite /= eval_wit.
    - by case=> <- _; rewrite /= eval_wit.
  by rewrite !H //= E1 E2.
Qed.

(** ** Powers *)
Fixpoint pcost (started : bool) (bs : seq bool) : nat :=
  if bs is b :: r then (started + (started && b) + pcost (started || b) r)%N else 0%N.
Definition pow_cost (e : N) : nat := pcost false (bits_be e).

Definition bits_val (m : nat) (bs : seq bool) : nat := foldl (fun m (b : bool) => (m * 2 + b)%N) m bs.

Lemma pos_bits_val p : bits_val 0 (pos_bits p) = Pos.to_nat p.
Proof.
elim: p => [p IH|p IH|] //=; rewrite /bits_val -cats1 foldl_cat /= -/(bits_val 0 _) IH.
- by rewrite Pos2Nat.inj_xI multE mulnC addn1.
- by rewrite Pos2Nat.inj_xO multE mulnC addn0.
Qed.
Lemma bits_be_val e : bits_val 0 (bits_be e) = N.to_nat e.
Proof. by case: e => //= p; rewrite pos_bits_val. Qed.

Definition pow_loop (x : fpvar) (bs : seq bool) (s : fpvar * csys) : outcome (fpvar * csys) :=
  for_in bs (fun b rc =>
    let: (res, cs) := rc in
    rc <- fp_mul res res cs ;;
    let: (res, cs) := rc in
    if b then fp_mul res x cs else Ret (res, cs)) s.

Lemma pow_loop_spec x bs m res cs : inv cs -> wf_var cs x -> wf_var cs res ->
  is_var res = is_var x && (0 < m)%N ->
  (forall a, satisfies a (cs_cons cs) -> eval a res = eval a x ^+ m) ->
  exists r cs', [/\ pow_loop x bs (res, cs) = Ret (r, cs'),
    ext cs cs' (is_var x * pcost (0 < m)%N bs), inv cs',
    [/\ wf_var cs' r, is_var r = is_var x && (0 < bits_val m bs)%N & det cs cs' (fun a => eval a x)] &
    forall a, satisfies a (cs_cons cs') -> eval a r = eval a x ^+ bits_val m bs].
Proof.
elim: bs m res cs => [|b bs IH] m res cs hi wx wr vr sr.
  by exists res, cs; split=> //; rewrite ?muln0; [|split=> //; apply: det_same]; exact: ext_refl.
rewrite /pow_loop /=.
have [r1 [cs1 [-> e1 i1 [w1 v1 d1] s1]]] := fp_mul_spec hi wr wr.
rewrite bind_ret.
have wx1 := ext_wf_var hi e1 wx.
have S1 a : satisfies a (cs_cons cs1) -> eval a r1 = eval a x ^+ (m * 2).
  by move=> ha; rewrite s1 // (sr a (ext_sat e1 ha)) mulnC mul2n -addnn exprD.
rewrite orbb andbb in v1 e1.
have D1 : det cs cs1 (fun a => eval a x).
  by apply: det_sub d1 _ => a a' sa sa' E; rewrite !sr ?(ext_sat e1) // E.
have m2 : (0 < m * 2)%N = (0 < m)%N by rewrite muln_gt0 andbT.
case: b => /=.
- have [r2 [cs2 [-> e2 i2 [w2 v2 d2] s2]]] := fp_mul_spec i1 w1 wx1.
  rewrite bind_ret.
  have e12 := ext_trans i1 e1 e2; have wx2 := ext_wf_var i1 e2 wx1.
  have D2 : det cs cs2 (fun a => eval a x).
    by apply: det_trans e2 D1 d2 _ => a a' sa sa' E; rewrite !S1 // E.
  have [||r [cs' [E e i [w v d] s]]] := IH (m * 2 + 1)%N r2 cs2 i2 wx2 w2.
  + by rewrite v2 v1 vr addn1; case: (is_var x) => //=; rewrite orbT.
  + by move=> a ha; rewrite s2 // S1 ?(ext_sat e2) // exprD expr1.
  exists r, cs'; split=> //; last by split=> //; apply: det_trans e D2 d _.
  have := ext_trans i2 e12 e.
  by rewrite v1 vr addn1 andbT orbT; case: (is_var x); rewrite /= ?andbT ?mul1n.
- have [||r [cs' [E e i [w v d] s]]] := IH (m * 2 + 0)%N r1 cs1 i1 wx1 w1.
  + by rewrite v1 vr addn0 m2.
  + by rewrite addn0.
  exists r, cs'; split=> //; last by split=> //; apply: det_trans e D1 d _.
  have := ext_trans i1 e1 e.
  by rewrite vr addn0 m2 andbF addn0 orbF; case: (is_var x); rewrite /= ?mul1n.
Qed.

Lemma pow_spec x e cs : inv cs -> wf_var cs x ->
  exists r cs', [/\ pow_by_constant x e cs = Ret (r, cs'),
    ext cs cs' (is_var x * pow_cost e), inv cs',
    [/\ wf_var cs' r, is_var r = is_var x && (0 < N.to_nat e)%N & det cs cs' (fun a => eval a x)] &
    forall a, satisfies a (cs_cons cs') -> eval a r = eval a x ^+ N.to_nat e].
Proof.
move=> hi wx; have [|| r [cs' H]] := @pow_loop_spec x (bits_be e) 0 (Constant 1) cs hi wx isT.
- by rewrite andbF.
- by move=> a _; rewrite expr0.
by exists r, cs'; rewrite -bits_be_val.
Qed.

(** ** Sums *)
Definition the_vars (xs : seq fpvar) := pmap (fun x => if x is Var v then Some v else None) xs.
Definition consts (xs : seq fpvar) : F := \sum_(x <- xs) (if x is Constant c then c else 0).

Lemma foldl_consts xs k :
  foldl (fun acc x => if x is Constant c then acc + c else acc) k xs = k + consts xs.
Proof.
elim: xs k => [|x xs IH] k; rewrite /consts ?big_nil ?addr0 //= IH big_cons.
by rewrite -/(consts xs); case: x => [c|v]; rewrite ?add0r ?addrA.
Qed.

Lemma eval_addmany a vs : eval_lc a (a_lc (addmany vs)) = \sum_(v <- vs) eval_lc a (a_lc v).
Proof. by rewrite /= eval_lc_flatten big_map. Qed.

Lemma wf_addmany cs vs : all (fun v => wf_var cs (Var v)) vs -> wf_var cs (Var (addmany vs)).
Proof.
move=> H /=; apply/andP; split.
  elim: vs H => //= v vs IH /andP [/andP [s _] /IH r].
  by rewrite /scoped all_cat -/(scoped _ _ _) s.
rewrite -[flatten _]/(a_lc (addmany vs)) eval_addmany.
case su : (cs_setup cs) => //=; apply/eqP.
suff gen k : foldl (fun acc v => value2 +%R acc (a_value v)) (Some k) vs
    = Some (k + \sum_(v <- vs) eval_lc (asg cs) (a_lc v)) by rewrite gen add0r.
elim: vs k H => [|v vs IH] k /=; first by rewrite big_nil addr0.
rewrite su /= => /andP [/andP [_ /eqP ->]] H; rewrite big_cons addrA -IH //.
by apply: sub_all H => v'; rewrite /= su.
Qed.

Variable empty_sum : F -> outcome fpvar.

Lemma fp_sum_spec cs xs : all (wf_var cs) xs -> has (@is_var F) xs ->
  exists r, [/\ fp_sum empty_sum xs = Ret r, wf_var cs r, is_var r &
    forall a, a One = 1 -> eval a r = \sum_(x <- xs) eval a x].
Proof.
move=> H hv; rewrite /fp_sum -/(the_vars xs) foldl_consts add0r.
have V : all (fun v => wf_var cs (Var v)) (the_vars xs).
  elim: xs H {hv} => //= -[c|v] xs IH /andP [h1 /IH h2] //.
  by apply/andP.
have S a : \sum_(v <- the_vars xs) eval_lc a (a_lc v) + consts xs = \sum_(x <- xs) eval a x.
  rewrite /consts; elim: {H hv V} xs => [|x xs IH] /=; first by rewrite !big_nil addr0.
  rewrite !big_cons; case: x => [c|v] /=; rewrite -IH ?big_cons.
  - by rewrite addrCA.
  - by rewrite add0r addrA.
case E: (the_vars xs) => [|v vs].
  by suff : false by []; elim: xs hv E {H V S} => //= -[c|v].
rewrite -E; exists (Var (add_constant (addmany (the_vars xs)) (consts xs))); split=> //.
- exact/wf_add_constant/wf_addmany.
- by move=> a o1; rewrite -S /eval (eval_add_constant _ _ o1) eval_addmany.
Qed.

(** ** Layers *)
Lemma eval_fp_add_const a x k : a One = 1 -> eval a (fp_add_const x k) = eval a x + k.
Proof. by case: x => //= v o1; rewrite eval_add_constant. Qed.
Lemma wf_fp_add_const cs x k : wf_var cs x -> wf_var cs (fp_add_const x k).
Proof. by case: x => //= v; exact: wf_add_constant. Qed.
Lemma is_var_add_const x k : is_var (fp_add_const x k) = is_var x.
Proof. by case: x. Qed.
Lemma eval_const_mul a k x : eval a (const_mul k x) = k * eval a x.
Proof. by case: x => //= v; rewrite eval_mul_constant mulrC. Qed.
Lemma wf_const_mul cs k x : wf_var cs x -> wf_var cs (const_mul k x).
Proof. by case: x => //= v; exact: wf_mul_constant. Qed.
Lemma is_var_const_mul k x : is_var (const_mul k x) = is_var x.
Proof. by case: x. Qed.
Lemma sat_one a c : satisfies a c -> a One = 1.
Proof. by case/andP => /eqP. Qed.

Fixpoint sub_all (e : N) ws cs : outcome (seq fpvar * csys) :=
  if ws is x :: r then
    rc <- pow_by_constant x e cs ;; rs <- sub_all e r rc.2 ;; Ret (rc.1 :: rs.1, rs.2)
  else Ret ([::], cs).

Lemma sub_all_spec e ws cs : (0 < N.to_nat e)%N -> inv cs -> all (wf_var cs) ws ->
  exists rs cs', [/\ sub_all e ws cs = Ret (rs, cs'),
    ext cs cs' (pow_cost e * count (@is_var F) ws), inv cs',
    [/\ all (wf_var cs') rs, map (@is_var F) rs = map (@is_var F) ws & det cs cs' (fun a => map (eval a) ws)] &
    forall a, satisfies a (cs_cons cs') -> map (eval a) rs = [seq eval a x ^+ N.to_nat e | x <- ws]].
Proof.
move=> e0; elim: ws cs => [|x ws IH] cs hi /=.
  by exists [::], cs; split=> //; rewrite ?muln0; [|split=> //; apply: det_same]; exact: ext_refl.
case/andP=> wx wws; have [r [cs1 [-> e1 i1 [w1 v1 d1] s1]]] := pow_spec e hi wx.
have [rs [cs2 [E2 e2 i2 [w2 v2 d2] s2]]] := IH cs1 i1 (ext_wf_vars hi e1 wws).
rewrite bind_ret [X in bind X]E2 /=; exists (r :: rs), cs2; split=> //.
- by rewrite mulnDr [(_ * is_var x)%N]mulnC; apply: ext_trans e1 e2.
- rewrite /= (ext_wf_var i1 e2 w1) w2 v2; split=> //; first by rewrite v1 e0 andbT.
  apply: (det_trans e2 (f := fun a => eval a x :: map (eval a) ws) _ d2) => [|a a' _ _ [] //].
  by apply: det_sub d1 _ => a a' _ _ [].
- by move=> a ha; rewrite /= s2 // s1 // (ext_sat e2).
Qed.

Variable p : params F.
Hypothesis wfp : wf_params p.
Local Notation t := (p_t p).
Variable e : N.
Hypothesis alpha_e : p_alpha p = Exponent e.
Hypothesis e0 : (0 < N.to_nat e)%N.

Lemma r1cs_full_loop ws cs : size ws = t ->
  r1cs_full_sub_words p (ws, cs) = sub_all e ws cs.
Proof.
rewrite /r1cs_full_sub_words alpha_e /range subn0 => <-.
set body := (fun i s => _).
suff gen pre : for_in (iota (size pre) (size ws)) body (pre ++ ws, cs)
   = omap (fun rc => (pre ++ rc.1, rc.2)) (sub_all e ws cs).
  by have := gen [::]; rewrite /= => ->; case: (sub_all _ _ _) => [[]|].
elim: ws cs pre => [|x ws IH] cs pre //=.
rewrite (aget_nth (Constant 0)) ?nth_cat ?ltnn ?subnn /=; last by rewrite size_cat /= addnS ltnS leq_addr.
case: (pow_by_constant x e cs) => // -[y cs'].
rewrite !bind_ret aset_cat bind_ret -cat_rcons bind_ret /=.
have := IH cs' (rcons pre y); rewrite size_rcons => ->.
by case: (sub_all e ws cs') => //= z; rewrite cat_rcons.
Qed.

(** A gadget layer simulates a native layer. *)
Definition sim (g : rstate F -> outcome (rstate F)) (nat_ : seq F -> outcome (seq F))
    (k : seq fpvar -> nat) (post : seq fpvar -> seq fpvar -> Prop) : Prop :=
  forall ws cs, inv cs -> all (wf_var cs) ws -> size ws = t -> has (@is_var F) ws ->
  exists rs cs', [/\ g (ws, cs) = Ret (rs, cs'), ext cs cs' (k ws), inv cs',
    [/\ all (wf_var cs') rs, size rs = t, post ws rs & det cs cs' (fun a => map (eval a) ws)] &
    forall a, satisfies a (cs_cons cs') -> nat_ (map (eval a) ws) = Ret (map (eval a) rs)].

Definition same_vars ws rs := map (@is_var F) rs = map (@is_var F) ws.

Lemma sim_full : sim (r1cs_full_sub_words p) (full_sub_words p)
  (fun ws => pow_cost e * count (@is_var F) ws)%N same_vars.
Proof.
move=> ws cs hi wws sz _; rewrite r1cs_full_loop //.
have [rs [cs' [E e1 i1 [w1 v1 d1] s1]]] := sub_all_spec e0 hi wws.
exists rs, cs'; split=> //.
- by split=> //; rewrite -sz -(size_map (@is_var F)) v1 size_map.
move=> a ha; rewrite /full_sub_words sub_loop ?size_map // s1 // /sbox alpha_e.
by rewrite traverse_ret -map_comp.
Qed.

Lemma t_gt0 : (0 < t)%N.
Proof. by have /andP [/eqP -> _] := wfp. Qed.

Lemma sim_partial : sim (r1cs_partial_sub_words p) (partial_sub_words p)
  (fun ws => pow_cost e * is_var (nth (Constant 0) ws 0))%N same_vars.
Proof.
move=> ws cs hi wws sz _; rewrite /r1cs_partial_sub_words alpha_e /partial_sub_words /sbox alpha_e.
case: ws wws sz => [_ E|x ws]; first by move: t_gt0; rewrite -E.
case/andP=> wx wws sz; rewrite [aget _ _]/= bind_ret.
have [r [cs1 [-> e1 i1 [w1 v1 d1] s1]]] := pow_spec e hi wx.
exists (r :: ws), cs1; split=> //=.
- by rewrite mulnC.
- split=> //=; rewrite ?w1 ?(ext_wf_vars hi e1) //; first by rewrite /same_vars /= v1 e0 andbT.
  by apply: det_sub d1 _ => a a' _ _ [].
- by move=> a ha; rewrite s1.
Qed.

(** AddRoundConstants *)
Lemma sim_add n ws cs : (n + t <= size (elements (p_arc p)))%N -> size ws = t ->
  exists rs, [/\ r1cs_add_constants p (elements (p_arc p)) (ws, cs, n) = Ret (rs, cs, (n + t)%N),
    all (wf_var cs) ws -> all (wf_var cs) rs, size rs = t /\ same_vars ws rs &
    forall a, a One = 1 ->
      add_constants_counter p (elements (p_arc p)) (map (eval a) ws, n) = Ret (map (eval a) rs, (n + t)%N)].
Proof.
rewrite /r1cs_add_constants /add_constants_counter /range subn0; set rc := elements _.
move=> le sz; move: le; rewrite -sz => le {sz}.
pose body := (fun (i : nat) (sc : rstate F * nat) => let: (ws0, cs0, counter) := sc in
  x <- aget ws0 i ;; k <- aget rc counter ;;
  ws1 <- aset ws0 i (fp_add_const x k) ;; Ret (ws1, cs0, counter.+1)).
pose nbody := (fun (i : nat) (sc : seq F * nat) => let: (st, counter) := sc in
  x <- aget st i ;; k <- aget rc counter ;;
  st <- aset st i (x + k) ;; Ret (st, counter.+1)).
suff gen pre : exists rs, [/\
    for_in (iota (size pre) (size ws)) body (pre ++ ws, cs, n) = Ret (pre ++ rs, cs, (n + size ws)%N),
    all (wf_var cs) ws -> all (wf_var cs) rs, size rs = size ws /\ same_vars ws rs &
    forall a, a One = 1 ->
      for_in (iota (size pre) (size ws)) nbody (map (eval a) (pre ++ ws), n)
        = Ret (map (eval a) (pre ++ rs), (n + size ws)%N)].
  by have [rs] := gen [::]; exists rs.
elim: ws n pre le => [|x ws IH] n pre le /=; first by exists [::]; rewrite addn0.
rewrite /= addnS -addSn in le *.
have lt : (n < size rc)%N by apply: leq_trans le; rewrite ltnS leq_addr.
have [rs [E w [s v] N]] := IH n.+1 (rcons pre (fp_add_const x (nth 0 rc n))) le.
rewrite size_rcons in E N.
exists (fp_add_const x (nth 0 rc n) :: rs); split.
- rewrite (aget_nth (Constant 0)) ?nth_cat ?ltnn ?subnn /=; last by rewrite size_cat /= addnS ltnS leq_addr.
  by rewrite (aget_nth 0) // bind_ret aset_cat !bind_ret -cat_rcons E cat_rcons.
- by case/andP=> wx /w wr; rewrite /= wf_fp_add_const.
- by rewrite /= s /same_vars /= v is_var_add_const.
- move=> a o1; rewrite !map_cat /= (aget_nth 0) ?size_cat ?size_map /= ?addnS ?ltnS ?leq_addr //.
  rewrite nth_cat size_map ltnn subnn /= (aget_nth 0) // bind_ret.
  have := aset_cat (map (eval a) pre) (map (eval a) ws) (eval a x) (eval a x + nth 0 rc n).
  rewrite size_map => ->; rewrite !bind_ret -eval_fp_add_const //.
  by have := N a o1; rewrite !map_cat !map_rcons !cat_rcons => ->.
Qed.

(** MixLayer *)
Lemma sim_mix : sim (r1cs_mix_layer_mds empty_sum p) (mix_layer_mds p) (fun _ => 0%N)
  (fun _ rs => all (@is_var F) rs).
Proof.
move=> ws cs hi wws sz hv; rewrite /r1cs_mix_layer_mds /mix_layer_mds /mix_layer.
have /and3P [_ wm _] := wfp.
rewrite (wf_mkm wm) iter_rows_mkm ?t_gt0 // !bind_ret.
pose f (i j : nat) := nth 0 (elements (p_mds p)) (i * t + j).
have G i : exists r, [/\ fp_sum empty_sum [seq const_mul xy.1 xy.2 | xy <- zip [seq f i j | j <- iota 0 t] ws] = Ret r,
    wf_var cs r, is_var r & forall a, a One = 1 ->
      eval a r = sum_products [seq f i j | j <- iota 0 t] (map (eval a) ws)].
  set row := [seq f i j | j <- iota 0 t].
  have szr : size row = size ws by rewrite size_map size_iota.
  have [||r [E w v ev]] := @fp_sum_spec cs [seq const_mul xy.1 xy.2 | xy <- zip row ws].
  - elim: (row) (ws) szr wws => [|k r IH] [|x s] //= [sr] /andP [h1 h2].
    by rewrite wf_const_mul //= IH.
  - elim: (row) (ws) szr hv => [|k r IH] [|x s] //= [sr].
    by rewrite is_var_const_mul => /orP [->|/IH ->]; rewrite ?orbT.
  exists r; split=> // a o1; rewrite ev // /sum_products sum_products_foldl add0r big_map.
  elim: (row) (ws) szr => [|k r' IH] [|x s] //=; first by rewrite !big_nil.
  by case=> sr; rewrite !big_cons /= eval_const_mul IH.
pose g i := match fp_sum empty_sum [seq const_mul xy.1 xy.2 | xy <- zip [seq f i j | j <- iota 0 t] ws] with
            | Ret r => r | Panic => Constant 0 end.
have gE i : fp_sum empty_sum [seq const_mul xy.1 xy.2 | xy <- zip [seq f i j | j <- iota 0 t] ws] = Ret (g i).
  by rewrite /g; case: (G i) => r [->].
have gw i : wf_var cs (g i) by rewrite /g; case: (G i) => r [->].
have gv i : is_var (g i) by rewrite /g; case: (G i) => r [->].
have gs i a : a One = 1 -> eval a (g i) = sum_products [seq f i j | j <- iota 0 t] (map (eval a) ws).
  by rewrite /g; case: (G i) => r [->] //= _ _; apply.
exists [seq g i | i <- iota 0 t], cs; split=> //.
- rewrite for_in_map.
  suff gen acc s : for_in s (fun (x : nat) (acc : seq fpvar) => r <- fp_sum empty_sum
       [seq const_mul xy.1 xy.2 | xy <- zip [seq f x j | j <- iota 0 t] ws];; Ret (rcons acc r)) acc
       = Ret (acc ++ [seq g i | i <- s]) by rewrite gen.
  elim: s acc => [|i s IH] acc; first by rewrite cats0.
  by cbn [for_in]; rewrite gE !bind_ret IH cat_rcons.
- exact: ext_refl.
- rewrite size_map size_iota !all_map; split=> //; try by apply/allP => i _ /=; rewrite ?gw ?gv.
  exact/det_same/ext_refl.
- move=> a ha; have o1 := sat_one ha; rewrite bind_ret.
  rewrite (enumerateE [::]) for_in_map size_map size_iota.
  rewrite (@fill_loop _ _ (fun i => eval a (g i)) _ 0%N); last first.
    by move=> i arr /andP [_ ir] _; rewrite subn0 (nth_map 0%N) ?size_iota // nth_iota // gs.
  by rewrite -map_comp.
Qed.

(** Rounds, with the counter.  [k] and [post] describe the number of new
    constraints and the new mask of variables in terms of the old mask. *)
Definition mask ws := map (@is_var F) ws.
Definition full_mask := nseq t true.
Definition simc (n m : nat) (g : rstate F * nat -> outcome (rstate F * nat))
    (nat_ : seq F * nat -> outcome (seq F * nat))
    (k : seq bool -> nat) (post : seq bool -> seq bool) : Prop :=
  forall ws cs, inv cs -> all (wf_var cs) ws -> size ws = t -> has id (mask ws) ->
  exists rs cs', [/\ g (ws, cs, n) = Ret (rs, cs', m), ext cs cs' (k (mask ws)), inv cs',
    [/\ all (wf_var cs') rs, size rs = t, mask rs = post (mask ws), has id (mask rs) &
        det cs cs' (fun a => map (eval a) ws)] &
    forall a, satisfies a (cs_cons cs') -> nat_ (map (eval a) ws, n) = Ret (map (eval a) rs, m)].

Lemma has_mask ws : has id (mask ws) = has (@is_var F) ws.
Proof. by rewrite /mask has_map. Qed.
Lemma count_mask ws : count id (mask ws) = count (@is_var F) ws.
Proof. by rewrite /mask count_map. Qed.
Lemma all_mask ws : size ws = t -> all (@is_var F) ws -> mask ws = full_mask.
Proof.
rewrite /full_mask => <-; elim: ws => //= x ws IH /andP [-> /IH ->] //.
Qed.
Lemma has_full_mask : has id full_mask.
Proof. by rewrite /full_mask; case: (t) t_gt0. Qed.

Definition full_cost (v : seq bool) : nat := (pow_cost e * count id v)%N.
Definition partial_cost (v : seq bool) : nat := (pow_cost e * nth false v 0)%N.

Definition rround (sub : rstate F -> outcome (rstate F)) (sc : rstate F * nat) :=
  sc <- r1cs_add_constants p (elements (p_arc p)) sc ;;
  let: (s, counter) := sc in
  s <- sub s ;; s <- r1cs_mix_layer_mds empty_sum p s ;; Ret (s, counter).
Definition nround (nsub : seq F -> outcome (seq F)) (sc : seq F * nat) :=
  sc <- add_constants_counter p (elements (p_arc p)) sc ;;
  let: (st, counter) := sc in
  st <- nsub st ;; st <- mix_layer_mds p st ;; Ret (st, counter).

Lemma simc_round sub nsub k n :
  sim sub nsub (fun ws => k (mask ws)) same_vars -> (n + t <= size (elements (p_arc p)))%N ->
  simc n (n + t) (rround sub) (nround nsub)
    k (fun _ => full_mask).
Proof.
move=> S le ws cs hi wws sz hv.
have [rs1 [E1 w1 [z1 v1] N1]] := sim_add cs le sz.
have hv1 : has (@is_var F) rs1 by rewrite -has_mask /mask v1.
have [rs2 [cs2 [E2 e2 i2 [w2 z2 v2 d2] N2]]] := S rs1 cs hi (w1 wws) z1 hv1.
have hv2 : has (@is_var F) rs2 by rewrite -has_mask /mask v2 -/(mask rs1) has_mask.
have [rs3 [cs3 [E3 e3 i3 [w3 z3 v3 d3] N3]]] := sim_mix i2 w2 z2 hv2.
exists rs3, cs3; split=> //.
- by rewrite /rround E1 bind_ret E2 bind_ret E3.
- by rewrite /mask -v1; have := ext_trans i2 e2 e3; rewrite addn0.
- split=> //; rewrite ?all_mask ?has_full_mask //.
  apply: (det_trans e3 (f := fun a => map (eval a) ws) _ d3).
    apply: det_sub d2 _ => a a' sa sa' E.
    by have := N1 a (sat_one sa); rewrite E (N1 a' (sat_one sa')) => -[].
  move=> a a' sa sa' E; have := N2 a sa.
  have -> : map (eval a) rs1 = map (eval a') rs1.
    by have := N1 a (sat_one sa); rewrite E (N1 a' (sat_one sa')) => -[].
  by rewrite N2 // => -[].
- move=> a ha; have ha2 := ext_sat e3 ha.
  by rewrite /nround (N1 a (sat_one ha)) bind_ret (N2 a ha2) bind_ret (N3 a ha).
Qed.

Definition loop_cost (k : seq bool -> nat) (r : nat) (v : seq bool) : nat :=
  if r is r'.+1 then (k v + r' * k full_mask)%N else 0%N.
Definition loop_mask (r : nat) (v : seq bool) : seq bool := if r is _.+1 then full_mask else v.

Lemma simc_comp n m m' g g' h h' k k' q q' :
  simc n m g h k q -> simc m m' g' h' k' q' ->
  simc n m' (fun sc => sc <- g sc ;; g' sc) (fun sc => sc <- h sc ;; h' sc)
    (fun v => k v + k' (q v))%N (fun v => q' (q v)).
Proof.
move=> S S' ws cs hi wws sz hv.
have [rs1 [cs1 [E1 e1 i1 [w1 z1 v1 h1 d1] N1]]] := S ws cs hi wws sz hv.
have [rs2 [cs2 [E2 e2 i2 [w2 z2 v2 h2 d2] N2]]] := S' rs1 cs1 i1 w1 z1 h1.
exists rs2, cs2; split=> //.
- by rewrite E1 bind_ret.
- by rewrite -v1; apply: ext_trans e1 e2.
- split=> //; first by rewrite v2 v1.
  by apply: det_trans e2 d1 d2 _ => a a' sa sa' E; have := N1 a sa; rewrite E N1 // => -[].
- by move=> a ha; rewrite (N1 a (ext_sat e2 ha)) bind_ret N2.
Qed.

Lemma simc_loop (T : Type) (l : seq T) n g h k :
  (forall i, (i < size l)%N -> simc (n + i * t) (n + i * t + t) g h k (fun _ => full_mask)) ->
  simc n (n + size l * t) (fun sc => for_in l (fun _ => g) sc) (fun sc => for_in l (fun _ => h) sc)
    (loop_cost k (size l)) (loop_mask (size l)).
Proof.
elim: l n => [|x l IH] n H /=.
  by move=> ws cs hi wws sz hv; exists ws, cs; rewrite addn0; split=> //; [|split=> //; apply: det_same]; exact: ext_refl.
have H0 := H 0%N isT; rewrite mul0n addn0 in H0.
have S : simc (n + t) (n + t + size l * t) (fun sc => for_in l (fun _ => g) sc)
    (fun sc => for_in l (fun _ => h) sc) (loop_cost k (size l)) (loop_mask (size l)).
  apply: IH => i lt; have := H i.+1; rewrite ltnS => /(_ lt).
  by rewrite mulSn addnA.
have := simc_comp H0 S; rewrite -addnA -mulSn => C ws cs hi wws sz hv.
have [rs [cs' [E1 e1 i1 [w1 z1 v1 h1 d1] N1]]] := C ws cs hi wws sz hv.
exists rs, cs'; split=> //.
- by move: e1; congr (ext _ _ (_ + _)%N); case: (size l) => //= r; rewrite mulSn.
- by split=> //; rewrite v1; case: (size l).
Qed.

Lemma size_arc : size (elements (p_arc p)) = ((r_P (p_rounds p) + r_F (p_rounds p)) * t)%N.
Proof. by have /and4P [_ _ /and3P [_ _ /eqP ->] _] := wfp. Qed.

Local Notation Rf := ((r_F (p_rounds p)) %/ 2)%N.
Local Notation Rp := (r_P (p_rounds p)).

Definition permute_cost (v : seq bool) : nat :=
  (loop_cost full_cost Rf v + loop_cost partial_cost Rp (loop_mask Rf v)
   + loop_cost full_cost Rf (loop_mask Rp (loop_mask Rf v)))%N.

Theorem permute_spec ws cs : inv cs -> all (wf_var cs) ws -> size ws = t -> has (@is_var F) ws ->
  exists rs cs', [/\ r1cs_permute empty_sum p (ws, cs) = Ret (rs, cs'),
    ext cs cs' (permute_cost (mask ws)), inv cs',
    [/\ all (wf_var cs') rs, size rs = t & det cs cs' (fun a => map (eval a) ws)] &
    forall a, satisfies a (cs_cons cs') ->
      unoptimized_permute p (map (eval a) ws) = Ret (map (eval a) rs)].
Proof.
move=> hi wws sz; rewrite -has_mask => hv.
have B i : (i < Rf + Rp + Rf)%N -> (i * t + t <= size (elements (p_arc p)))%N.
  move=> lt; rewrite size_arc addnC -mulSn leq_mul2r; apply/orP; right.
  apply: leq_trans lt _; rewrite addnAC [X in (_ <= X)%N]addnC leq_add2r addnn -mul2n mulnC.
  exact: leq_trunc_div.
have SF : sim (r1cs_full_sub_words p) (full_sub_words p) (fun ws => full_cost (mask ws)) same_vars.
  by move=> ws' cs' h1 h2 h3 h4; rewrite /full_cost count_mask; apply: sim_full.
have SP : sim (r1cs_partial_sub_words p) (partial_sub_words p) (fun ws => partial_cost (mask ws)) same_vars.
  move=> ws' cs' h1 h2 h3 h4; have := sim_partial h1 h2 h3 h4.
  by rewrite /partial_cost /mask; case: (ws') h3 => //= E; move: t_gt0; rewrite -E.
pose r := range 0 Rf; pose r' := range 0 Rp.
have sr : size r = Rf by rewrite size_range subn0.
have sr' : size r' = Rp by rewrite size_range subn0.
have lRf i : (i < size r)%N -> (i < Rf + Rp + Rf)%N by rewrite sr -addnA => lt; apply: ltn_addr.
have lRp i : (i < size r')%N -> (Rf + i < Rf + Rp + Rf)%N.
  by rewrite sr' -addnA ltn_add2l => lt; apply: ltn_addr.
have lRf' i : (i < size r)%N -> (Rf + Rp + i < Rf + Rp + Rf)%N by rewrite sr ltn_add2l.
pose fr := rround (r1cs_full_sub_words p); pose fn := nround (full_sub_words p).
pose pr := rround (r1cs_partial_sub_words p); pose pn := nround (partial_sub_words p).
have L1 : simc 0 (0 + size r * t) (for_in r (fun _ => fr)) (for_in r (fun _ => fn))
    (loop_cost full_cost (size r)) (loop_mask (size r)).
  by apply: simc_loop => i lt; rewrite add0n; apply: (simc_round SF); apply/B/lRf.
have L2 : simc (Rf * t) (Rf * t + size r' * t) (for_in r' (fun _ => pr)) (for_in r' (fun _ => pn))
    (loop_cost partial_cost (size r')) (loop_mask (size r')).
  by apply: simc_loop => i lt; rewrite -mulnDl; apply: (simc_round SP); apply/B/lRp.
have L3 : simc ((Rf + Rp) * t) ((Rf + Rp) * t + size r * t) (for_in r (fun _ => fr)) (for_in r (fun _ => fn))
    (loop_cost full_cost (size r)) (loop_mask (size r)).
  by apply: simc_loop => i lt; rewrite -mulnDl; apply: (simc_round SF); apply/B/lRf'.
rewrite sr add0n in L1; rewrite sr' -mulnDl in L2; rewrite sr -mulnDl in L3.
have C := simc_comp (simc_comp L1 L2) L3.
have [rs [cs' [E1 e1 i1 [w1 z1 v1 h1 d1] N1]]] := C ws cs hi wws sz hv.
exists rs, cs'; split=> //.
- have -> : r1cs_permute empty_sum p (ws, cs) = sc <- (sc <- (sc <- for_in r (fun=> fr) (ws, cs, 0%N);;
     for_in r' (fun=> pr) sc);; for_in r (fun=> fr) sc) ;; Ret sc.1.
    by rewrite /r1cs_permute !bindA.
  by rewrite [X in bind X _]E1.
- move=> a ha; have := N1 a ha => {}N1.
  have -> : unoptimized_permute p (map (eval a) ws) = sc <- (sc <- (sc <- for_in r (fun=> fn) (map (eval a) ws, 0%N);;
     for_in r' (fun=> pn) sc);; for_in r (fun=> fn) sc) ;; Ret sc.1.
    by rewrite /unoptimized_permute !bindA.
  by rewrite [X in bind X _]N1.
Qed.
End Proofs.
