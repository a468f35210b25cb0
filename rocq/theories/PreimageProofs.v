(** Proofs about the test circuit: soundness, completeness, uniqueness, size. *)
From Coq Require Import ZArith Lia.
From mathcomp Require Import all_ssreflect all_algebra.
From Verif Require Import Base Fq Matrix Params Permutation Hash R1cs R1csSpec R1csHash R1csProofs R1csProps.
From Verif Require Import RateChecks Shipped PoseidonProps Montgomery Preimage PreimageSpec.
From Verif Require Import Rate1 Rate2 Rate3 Rate4 Rate5 Rate6 Rate7.
Set Implicit Arguments.
Unset Strict Implicit.
Unset Printing Implicit Defensive.
Import GRing.Theory.
Local Open Scope ring_scope.
Local Open Scope rust_scope.
Local Notation K := Fq_fieldType.
Local Notation FqVar := (fpvar K).
Local Notation csys := (csys K).

(** * Allocation *)
Definition var_of (mk : nat -> wire) (setup : bool) (s : seq Fq) (i : nat) : FqVar :=
  Var (@Alloc K (if setup then None else Some (at_ s i)) [:: (1, mk i)]).
Definition vars_of mk setup s n : seq FqVar := [seq var_of mk setup s i | i <- iota 0 n].

Lemma size_vars mk su s n : size (vars_of mk su s n) = n.
Proof. by rewrite size_map size_iota. Qed.

Definition cs_w (su : bool) (s : seq Fq) : csys := Csys su 0 [::] (size s) (if su then [::] else s) [::].
Definition cs_wi (su : bool) (s s' : seq Fq) : csys :=
  Csys su (size s') (if su then [::] else s') (size s) (if su then [::] else s) [::].

Lemma var_rcons mk su s x i : (i < size s)%N -> var_of mk su (rcons s x) i = var_of mk su s i.
Proof. by move=> lt; rewrite /var_of /at_ nth_rcons lt. Qed.
Lemma vars_rcons mk su s x :
  vars_of mk su (rcons s x) (size s).+1 = rcons (vars_of mk su s (size s)) (var_of mk su (rcons s x) (size s)).
Proof.
rewrite /vars_of -addn1 iotaD map_cat /= cats1; congr rcons.
apply/eq_in_map => i; rewrite mem_iota => /andP [_ lt]; exact: var_rcons.
Qed.

Lemma alloc_w su s : alloc_all (@new_witness _) s (new_cs _ su) = Ret (vars_of Wit su s (size s), cs_w su s).
Proof.
rewrite /alloc_all; elim/last_ind: s => [|s x IH]; first by case: su.
rewrite for_in_rcons IH bind_ret size_rcons vars_rcons /var_of /new_witness /cs_w /=.
by case: su {IH}; rewrite /= ?size_rcons // /at_ nth_rcons ltnn eqxx.
Qed.
Lemma alloc_i su s s' : alloc_all (@new_input _) s' (cs_w su s) = Ret (vars_of Inst su s' (size s'), cs_wi su s s').
Proof.
rewrite /alloc_all; elim/last_ind: s' => [|s' x IH]; first by case: su.
rewrite for_in_rcons IH bind_ret size_rcons vars_rcons /var_of /new_input /cs_wi /=.
by case: su {IH}; rewrite /= ?size_rcons // /at_ nth_rcons ltnn eqxx.
Qed.

(** * The seven steps are alike *)
Definition pars (k : nat) : params K := nth RATE_7_PARAMS
  [:: RATE_1_PARAMS; RATE_2_PARAMS; RATE_3_PARAMS; RATE_4_PARAMS; RATE_5_PARAMS; RATE_6_PARAMS; RATE_7_PARAMS] k.
Lemma pars_in k : List.In (pars k) shipped.
Proof.
case: k => [|[|[|[|[|[|[|k]]]]]]]; [exact: in1|exact: in2|exact: in3|exact: in4|exact: in5|exact: in6|exact: in7|].
by rewrite /pars nth_default //; exact: in7.
Qed.
Lemma pars_t k : (k < 7)%N -> p_t (pars k) = k.+2.
Proof. by do 7!(case: k => [|k] //). Qed.

Definition words (su : bool) (s : seq Fq) (k : nat) : seq FqVar :=
  Constant (DOMAIN_SEP : K) :: vars_of Wit su s k.+1.

Section Circuit.
Variable es : K -> outcome FqVar.
Definition step (su : bool) (s s' : seq Fq) (k : nat) (cs : csys) : outcome csys :=
  rc <- r1cs_n_to_1_fixed_hash es (pars k) cs (words su s k) ;;
  Ret (enforce_equal (var_of Inst su s' k) rc.1 rc.2).

Lemma generateE su s s' : size s = 7%N -> size s' = 7%N ->
  generate_constraints es (Circuit s s') (new_cs _ su) = for_in (iota 0 7) (step su s s') (cs_wi su s s').
Proof.
move=> sz sz'; rewrite /generate_constraints.
cbn [preimages hash_outputs]; rewrite alloc_w bind_ret alloc_i bind_ret sz sz'.
rewrite /vars_of /r1cs_hash_1 /r1cs_hash_2 /r1cs_hash_3 /r1cs_hash_4 /r1cs_hash_5 /r1cs_hash_6 /r1cs_hash_7.
cbn [iota map aget for_in bind].
do 7!(rewrite {1}/step bindA; apply: bind_ext => ?; rewrite bind_ret).
by [].
Qed.

(** * The invariant *)
(** The native hash of rate [k + 1] on the values of the preimage wires *)
Definition H (k : nat) (a : wire -> K) : outcome Fq :=
  r <- n_to_1_fixed_hash (pars k) ((DOMAIN_SEP : K) :: [seq a (Wit i) | i <- iota 0 k.+1]) (instance_new (pars k)) ;;
  Ret r.1.

Lemma H_agree k a a' : (k < 7)%N -> agree 7 7 a a' -> H k a = H k a'.
Proof.
move=> lt ag; rewrite /H; congr (bind (n_to_1_fixed_hash _ (_ :: _) _) _).
apply/eq_in_map => i; rewrite mem_iota add0n ltnS => /andP [_ le]; apply: ag => /=.
exact: leq_ltn_trans le lt.
Qed.

Lemma eval_words su s k a : map (eval a) (words su s k) = (DOMAIN_SEP : K) :: [seq a (Wit i) | i <- iota 0 k.+1].
Proof.
rewrite /words /vars_of map_cons -map_comp; congr (_ :: _).
by apply: eq_map => i /=; rewrite /eval_lc big_seq1 mul1r.
Qed.

Variables (su : bool) (s s' : seq Fq).
Hypotheses (sz : size s = 7%N) (sz' : size s' = 7%N).

Fixpoint nwits (k : nat) : nat := if k is k.+1 then (nwits k + 5 * (8 * k.+2 + 30))%N else 7%N.
Lemma nwits7 k : (7 <= nwits k)%N.
Proof. by elim: k => //= k IH; apply: leq_trans IH (leq_addr _ _). Qed.

Record good (k : nat) (cs : csys) : Prop := Good {
  g_setup : cs_setup cs = su;
  g_wf : wf_csys cs;
  g_ninst : cs_ninst cs = 7%N;
  g_inst : cs_inst cs = if su then [::] else s';
  g_nwit : cs_nwit cs = nwits k;
  g_size : (size (cs_cons cs) + 7 = nwits k + k)%N;
  g_agree : su = false -> agree 7 7 (asg (cs_wi su s s')) (asg cs);
  g_sound : forall a, satisfies a (cs_cons cs) -> forall i, (i < k)%N -> H i a = Ret (a (Inst i) : Fq);
  g_asg : su = false -> (forall i, (i < k)%N -> H i (asg cs) = Ret (asg cs (Inst i) : Fq)) ->
    satisfies (asg cs) (cs_cons cs);
  g_ext : forall a, a One = 1 -> (forall i, (i < k)%N -> H i a = Ret (a (Inst i) : Fq)) ->
    exists a', satisfies a' (cs_cons cs) /\ agree 7 7 a a';
  g_uniq : forall a a', satisfies a (cs_cons cs) -> satisfies a' (cs_cons cs) ->
    (forall i, (i < 7)%N -> a (Wit i) = a' (Wit i)) -> forall i, (i < nwits k)%N -> a (Wit i) = a' (Wit i) }.

Lemma good0 : good 0 (cs_wi su s s').
Proof.
split=> //=.
- by rewrite /wf_csys /=; case: su => //=; rewrite eqxx.
- by move=> a a1 _; exists a; split=> //; rewrite /satisfies /= a1 eqxx.
Qed.

Lemma wf_wit k cs i : good k cs -> (i < 7)%N -> wf_var cs (var_of Wit su s i).
Proof.
move=> g lt; rewrite /wf_var /var_of /= (g_nwit g) (g_setup g) (leq_trans lt (nwits7 k)) /=.
case: su (g_agree g) => //= ag.
by rewrite /eval_lc big_seq1 mul1r -(ag erefl (Wit i) lt).
Qed.
Lemma wf_inst k cs i : good k cs -> (i < 7)%N -> wf_var cs (var_of Inst su s' i).
Proof.
move=> g lt; rewrite /wf_var /var_of /= (g_ninst g) (g_setup g) lt /=.
case: su (g_agree g) => //= ag.
by rewrite /eval_lc big_seq1 mul1r -(ag erefl (Inst i) lt).
Qed.
Lemma wf_words k cs j : good k cs -> (j < 7)%N -> all (wf_var cs) (words su s j).
Proof.
move=> g lt; rewrite -[all _ _]/(all (wf_var cs) (vars_of Wit su s j.+1)) all_map; apply/allP => i.
rewrite mem_iota add0n ltnS => /andP [_ le].
by apply: wf_wit g _; apply: leq_ltn_trans le lt.
Qed.

(** An equality constraint *)
Lemma eval_neg a (l : lc K) : eval_lc a (neg_lc l) = - eval_lc a l.
Proof. by rewrite /eval_lc big_map -sumrN; apply: eq_bigr => kw _; rewrite mulNr. Qed.
Lemma scoped_neg m n (l : lc K) : scoped m n (neg_lc l) = scoped m n l.
Proof. by rewrite /scoped all_map. Qed.

Definition eq_lc (k : nat) (out : FqVar) : lc K :=
  match out with
  | Constant c => (c, One) :: neg_lc [:: (1, Inst k)]
  | Var w => [:: (1, Inst k)] ++ neg_lc (a_lc w) end.
Lemma scoped_eq k out cs m : (k < m)%N -> m = cs_ninst cs -> wf_var cs out -> scoped m (cs_nwit cs) (eq_lc k out).
Proof.
move=> lt E; subst m; case: out => [c|w] /= => [_|/andP [h _]]; first by rewrite lt.
by rewrite lt scoped_neg h.
Qed.
Lemma enforce_equalE k out cs :
  enforce_equal (var_of Inst su s' k) out cs = enforce (eq_lc k out) [:: (1, One)] [::] cs.
Proof. by case: out. Qed.
Lemma holds_eq a k out : a One = 1 -> holds a (eq_lc k out, [:: (1, One)], [::]) = (a (Inst k) == eval a out).
Proof.
move=> a1; rewrite /holds /= eval_lc_nil [X in _ * X]big_seq1 /= a1 !mulr1.
rewrite /eq_lc; case: out => [c|w]; rewrite /eval.
  rewrite /eval_lc big_cons -/(eval_lc a _) eval_neg /eval_lc big_seq1 /= a1 mulr1 mul1r subr_eq0.
  by rewrite eq_sym.
by rewrite eval_lc_cat eval_neg [X in X - _]/eval_lc big_seq1 /= mul1r subr_eq0.
Qed.
Lemma sat_eq a k out cs : satisfies a (cs_cons (enforce (eq_lc k out) [:: (1, One)] [::] cs)) =
  satisfies a (cs_cons cs) && (a (Inst k) == eval a out).
Proof.
rewrite /satisfies /enforce [cs_cons _]/= all_rcons; case: eqP => //= a1.
by rewrite andbC holds_eq.
Qed.

Lemma good_step k cs : (k < 7)%N -> good k cs -> exists2 cs', step su s s' k cs = Ret cs' & good k.+1 cs'.
Proof.
move=> lt g.
have gw := g_wf g.
have ww := wf_words g lt.
have szw : size (words su s k) = p_t (pars k) by rewrite pars_t // -[size _]/(size (vars_of Wit su s k.+1)).+1 size_vars.
have hv : has (@is_var _) (words su s k) by [].
have [out [cs1 [E w1 wo Cr Ca]]] := shipped_complete (pars_in k) es gw ww szw hv.
have S1 := shipped_sound (pars_in k) gw ww szw hv E.
have U1 := shipped_unique (pars_in k) gw ww szw hv E.
have [n1 i1 t1 u1 [new [c1 sn]]] := shipped_cost (pars_in k) gw ww szw hv E.
have cnt : count (@is_var _) (words su s k) = k.+1.
  by rewrite /words /= add0n /vars_of count_map (@eq_count _ _ predT) // count_predT size_iota.
have nE : cs_nwit cs1 = nwits k.+1.
  rewrite n1 (g_nwit g) cnt pars_t //=; congr (_ + _)%N.
  by rewrite -!multE -!plusE; lia.
exists (enforce_equal (var_of Inst su s' k) out cs1); first by rewrite /step E.
rewrite enforce_equalE.
have w7 : (7 <= cs_nwit cs)%N by rewrite (g_nwit g) nwits7.
have ag1 : su = false -> agree 7 (cs_nwit cs) (asg cs) (asg cs1).
  have hi : inv cs by case/andP: gw.
  have [o2 [cs2 [E2 x _ _ _]]] :=
    gadget_spec (shipped_wf (pars_in k)) (al17 (pars_in k)) e17 (tgt1 (pars_in k)) es hi ww szw hv.
  move: E2 x; rewrite E => -[_ <-] x e.
  by have := ext_agree hi x; rewrite (g_ninst g) (g_setup g); apply.
have old_sat a : satisfies a (cs_cons cs1) -> satisfies a (cs_cons cs).
  by case/andP=> o1; rewrite c1 all_cat => /andP [h _]; rewrite /satisfies o1.
split.
- by rewrite /= u1 (g_setup g).
- move: w1; rewrite /wf_csys /enforce /= all_rcons => /andP [-> ->]; rewrite !andbT.
  by rewrite /scoped_constr !andbT i1 (g_ninst g); apply: scoped_eq wo; rewrite ?i1 ?(g_ninst g).
- by rewrite /= i1 (g_ninst g).
- by rewrite /= t1 (g_inst g).
- by rewrite -nE.
- rewrite -nE n1 /= size_rcons c1 size_cat sn.
  move: (g_size g); rewrite (g_nwit g); move: (5 * _)%N (size _) (nwits _) => X Y Z; rewrite -!plusE; lia.
- move=> e; apply: (agree_trans (g_agree g e)) => w hw.
  by rewrite (ag1 e) //; apply: wire_inW hw.
- move=> a; rewrite sat_eq => /andP [sa /eqP ea] i; rewrite ltnS leq_eqVlt => /orP [/eqP ->|li].
    by rewrite ea -(S1 a sa) eval_words.
  by apply: (g_sound g) => //; apply: old_sat sa.
- move=> e h; set c := enforce _ _ _ _.
  have ac : agree 7 7 (asg cs) (asg cs1) by apply: agreeW (ag1 e).
  have s0 : satisfies (asg cs) (cs_cons cs).
    apply: (g_asg g e) => i li; have li7 := ltn_trans li lt.
    by rewrite (H_agree li7 ac) (h i (ltnW li)) [RHS](_ : _ = Ret (asg cs1 (Inst i))) // ac.
  have [s1 _] := Cr (etrans (g_setup g) e) s0.
  rewrite sat_eq [asg c]/(asg cs1) s1 /=; apply/eqP.
  have := h k (ltnSn k); rewrite [asg c]/(asg cs1) => hk.
  by have := S1 _ s1; rewrite eval_words -/(H k (asg cs1)) hk => -[].
- move=> a a1 h.
  have [a0 [s0 ag0]] := g_ext g a1 (fun i li => h i (ltnW li)).
  have [a2 [s2 ag2]] := Ca a0 s0.
  have ag3 : agree 7 7 a a2.
    apply: (agree_trans ag0) => w hw; rewrite ag2 // (g_ninst g).
    exact: wire_inW w7 hw.
  exists a2; split=> //; rewrite sat_eq s2 /=; apply/eqP.
  have := S1 _ s2; rewrite eval_words -/(H k a2) -(H_agree lt ag3) h // => -[<-].
  by rewrite -ag3.
- move=> a a'; rewrite !sat_eq => /andP [sa _] /andP [sa' _] e7 i li.
  case: (ltnP i (cs_nwit cs)) => h.
    by apply: (g_uniq g) => //; rewrite -?(g_nwit g) //; [apply: old_sat sa | apply: old_sat sa'].
  apply: (U1 _ _ sa sa'); last by rewrite h nE.
  rewrite !eval_words; congr (_ :: _); apply/eq_in_map => j; rewrite mem_iota add0n ltnS => /andP [_ le].
  by apply: e7; apply: leq_ltn_trans le lt.
Qed.

Lemma good_steps n k cs : (k + n <= 7)%N -> good k cs ->
  exists2 cs', for_in (iota k n) (step su s s') cs = Ret cs' & good (k + n) cs'.
Proof.
elim: n k cs => [|n IH] k cs le g; first by exists cs; rewrite ?addn0.
have lt : (k < 7)%N by apply: leq_trans le; rewrite addnS ltnS leq_addr.
have [cs1 E1 g1] := good_step lt g.
have [|cs2 E2 g2] := IH k.+1 cs1 _ g1; first by rewrite addSnnS.
by exists cs2; [rewrite /= E1 bind_ret | rewrite -addSnnS].
Qed.

Lemma good_run : exists2 cs', generate_constraints es (Circuit s s') (new_cs _ su) = Ret cs' & good 7 cs'.
Proof. by rewrite generateE //; apply: good_steps good0. Qed.
End Circuit.

Lemma HE0 a : H 0 a = hash_1 DOMAIN_SEP (a (Wit 0)).
Proof. by cbv [H hash_1 pars nth iota map]. Qed.
Lemma HE1 a : H 1 a = hash_2 DOMAIN_SEP (a (Wit 0), a (Wit 1)).
Proof. by cbv [H hash_2 pars nth iota map]. Qed.
Lemma HE2 a : H 2 a = hash_3 DOMAIN_SEP (a (Wit 0), a (Wit 1), a (Wit 2)).
Proof. by cbv [H hash_3 pars nth iota map]. Qed.
Lemma HE3 a : H 3 a = hash_4 DOMAIN_SEP (a (Wit 0), a (Wit 1), a (Wit 2), a (Wit 3)).
Proof. by cbv [H hash_4 pars nth iota map]. Qed.
Lemma HE4 a : H 4 a = hash_5 DOMAIN_SEP (a (Wit 0), a (Wit 1), a (Wit 2), a (Wit 3), a (Wit 4)).
Proof. by cbv [H hash_5 pars nth iota map]. Qed.
Lemma HE5 a : H 5 a = hash_6 DOMAIN_SEP (a (Wit 0), a (Wit 1), a (Wit 2), a (Wit 3), a (Wit 4), a (Wit 5)).
Proof. by cbv [H hash_6 pars nth iota map]. Qed.
Lemma HE6 a : H 6 a = hash_7 DOMAIN_SEP (a (Wit 0), a (Wit 1), a (Wit 2), a (Wit 3), a (Wit 4), a (Wit 5), a (Wit 6)).
Proof. by cbv [H hash_7 pars nth iota map]. Qed.
Lemma H_hashes a : (forall i, (i < 7)%N -> H i a = Ret (a (Inst i) : Fq)) <->
  hashes_of (fun i => a (Wit i)) (fun i => a (Inst i)).
Proof.
rewrite /hashes_of -HE0 -HE1 -HE2 -HE3 -HE4 -HE5 -HE6.
split=> [h|[h0 [h1 [h2 [h3 [h4 [h5 h6]]]]]]].
  split; first exact (h 0%N isT). split; first exact (h 1%N isT).
  split; first exact (h 2%N isT). split; first exact (h 3%N isT).
  split; first exact (h 4%N isT). split; first exact (h 5%N isT).
  exact (h 6%N isT).
by case=> [|[|[|[|[|[|[|i]]]]]]] lt;
  [exact h0 | exact h1 | exact h2 | exact h3 | exact h4 | exact h5 | exact h6 | ].
Qed.

Lemma hashes_ext w w' h h' : (forall i, (i < 7)%N -> w i = w' i) -> (forall i, (i < 7)%N -> h i = h' i) ->
  hashes_of w h -> hashes_of w' h'.
Proof. by move=> ew eh; rewrite /hashes_of !ew // !eh. Qed.

(** * Shapes *)
Lemma shape_enforce su1 su2 s1 s2 k out1 out2 (cs1 cs2 : csys) : shape_of_cs cs1 = shape_of_cs cs2 ->
  shape_of_var out1 = shape_of_var out2 ->
  shape_of_cs (enforce_equal (var_of Inst su1 s1 k) out1 cs1) =
  shape_of_cs (enforce_equal (var_of Inst su2 s2 k) out2 cs2).
Proof.
rewrite !enforce_equalE /shape_of_cs /enforce => -[/= -> -> ->].
by case: out1 out2 => [c|v] [d|w] //= [->].
Qed.

Lemma shape_step es1 es2 su1 su2 s1 s2 s1' s2' k cs1 cs2 cs1' : (k < 7)%N ->
  good su1 s1 s1' k cs1 -> good su2 s2 s2' k cs2 -> shape_of_cs cs1 = shape_of_cs cs2 ->
  step es1 su1 s1 s1' k cs1 = Ret cs1' ->
  exists2 cs2', step es2 su2 s2 s2' k cs2 = Ret cs2' & shape_of_cs cs1' = shape_of_cs cs2'.
Proof.
move=> lt g1 g2 Es; rewrite /step.
case E: (r1cs_n_to_1_fixed_hash _ _ _ _) => [[out1 c1]|] //; rewrite bind_ret => -[<-].
have szw : size (words su1 s1 k) = p_t (pars k).
  by rewrite pars_t // -[size _]/(size (vars_of Wit su1 s1 k.+1)).+1 size_vars.
have Ew : map (@shape_of_var K) (words su1 s1 k) = map (@shape_of_var K) (words su2 s2 k).
  by rewrite /words /vars_of !map_cons -!map_comp.
have [out2 [c2 [E2 Ec Eo]]] := generic_shape (shipped_wf (pars_in k)) (al17 (pars_in k)) e17 (tgt1 (pars_in k))
  es2 (g_wf g1) (wf_words g1 lt) szw isT (g_wf g2) (wf_words g2 lt) Es Ew E.
by rewrite E2; eexists; first reflexivity; apply: shape_enforce.
Qed.

Lemma shape_steps es1 es2 su1 su2 s1 s2 s1' s2' n k cs1 cs2 cs1' : (k + n <= 7)%N ->
  size s1 = 7%N -> size s1' = 7%N -> size s2 = 7%N -> size s2' = 7%N ->
  good su1 s1 s1' k cs1 -> good su2 s2 s2' k cs2 -> shape_of_cs cs1 = shape_of_cs cs2 ->
  for_in (iota k n) (step es1 su1 s1 s1') cs1 = Ret cs1' ->
  exists2 cs2', for_in (iota k n) (step es2 su2 s2 s2') cs2 = Ret cs2' & shape_of_cs cs1' = shape_of_cs cs2'.
Proof.
move=> le z1 z1' z2 z2'; elim: n k cs1 cs2 le => [|n IH] k cs1 cs2 le g1 g2 Es; first by move=> [<-]; exists cs2.
have lt : (k < 7)%N by apply: leq_trans le; rewrite addnS ltnS leq_addr.
have [d1 D1 h1] := good_step es1 z1 z1' lt g1.
have [d2 D2 h2] := good_step es2 z2 z2' lt g2.
have [d2' D2' Ed] := shape_step es2 lt g1 g2 Es D1.
move: D2; rewrite D2' => -[Ed2]; subst d2'.
rewrite [for_in _ _ _]/= D1 bind_ret => R1.
have [|cs2' R2 E2] := IH k.+1 _ _ _ h1 h2 Ed R1; first by rewrite addSnnS.
by exists cs2'; rewrite //= D2' bind_ret.
Qed.

Lemma generate_shape es1 es2 su1 su2 c1 c2 cs1 : seven c1 -> seven c2 ->
  generate_constraints es1 c1 (new_cs _ su1) = Ret cs1 ->
  exists2 cs2, generate_constraints es2 c2 (new_cs _ su2) = Ret cs2 & shape_of_cs cs1 = shape_of_cs cs2.
Proof.
case: c1 c2 => [s1 s1'] [s2 s2'] /andP [/eqP z1 /eqP z1'] /andP [/eqP z2 /eqP z2'].
rewrite !generateE //; apply: shape_steps => //; try exact: good0.
by move: z1 z1' z2 z2'; rewrite /shape_of_cs /cs_wi /= => -> -> -> ->.
Qed.

(** * The properties *)
Section Props.
Variables (es : K -> outcome FqVar) (su : bool) (c : PreimageCircuit) (cs' : csys).
Hypotheses (h7 : seven c) (E : generate_constraints es c (new_cs _ su) = Ret cs').

Lemma preimage_good : good su (preimages c) (hash_outputs c) 7 cs'.
Proof.
move: h7 E; case: (c) => s s' /andP [/eqP z /eqP z'] E'.
by have [cs2] := good_run es su z z'; rewrite E' => -[<-].
Qed.

Lemma preimage_sound a : satisfies a (cs_cons cs') -> hashes_of (fun i => a (Wit i)) (fun i => a (Inst i)).
Proof. by move=> sa; apply/H_hashes; apply: (g_sound preimage_good). Qed.

Definition given (w h : nat -> Fq) (x : wire) : K := match x with One => 1 | Inst i => h i | Wit i => w i end.
Lemma preimage_complete w h : hashes_of w h -> exists2 a, satisfies a (cs_cons cs') &
  forall i, (i < 7)%N -> a (Wit i) = w i /\ a (Inst i) = h i.
Proof.
move=> hw; have [|a [sa ag]] := g_ext preimage_good (a := given w h) erefl; first by apply/H_hashes.
by exists a => // i li; rewrite -(ag (Wit i) li) -(ag (Inst i) li).
Qed.

Lemma preimage_unique a a' : satisfies a (cs_cons cs') -> satisfies a' (cs_cons cs') ->
  (forall i, (i < 7)%N -> a (Wit i) = a' (Wit i)) ->
  forall w, wire_in (cs_ninst cs') (cs_nwit cs') w -> a w = a' w.
Proof.
move=> sa sa' e; have g := preimage_good; case=> [_|i|i] /=.
- by rewrite (sat_one sa) (sat_one sa').
- rewrite (g_ninst g) => li; have h := g_sound g sa li; have h' := g_sound g sa' li.
  have : H i a = H i a'.
    rewrite /H; congr (bind (n_to_1_fixed_hash _ (_ :: _) _) _); apply/eq_in_map => j.
    by rewrite mem_iota add0n ltnS => /andP [_ le]; apply: e; apply: leq_ltn_trans le li.
  by rewrite h h' => -[].
- by rewrite (g_nwit g) => li; apply: (g_uniq g).
Qed.

Lemma preimage_size : [/\ cs_ninst cs' = 7%N, cs_nwit cs' = 2457%N, size (cs_cons cs') = 2457%N & wf_csys cs'].
Proof.
have g := preimage_good; split; rewrite ?(g_ninst g) ?(g_nwit g) ?(g_wf g) //.
by have := g_size g; rewrite [RHS](_ : _ = (2457 + 7)%N) // => /addIn.
Qed.

Lemma preimage_asg i : su = false -> (i < 7)%N ->
  asg cs' (Wit i) = at_ (preimages c) i /\ asg cs' (Inst i) = at_ (hash_outputs c) i.
Proof.
by move=> e li; have ag := g_agree preimage_good e; rewrite -(ag (Wit i) li) -(ag (Inst i) li) e.
Qed.

Lemma preimage_happy : su = false ->
  satisfies (asg cs') (cs_cons cs') <-> hashes_of (at_ (preimages c)) (at_ (hash_outputs c)).
Proof.
move=> e; split=> [/preimage_sound|h].
  by apply: hashes_ext => i li; case: (preimage_asg e li).
apply: (g_asg preimage_good e); apply/H_hashes.
by apply: hashes_ext h => i li; case: (preimage_asg e li).
Qed.

Lemma preimage_inst : su = false -> cs_inst cs' = hash_outputs c.
Proof. by move=> e; rewrite (g_inst preimage_good) e. Qed.
End Props.

Lemma preimage_runs es su c : seven c -> exists cs', generate_constraints es c (new_cs _ su) = Ret cs'.
Proof.
case: c => s s' /andP [/eqP z /eqP z'].
by have [cs2 E _] := good_run es su z z'; exists cs2.
Qed.

Lemma preimage_unhappy es su c cs' : seven c -> generate_constraints es c (new_cs _ su) = Ret cs' ->
  forall (h : Fq) (a : wire -> K), satisfies a (cs_cons cs') ->
  hash_1 DOMAIN_SEP (at_ (preimages c) 0) = Ret h ->
  (forall i, (i < 7)%N -> a (Inst i) = h + 1) -> a (Wit 0) <> at_ (preimages c) 0.
Proof.
move=> h7 E h a sa hh hi ew; have [h1 _] := preimage_sound h7 E sa.
have e : h = a (Inst 0) :> K.
  have : Ret h = Ret (a (Inst 0)) by rewrite -hh -h1; congr (hash_1 _ _); exact (esym ew).
  exact (fun e => congr1 (fun o => if o is Ret x then x else h) e).
have z : h + 1 = h + 0 :> K by rewrite addr0 {2}e hi.
by move/addrI/eqP: z; rewrite oner_eq0.
Qed.

Lemma preimage_shape es su c cs : seven c -> generate_constraints es c (new_cs _ su) = Ret cs ->
  forall es' su' c', seven c' ->
  exists2 cs', generate_constraints es' c' (new_cs _ su') = Ret cs' &
    [/\ cs_cons cs' = cs_cons cs, cs_ninst cs' = cs_ninst cs & cs_nwit cs' = cs_nwit cs].
Proof.
move=> h7 E es' su' c' h7'; have [cs' E'] := generate_shape es' su' h7 h7' E.
by rewrite /shape_of_cs => -[-> -> ->]; exists cs'; [exact: E'|split].
Qed.
