(** The R1CS properties in the form in which they are stated in
    [Properties_R1cs.v]. *)
From Coq Require Import NArith Nnat.
From mathcomp Require Import all_ssreflect all_algebra.
From Verif Require Import Base Fq Matrix MatrixSpec Params Permutation PermutationProofs PoseidonProofs.
From Verif Require Import RateChecks Shipped Hash PoseidonProps R1cs R1csSpec R1csHash R1csProofs R1csShape.
From Verif Require Import Rate1 Rate2 Rate3 Rate4 Rate5 Rate6 Rate7.
Set Implicit Arguments.
Unset Strict Implicit.
Unset Printing Implicit Defensive.
Import GRing.Theory.
Local Open Scope ring_scope.
Local Open Scope rust_scope.

Lemma pcost_true bs : pcost true bs = (size bs + count id bs)%N.
Proof. by elim: bs => //= b bs ->; rewrite addnACA. Qed.
Lemma pos_bits_lead p : exists r, [/\ pos_bits p = true :: r, (count id r).+1 = ones p &
  size r = N.to_nat (N.log2 (Npos p))].
Proof.
elim: p => [p [r [E c z]]|p [r [E c z]]|]; last by exists [::].
- exists (rcons r true); rewrite /= E rcons_cons -cats1 count_cat addn1 c size_cat addn1 z; split=> //.
  by rewrite -N2Nat.inj_succ; case: (p).
- exists (rcons r false); rewrite /= E rcons_cons -cats1 count_cat addn0 c size_cat addn1 z; split=> //.
  by rewrite -N2Nat.inj_succ; case: (p).
Qed.
Lemma pow_costE e : pow_cost e = mul_count e.
Proof.
case: e => // p; rewrite /pow_cost /bits_be /mul_count.
by have [r [-> <- <-]] := pos_bits_lead p; rewrite /= pcost_true.
Qed.

Section Generic.
Variable F : fieldType.
Variable p : params F.
Hypothesis wfp : wf_params p.
Variable e : N.
Hypothesis alpha_e : p_alpha p = Exponent e.
Hypothesis e0 : (0 < N.to_nat e)%N.
Hypothesis t1 : (1 < p_t p)%N.
Variable empty_sum : F -> outcome (fpvar F).
Implicit Types (cs : csys F) (ws : seq (fpvar F)).
Local Notation gadget cs ws := (r1cs_n_to_1_fixed_hash empty_sum p cs ws).
Local Notation Rf := ((r_F (p_rounds p)) %/ 2)%N.
Local Notation Rp := (r_P (p_rounds p)).

Lemma gadget_spec es cs ws : inv cs -> all (wf_var cs) ws -> size ws = p_t p -> has (@is_var F) ws ->
  exists out cs', [/\ r1cs_n_to_1_fixed_hash es p cs ws = Ret (out, cs'),
    ext cs cs' (permute_cost p e (mask ws)), inv cs',
    wf_var cs' out /\ det cs cs' (fun a => map (eval a) ws) &
    forall a, satisfies a (cs_cons cs') ->
      (r <- unoptimized_n_to_1_fixed_hash p (map (eval a) ws) (instance_new p) ;; Ret r.1)
        = Ret (eval a out)].
Proof.
move=> hi wws sz hv.
have [rs [cs' [E e1 i1 [w1 z1 d1] N1]]] := permute_spec es wfp alpha_e e0 hi wws sz hv.
exists (nth (Constant 0) rs 1), cs'; split=> //.
- by rewrite /r1cs_n_to_1_fixed_hash E bind_ret (aget_nth (Constant 0)) ?z1.
- by split=> //; apply/all_nthP => //; rewrite z1.
- move=> a ha; rewrite unopt_hash_fresh ?size_map ?size_nseq ?sz // N1 // bind_ret.
  by rewrite (aget_nth 0) ?size_map ?z1 // (nth_map (Constant 0)) ?z1.
Qed.

Section Call.
Variables (cs : csys F) (ws : seq (fpvar F)).
Hypotheses (wcs : wf_csys cs) (wws : all (wf_var cs) ws) (sz : size ws = p_t p) (hv : has (@is_var F) ws).

Let hi : inv cs. Proof. by case/andP: wcs. Qed.

Lemma generic_sound : gadget_sound (gadget cs ws)
  (fun a => r <- unoptimized_n_to_1_fixed_hash p (map (eval a) ws) (instance_new p) ;; Ret r.1).
Proof.
have [out [cs' [E _ _ _ S]]] := gadget_spec empty_sum hi wws sz hv.
by move=> out' cs''; rewrite E => -[<- <-].
Qed.

Lemma generic_complete : gadget_complete cs (gadget cs ws).
Proof.
have [out [cs' [E x i' [w _] _]]] := gadget_spec empty_sum hi wws sz hv.
have [new [cE sn tn hn]] := ext_new x.
have /andP [sc _] := wcs.
exists out, cs'; split=> //.
- rewrite /wf_csys -/(inv cs') i' andbT cE all_cat (ext_ninst x) (ext_nwit x) -sn tri_scoped // andbT.
  by apply: seq.sub_all sc => c; apply: scoped_constrW; rewrite leq_addr.
- move=> su sat; split; last by move=> w' hw; rewrite (ext_agree hi x su).
  have /andP [_ hold] := sat; have /andP [o1 h2] := hn su.
  rewrite /satisfies o1 cE all_cat h2 andbT /=.
  elim: (cs_cons cs) sc hold => //= c l IH /andP [/and3P [c1 c2 c3] /IH r] /andP [hc /r ->].
  rewrite andbT; move: hc; rewrite /holds; have ag := ext_agree hi x su.
  by rewrite (eval_lc_agree ag c1) (eval_lc_agree ag c2) (eval_lc_agree ag c3).
- move=> a sat; have /andP [/eqP o1 hold] := sat.
  have [a' [ag /andP [o1' h2]]] := tri_extend tn o1.
  exists a'; split; last by move=> w' hw; rewrite ag.
  rewrite /satisfies o1' cE all_cat h2 andbT /=.
  elim: (cs_cons cs) sc hold => //= c l IH /andP [/and3P [c1 c2 c3] /IH r] /andP [hc /r ->].
  rewrite andbT; move: hc; rewrite /holds.
  by rewrite (eval_lc_agree ag c1) (eval_lc_agree ag c2) (eval_lc_agree ag c3).
Qed.

Lemma generic_unique : gadget_unique cs ws (gadget cs ws).
Proof.
have [out [cs' [E _ _ [_ d] _]]] := gadget_spec empty_sum hi wws sz hv.
by move=> out' cs''; rewrite E => -[_ <-] a a'; apply: d.
Qed.

Lemma permute_costE : (0 < Rf)%N ->
  permute_cost p e (mask ws) = (pow_cost e * (count (@is_var F) ws + p_t p * (2 * Rf).-1 + Rp))%N.
Proof.
rewrite /permute_cost /loop_cost /loop_mask; case: Rf => // r _.
have cf : full_cost e (full_mask p) = (pow_cost e * p_t p)%N.
  by rewrite /full_cost /full_mask count_nseq mul1n.
have cp : partial_cost e (full_mask p) = pow_cost e.
  by rewrite /partial_cost /full_mask nth_nseq (ltnW t1) muln1.
have -> : (if Rp is _.+1 then full_mask p else full_mask p) = full_mask p by case: Rp.
have -> : (if Rp is r'.+1 then partial_cost e (full_mask p) + r' * partial_cost e (full_mask p) else 0)%N
   = (pow_cost e * Rp)%N by rewrite cp; case: Rp => [|r']; rewrite ?muln0 // -mulSn mulnC.
rewrite cf [full_cost e (mask ws)]/full_cost count_mask !mulnDr.
rewrite mulnCA [(r * _)%N]mulnC -!addnA; congr (_ + _)%N.
rewrite [(pow_cost e * Rp + _)%N]addnC !addnA; congr (_ + _)%N.
by rewrite -addnA -mulnDr -mulnS plusE addn0.
Qed.

Lemma generic_cost : (0 < Rf)%N ->
  gadget_cost cs (gadget cs ws) (mul_count e * (count (@is_var F) ws + p_t p * (2 * Rf).-1 + Rp)).
Proof.
move=> rf0; rewrite -pow_costE -permute_costE //.
have [out [cs' [E x _ _ _]]] := gadget_spec empty_sum hi wws sz hv.
move=> out' cs''; rewrite E => -[_ <-]; split; rewrite ?(ext_nwit x) ?(ext_ninst x) ?(ext_inst x) ?(ext_setup x) //.
by have [new [cE sn _ _]] := ext_new x; exists new.
Qed.
End Call.

Lemma generic_shape es1 es2 cs1 cs2 ws1 ws2 out1 cs1' :
  wf_csys cs1 -> all (wf_var cs1) ws1 -> size ws1 = p_t p -> has (@is_var F) ws1 ->
  wf_csys cs2 -> all (wf_var cs2) ws2 ->
  shape_of_cs cs1 = shape_of_cs cs2 -> map (@shape_of_var F) ws1 = map (@shape_of_var F) ws2 ->
  r1cs_n_to_1_fixed_hash es1 p cs1 ws1 = Ret (out1, cs1') ->
  exists out2 cs2', [/\ r1cs_n_to_1_fixed_hash es2 p cs2 ws2 = Ret (out2, cs2'),
    shape_of_cs cs1' = shape_of_cs cs2' & shape_of_var out1 = shape_of_var out2].
Proof.
move=> wc1 ww1 sz hv wc2 ww2 Ec Ew E1.
have hi1 : inv cs1 by case/andP: wc1.
have hi2 : inv cs2 by case/andP: wc2.
have sz2 : size ws2 = p_t p by rewrite -sz -(size_map (@shape_of_var F)) -Ew size_map.
have hv2 : has (@is_var F) ws2.
  have H ws : has (@is_var F) ws = has (fun x => if x is inr _ then true else false) (map (@shape_of_var F) ws).
    by rewrite has_map; apply: eq_has => -[].
  by rewrite H -Ew -H.
have [o1 [c1 [P1 _ _ _ _]]] := gadget_spec (fun _ => Panic) hi1 ww1 sz hv.
have [o2 [c2 [P2 _ _ _ _]]] := gadget_spec (fun _ => Panic) hi2 ww2 sz2 hv2.
have := @hash_er _ false es1 p _ _ _ _ P1; rewrite /= map_id E1 => -[EE1 EE2]; subst o1 c1.
have := @hash_er _ false es2 p _ _ _ _ P2; rewrite /= map_id => P2'.
exists o2, c2.
have Q1 := @hash_er _ true es1 p _ _ _ _ P1; have Q2 := @hash_er _ true es1 p _ _ _ _ P2.
have Ecs : erase_cs cs1 = erase_cs cs2 by case: Ec; rewrite /erase_cs => -> -> ->.
have Ews : map (@erase_var F) ws1 = map (@erase_var F) ws2.
  have H ws : map (@erase_var F) ws = map (fun x => match x with inl c => Constant c | inr l => Var (Alloc None l) end)
     (map (@shape_of_var F) ws) by rewrite -map_comp; apply: eq_map => -[].
  by rewrite !H Ew.
move: Q1 Q2; rewrite /= Ecs Ews => -> [Ov e1 e2 e3]; split=> //.
- by rewrite /shape_of_cs e1 e2 e3.
- by case: (out1) (o2) Ov => [c|v] [d|w] //= [->].
Qed.
End Generic.

(** Inverse S-box *)
Lemma inverse_panics (F : fieldType) (p : params F) es cs ws : p_alpha p = Inverse ->
  (1 < r_F (p_rounds p))%N || (0 < r_P (p_rounds p))%N ->
  r1cs_n_to_1_fixed_hash es p cs ws = Panic.
Proof.
move=> al; rewrite /r1cs_n_to_1_fixed_hash /r1cs_permute /r1cs_full_sub_words /r1cs_partial_sub_words al.
rewrite /range !subn0; case rf: (_ %/ 2)%N => [|r].
  have {rf} : (r_F (p_rounds p) < 2)%N by rewrite -[2%N]mul1n -ltn_divLR // rf.
  rewrite ltnS leqNgt => /negbTE -> /=; case: (r_P _) => //= n _.
  by case: (r1cs_add_constants _ _ _) => //= -[].
by move=> _ /=; case: (r1cs_add_constants _ _ _) => //= -[].
Qed.

(** Constant inputs only, when a sum without variables panics. *)
Section Constants.
Variable F : fieldType.
Variable p : params F.
Hypothesis wfp : wf_params p.
Local Notation const := (fun x : fpvar F => ~~ is_var x).

Lemma pow_const c e (cs : csys F) : exists d, pow_by_constant (Constant c) e cs = Ret (Constant d, cs).
Proof.
rewrite /pow_by_constant; move: 1; elim: (bits_be e) => [|b bs IH] x /=; first by exists x.
by case: b => /=; apply: IH.
Qed.

Lemma aset_const ws i x ws' : all const ws -> const x -> aset ws i x = Ret ws' -> all const ws'.
Proof.
elim: ws i ws' => [|y ws IH] [|i] ws' //= /andP [cy cws] cx; first by case=> <- /=; rewrite cx cws.
by case E: (aset ws i x) => [z|] //= [<-] /=; rewrite cy (IH _ _ _ _ E).
Qed.
Lemma aget_const ws i x : all const ws -> aget ws i = Ret x -> exists c, x = Constant c.
Proof.
elim: ws i => [|y ws IH] [|i] //= /andP [cy cws]; last exact: IH.
by case=> <-; case: y cy => // c _; exists c.
Qed.

Lemma for_in_inv T S (P : S -> Prop) (l : seq T) (f : T -> S -> outcome S) s s' :
  (forall x s s', P s -> f x s = Ret s' -> P s') -> P s -> for_in l f s = Ret s' -> P s'.
Proof.
move=> H; elim: l s => [|x l IH] s Ps /=; first by case=> <-.
by case E: (f x s) => [s1|] //=; apply: IH; apply: H E.
Qed.

Lemma full_const s s' : all const s.1 -> r1cs_full_sub_words p s = Ret s' -> all const s'.1.
Proof.
rewrite /r1cs_full_sub_words; case: (p_alpha p) => // e.
apply: (@for_in_inv _ _ (fun s : rstate F => all const s.1)) => i {s s'} [ws cs] s' /= cs0; case G: (aget ws i) => [x|] //=.
have [c ->] := aget_const cs0 G; have [d ->] := pow_const c e cs; rewrite /=.
by case A: (aset _ _ _) => [ws'|] //= [<-]; apply: aset_const A.
Qed.
Lemma partial_const s s' : all const s.1 -> r1cs_partial_sub_words p s = Ret s' -> all const s'.1.
Proof.
rewrite /r1cs_partial_sub_words; case: (p_alpha p) => // e; case: s => ws cs /= cs0.
case G: (aget ws 0) => [x|] //=.
have [c ->] := aget_const cs0 G; have [d ->] := pow_const c e cs; rewrite /=.
by case A: (aset _ _ _) => [ws'|] //= [<-]; apply: aset_const A.
Qed.
Lemma add_const rc s s' : all const s.1.1 -> r1cs_add_constants p rc s = Ret s' -> all const s'.1.1.
Proof.
apply: (@for_in_inv _ _ (fun s : rstate F * nat => all const s.1.1)) => i {s s'} [[ws cs] n] s' /= cs0; case G: (aget ws i) => [x|] //=.
have [c ->] := aget_const cs0 G; case: (aget rc n) => //= k.
by case A: (aset _ _ _) => [ws'|] //= [<-]; apply: aset_const A.
Qed.
Lemma mix_const s : all const s.1 -> r1cs_mix_layer_mds (fun _ => Panic) p s = Panic.
Proof.
case: s => ws cs /= cs0; rewrite /r1cs_mix_layer_mds.
have /and3P [_ wm _] := wfp.
rewrite (MatrixProofs.wf_mkm wm) MatrixProofs.iter_rows_mkm ?t_gt0 // bind_ret.
case: (p_t p) (t_gt0 wfp) => // t _ /=.
set row := (_ :: _); move: row => row.
suff -> : fp_sum (fun _ => Panic) [seq const_mul xy.1 xy.2 | xy <- zip row ws] = Panic by [].
rewrite /fp_sum; set vs := pmap _ _; suff -> : vs = [::] by [].
rewrite /vs; elim: row ws cs0 {vs} => [|k row IH] [|x ws] //= /andP [cx cws].
by case: x cx => //= c _; apply: IH.
Qed.

Lemma constants_panic cs ws : (1 < r_F (p_rounds p))%N || (0 < r_P (p_rounds p))%N ->
  all const ws -> r1cs_n_to_1_fixed_hash (fun _ => Panic) p cs ws = Panic.
Proof.
move=> hr cws; rewrite /r1cs_n_to_1_fixed_hash /r1cs_permute.
have R sub : (forall s s', all const s.1 -> sub s = Ret s' -> all const s'.1) ->
  (sc <- r1cs_add_constants p (elements (p_arc p)) (ws, cs, 0%N) ;;
   let: (s, counter) := sc in
   s <- sub s ;; s <- r1cs_mix_layer_mds (fun _ => Panic) p s ;; Ret (s, counter)) = Panic.
  move=> H; case A: (r1cs_add_constants _ _ _) => [[s c]|] //; rewrite bind_ret.
  have c1 : all const s.1 := add_const (s := (ws, cs, 0%N)) cws A.
  by case B: (sub s) => [s1|] //; rewrite bind_ret mix_const // (H _ _ c1 B).
rewrite /range !subn0; move: hr; case rf: (_ %/ 2)%N => [|r].
  have {rf} : (r_F (p_rounds p) < 2)%N by rewrite -[2%N]mul1n -ltn_divLR // rf.
  rewrite ltnS leqNgt => /negbTE ->; case: (r_P _) => // n _; cbn [orb iota for_in].
  by rewrite bind_ret (R _ partial_const).
by move=> _; cbn [iota for_in]; rewrite (R _ full_const).
Qed.
End Constants.

(** * Shipped parameters *)
Section Shipped.
Variable p : params Fq_fieldType.
Hypothesis hp : List.In p shipped.
Variable es : Fq_fieldType -> outcome (fpvar Fq_fieldType).
Variables (cs : csys Fq_fieldType) (ws : seq (fpvar Fq_fieldType)).
Hypotheses (wcs : wf_csys cs) (wws : all (wf_var cs) ws) (sz : size ws = p_t p)
  (hv : has (@is_var _) ws).
Local Notation g := (r1cs_n_to_1_fixed_hash es p cs ws).

Lemma al17 : p_alpha p = Exponent 17. Proof. by case: (shipped_spec hp). Qed.
Lemma e17 : (0 < N.to_nat 17)%N. Proof. by []. Qed.
Lemma tgt1 : (1 < p_t p)%N.
Proof. by case: (shipped_spec hp) => -> /andP [h _] _ _ _; rewrite add1n ltnS. Qed.

Lemma shipped_sound :
  gadget_sound g (fun a => r <- n_to_1_fixed_hash p (map (eval a) ws) (instance_new p) ;; Ret r.1).
Proof.
move=> out cs' E a sa; rewrite opt_eq_unopt ?size_map ?size_nseq //.
exact: (generic_sound (shipped_wf hp) al17 e17 tgt1 wcs wws sz hv E).
Qed.
Lemma shipped_complete : gadget_complete cs g.
Proof. exact: (generic_complete (shipped_wf hp) al17 e17 tgt1 es wcs wws sz hv). Qed.
Lemma shipped_unique : gadget_unique cs ws g.
Proof. exact: (generic_unique (shipped_wf hp) al17 e17 tgt1 wcs wws sz hv). Qed.
Lemma shipped_cost : gadget_cost cs g (5 * (count (@is_var _) ws + 7 * p_t p + 31)).
Proof.
have := generic_cost (shipped_wf hp) al17 e17 tgt1 (empty_sum := es) wcs wws sz hv.
by have [_ _ _ _ ->] := shipped_spec hp; rewrite [(7 * _)%N]mulnC; apply.
Qed.
End Shipped.
