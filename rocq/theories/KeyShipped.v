(** The pattern of the test circuit's constraints and the repository's key files. *)
From Coq Require Import ZArith Lia.
From mathcomp Require Import all_ssreflect all_algebra.
From Verif Require Import Base Fq Matrix MatrixSpec MatrixProofs Params Permutation Cauchy Hash.
From Verif Require Import R1cs R1csSpec R1csProofs R1csHash RateChecks Shipped PoseidonProps.
From Verif Require Import Preimage PreimageSpec PreimageProofs KeySpec KeyProofs KeyData R1csProps.
Set Implicit Arguments.
Unset Strict Implicit.
Unset Printing Implicit Defensive.
Import GRing.Theory.
Local Open Scope ring_scope.
Local Open Scope rust_scope.
Local Notation K := Fq_fieldType.
Local Notation FqVar := (fpvar K).
Local Notation csys := (csys K).

(** * Sides *)
Section Side.
Variable F : fieldType.
Definition side (A : bool) (c : constr F) : lc F := if A then c.1.1 else c.1.2.
Definition depth (A : bool) : nat := if A then 4%N else 3%N.
Lemma depth4 A : (depth A <= 4)%N. Proof. by case: A. Qed.

Lemma wl_nz i w : (coef (wl F i) w != 0) = same_wire w (Wit i).
Proof.
rewrite /wl coef_one; case: same_wireP => [->|h]; first by rewrite oner_eq0 same_wire_refl.
by rewrite eqxx; apply/esym/negP => /same_wireP e; case: h.
Qed.
Lemma occ_sboxE A (x : lc F) n w :
  occ (side A) (sboxc x n) w = (coef x w != 0) || has (fun r => same_wire w (Wit (n + r))) (iota 0 (depth A)).
Proof.
by case: A; rewrite /occ /= !wl_nz addn0 ?orbF //; do !case: (_ != 0); rewrite ?orbT ?orbF.
Qed.
End Side.

Lemma mds_entries q : List.In q shipped -> forall i, (i < p_t q * p_t q)%N -> nth (0 : K) (elements (p_mds q)) i != 0.
Proof.
move=> hq i lt; have [ht /andP [_ l7] _ _ _] := shipped_spec hq.
have M := shipped_mds hq; move: lt; rewrite ht => lt.
set t := (1 + p_t1 q)%N in M lt.
have t0 : (0 < t)%N by [].
have li : (i %/ t < t)%N by rewrite ltn_divLR.
have lj : (i %% t < t)%N by rewrite ltn_mod.
have := congr1 (fun A : 'M__ => A (Ordinal li) (Ordinal lj)) M.
rewrite /toM /cauchy_mx !mxE /= -divn_eq => ->; rewrite invr_eq0.
apply: small_Fq.
have t8 : (t <= 8)%N by rewrite /t.
move: t0 t8 li lj; move: (t) (i %/ t)%N (i %% t)%N => T X Y.
by move=> /ltP t0 /leP t8 /ltP li /ltP lj; apply/andP; split; apply/ltP; rewrite -!plusE; lia.
Qed.

(** * The circuit *)
Definition nsb (k : nat) : nat := (8 * k.+2 + 30)%N.

Section Circuit.
Variables (es : K -> outcome FqVar) (s s' : seq Fq).
Hypotheses (sz : size s = 7%N) (sz' : size s' = 7%N).
Variable A : bool.
Local Notation occ := (occ (side (F := K) A)).
Local Notation d := (depth A).

Record key (k : nat) (cs : csys) : Prop := Key {
  k_high : forall i, (nwits k <= i)%N -> ~~ occ (cs_cons cs) (Wit i);
  k_pre : forall i, (i < 7)%N -> occ (cs_cons cs) (Wit i) = (i < k)%N;
  k_block : forall h j r, (h < k)%N -> (j < nsb h)%N -> (r < 5)%N ->
    occ (cs_cons cs) (Wit (nwits h + 5 * j + r)) =
      (r < d)%N || (r == 4%N) && (A || (j < nsb h - h.+2)%N);
  k_inst : forall i, occ (cs_cons cs) (Inst i) = A && (i < k)%N;
  k_one : (0 < k)%N -> ~~ A -> occ (cs_cons cs) One }.

Lemma key0 : key 0 (cs_wi true s s').
Proof. by split=> //= *; rewrite ?andbF. Qed.

Lemma nwits_le h k : (h < k)%N -> (nwits h + 5 * nsb h <= nwits k)%N.
Proof.
elim: k => // k IH; rewrite ltnS leq_eqVlt => /orP [/eqP ->//|/IH le].
by apply: leq_trans le (leq_addr _ _).
Qed.

Lemma coef_neg (l : lc K) w : coef (neg_lc l) w = - coef l w.
Proof. by rewrite /coef big_map -sumrN. Qed.

Lemma key_step k cs : (k < 7)%N -> good true s s' k cs -> key k cs ->
  exists2 cs', step es true s s' k cs = Ret cs' & key k.+1 cs'.
Proof.
move=> lt g ky; set q := pars k.
have hq : List.In q shipped := pars_in k.
have [ht _ _ ha hr] := shipped_spec hq.
have tE : p_t q = k.+2 := pars_t lt.
pose P0 i := (i < k.+1)%N.
have P0lt i : P0 i -> (i < nwits k)%N.
  by move=> h; apply: leq_trans (nwits7 k); apply: leq_trans h _.
have cnt : count (@is_var _) (words true s k) = k.+1.
  by rewrite /words /= add0n /vars_of count_map (@eq_count _ _ predT) // count_predT size_iota.
have coefv i j : vcoef (var_of Wit true s i) (Wit j) = (i == j)%:R.
  by rewrite /vcoef /= coef_one /=; case: eqP.
have [||||||||rs [cs1 [E1 I1]]] := @permute_key K es (side A) d (depth4 A) (@occ_sboxE K A) q (shipped_wf hq) ha
  (mds_entries hq) (nwits k) P0 (cs_cons cs) P0lt hr (words true s k) cs.
- exact: (g_setup g).
- exact: (g_nwit g).
- by rewrite tE -[size _]/(size (vars_of Wit true s k.+1)).+1 size_vars.
- by [].
- rewrite -[all _ _]/(all _ (vars_of Wit true s k.+1)) all_map; apply/allP => i.
  rewrite mem_iota add0n => /andP [_ h] /=.
  by rewrite /vsupp /supp /= /P0 h.
- by [].
- move=> i hi; rewrite -[has _ _]/(_ || has _ (vars_of Wit true s k.+1)); apply/orP; right.
  rewrite has_map; apply/hasP; exists i; first by rewrite mem_iota.
  by rewrite /= coefv eqxx oner_eq0.
- exact: (k_high ky).
rewrite cnt tE in I1; set a := (_ + 6 * _ + _)%N in I1; set c := (_ + 7 * _ + _)%N in I1.
have cE : c = nsb k by rewrite /c /nsb -!plusE -!multE; lia.
have aE : a = (nsb k - k.+2)%N by rewrite -cE /a /c -!plusE -!multE -minusE; lia.
have ac : (a < c)%N by apply/ltP; rewrite /a /c -!plusE -!multE; lia.
pose out := at0 rs 1.
have t1 : (1 < p_t q)%N by rewrite tE.
have szr := i_size I1.
exists (enforce_equal (var_of Inst true s' k) out cs1).
  rewrite /step /r1cs_n_to_1_fixed_hash E1 bind_ret.
  by rewrite (aget_nth (Constant 0)) ?szr // !bind_ret.
rewrite enforce_equalE.
(* the output is a variable *)
have pend j : (a <= j)%N -> (j < c)%N -> vcoef out (y (nwits k) j) != 0.
  by move=> l1 l2; apply: (i_pend I1).
have so : vsupp (okw (nwits k) P0 c) out := supp_at 1 (i_supp I1).
have [v Eo] : exists v, out = Var v.
  have := pend a (leqnn a) ac; case: (out) => [x|v]; last by exists v.
  by rewrite /vcoef coef_nil eqxx.
have z w : ~~ okw (nwits k) P0 c w -> coef (a_lc v) w = 0.
  by move: so; rewrite Eo /vsupp /=; apply: coef_supp.
have occN w : occ (cs_cons (enforce (eq_lc k out) [:: (1, One)] [::] cs1)) w =
    occ (cs_cons cs1) w || (if A then (same_wire (Inst k) w)%:R - coef (a_lc v) w != 0 else same_wire One w).
  rewrite /= -cats1 occ_cat; congr orb; rewrite Eo /occ /= orbF /side; case: (A) => /=.
    by rewrite -/(same_wire (Inst k) w) -cat1s coef_cat coef_neg coef_one; case: (same_wire _ _).
  by rewrite -/(same_wire One w) coef_one; case: (same_wire _ _); rewrite ?oner_eq0 ?eqxx.
have zN w : ~~ okw (nwits k) P0 c w -> w <> Inst k -> w <> One ->
    occ (cs_cons (enforce (eq_lc k out) [:: (1, One)] [::] cs1)) w = occ (cs_cons cs1) w.
  move=> /z h hi ho; rewrite occN h.
  have -> : same_wire (Inst k) w = false by apply/negP => /same_wireP e; case: hi.
  have -> : same_wire One w = false by apply/negP => /same_wireP e; case: ho.
  by rewrite subr0 eqxx; case: (A); rewrite orbF.
have mono w : occ (cs_cons cs1) w -> occ (cs_cons (enforce (eq_lc k out) [:: (1, One)] [::] cs1)) w.
  by move=> h; rewrite occN h.
split.
- move=> i le; have le' : (nwits k + 5 * c <= i)%N by rewrite cE.
  by rewrite zN ?(i_above I1) //; apply: not_okw_high.
- move=> i l7; rewrite ltnS; case: (leqP i k) => le; first by rewrite mono // (i_first I1).
  have l0 : (i < nwits k)%N := leq_trans l7 (nwits7 k).
  have np : ~~ P0 i by rewrite /P0 ltnS -ltnNge.
  rewrite zN // ?(i_keep I1) // ?(k_pre ky) //; first by apply/negbTE; rewrite -leqNgt ltnW.
  apply/negP => /okw_wit [h|[j _ e]]; first by rewrite h in np.
  by move: l0; rewrite e ltnNge -addnA leq_addr.
- move=> h j r; rewrite ltnS leq_eqVlt => /orP [/eqP ->|lh] lj lr.
    rewrite -aE; rewrite -cE in lj.
    case: (ltnP r d) => rd /=; first by rewrite mono // (i_low I1).
    case: eqP => [->|n4] /=; last first.
      have r4 : (r < 4)%N by rewrite ltn_neqAle -ltnS lr andbT; apply/eqP.
      rewrite zN ?(negbTE (i_mid I1 _ _ _)) //; apply: not_okw => //.
      by rewrite r4.
    case: (ltnP j a) => la; first by rewrite mono ?orbT // (i_old I1).
    rewrite occN (negbTE (i_new I1 la lj)) /= orbF; case: (A) => //.
    by have := pend j la lj; rewrite Eo /vcoef /= sub0r oppr_eq0.
  have le := nwits_le lh.
  have l0 : (nwits h + 5 * j + r < nwits k)%N.
    by apply: leq_trans le; move: (nsb h) lj => X /ltP lj; move: lr => /ltP lr; apply/ltP; rewrite -!plusE -!multE; lia.
  have np : ~~ P0 (nwits h + 5 * j + r)%N.
    rewrite /P0 -leqNgt; apply: (leq_trans lt); rewrite -addnA.
    exact: leq_trans (nwits7 h) (leq_addr _ _).
  rewrite zN // ?(i_keep I1) // ?(k_block ky) //.
  apply/negP => /okw_wit [h'|[j' _ e]]; first by rewrite h' in np.
  by move: l0; rewrite e ltnNge -addnA leq_addr.
- move=> i; rewrite ltnS leq_eqVlt; case: eqP => [->|ne] /=.
    rewrite occN (i_inst I1) (k_inst ky) ltnn andbF /= z //.
    by case: (A) => //; rewrite /= eqxx subr0 oner_eq0.
  by rewrite zN ?(i_inst I1) ?(k_inst ky) // => -[].
- by move=> _ nA; rewrite occN (negbTE nA) /= orbT.
Qed.

Lemma key_steps n k cs : (k + n <= 7)%N -> good true s s' k cs -> key k cs ->
  exists2 cs', for_in (iota k n) (step es true s s') cs = Ret cs' & key (k + n) cs'.
Proof.
elim: n k cs => [|n IH] k cs le g ky; first by exists cs; rewrite ?addn0.
have lt : (k < 7)%N by apply: leq_trans le; rewrite addnS ltnS leq_addr.
have [cs1 E1 g1] := good_step es sz sz' lt g.
have [cs1' E1' k1] := key_step lt g ky.
have e : cs1 = cs1' by move: E1'; rewrite E1 => -[].
rewrite -e in k1.
have [|cs2 E2 g2] := IH k.+1 cs1 _ g1 k1; first by rewrite addSnnS.
by exists cs2; [rewrite /= E1 bind_ret | rewrite -addSnnS].
Qed.

Lemma key_run : exists2 cs, generate_constraints es (Circuit s s') (new_cs _ true) = Ret cs & key 7 cs.
Proof. by rewrite generateE //; apply: key_steps => //; [exact: good0 | exact: key0]. Qed.
End Circuit.

(** * The key files *)
Section Keys.
Variables (es : K -> outcome FqVar) (c : PreimageCircuit) (cs : csys).
Hypotheses (c7 : seven c) (run : generate_constraints es c (new_cs _ true) = Ret cs).

Lemma key_of A : key A 7 cs.
Proof.
move: c7 run; case: (c) => s s' /andP [/eqP z /eqP z'] E.
by have [cs2] := key_run es z z' A; rewrite E => -[<-].
Qed.

Definition pattern (A : bool) : seq bool :=
  flatten [seq flatten [seq [seq (r < depth A)%N || (r == 4%N) && (A || (j < nsb h - h.+2)%N) | r <- iota 0 5]
          | j <- iota 0 (nsb h)] | h <- iota 0 7].

Lemma map_blocks (T : Type) (f : nat -> T) n k :
  [seq f i | i <- iota n (5 * k)] = flatten [seq [seq f (n + 5 * j + r)%N | r <- iota 0 5] | j <- iota 0 k].
Proof.
elim: k n => [|k IH] n; first by rewrite muln0.
rewrite mulnS iotaD map_cat IH /= muln0 !addn0 !addn1; congr [:: _, _, _, _, _ & _]; rewrite ?addn2 ?addn3 ?addn4 //.
rewrite (iotaDl 1 0) -map_comp; congr flatten; apply: eq_map => j /=.
by rewrite mulnS !addnA !addn0.
Qed.

Lemma iota_blocks k : iota 0 (nwits k) = iota 0 7 ++ flatten [seq iota (nwits h) (5 * nsb h) | h <- iota 0 k].
Proof.
elim: k => [|k IH]; first by [].
rewrite -[nwits k.+1]/(nwits k + 5 * nsb k)%N iotaD IH -[k.+1 in RHS]addn1 iotaD map_cat flatten_cat.
by rewrite -catA /= cats0.
Qed.

Lemma witnesses_pattern A : [seq occ (side (F := K) A) (cs_cons cs) (Wit i) | i <- iota 0 2457] = nseq 7 true ++ pattern A.
Proof.
have ky := key_of A.
have -> : [seq occ (side (F := K) A) (cs_cons cs) (Wit i) | i <- iota 0 2457] =
    [seq occ (side (F := K) A) (cs_cons cs) (Wit i) | i <- iota 0 7] ++
    flatten [seq [seq occ (side (F := K) A) (cs_cons cs) (Wit i) | i <- iota (nwits h) (5 * nsb h)] | h <- iota 0 7].
  by rewrite -[2457%N]/(nwits 7) iota_blocks map_cat map_flatten -map_comp.
congr cat.
  by rewrite /= !(k_pre ky).
rewrite /pattern; congr flatten; apply/eq_in_map => h; rewrite mem_iota => /andP [_ lh].
rewrite map_blocks; congr flatten; apply/eq_in_map => j; rewrite mem_iota => /andP [_ lj].
by apply/eq_in_map => r; rewrite mem_iota => /andP [_ lr]; rewrite (k_block ky).
Qed.

Lemma n_varsE : n_vars cs = (1 + (7 + 2457))%N.
Proof. by have [e1 e2 _ _] := preimage_size c7 run; rewrite /n_vars e1 e2. Qed.
Lemma wire_one : wire_at cs 0 = One. Proof. by []. Qed.
Lemma wire_inst i : (i < 7)%N -> wire_at cs (1 + i) = Inst i.
Proof. by have [e1 _ _ _] := preimage_size c7 run => li; rewrite /= e1 li. Qed.
Lemma wire_wit i : wire_at cs (1 + (7 + i)) = Wit i.
Proof.
have [e1 _ _ _] := preimage_size c7 run; rewrite /wire_at -[(1 + (7 + i))%N]/((7 + i).+1) e1.
by rewrite ltnNge leq_addr /= addKn.
Qed.

Lemma vars_list (f : wire -> bool) : [seq f (wire_at cs i) | i <- iota 0 (n_vars cs)] =
  f One :: [seq f (Inst i) | i <- iota 0 7] ++ [seq f (Wit i) | i <- iota 0 2457].
Proof.
rewrite n_varsE iotaD map_cat -[X in _ = X]cat1s; congr cat.
rewrite add0n iotaD map_cat; congr cat.
- rewrite (iotaDl 1 0 7) -map_comp; apply/eq_in_map => i.
  by rewrite mem_iota => /andP [_ li]; rewrite -(wire_inst li).
- rewrite (iotaDl 8 0 2457) -map_comp; apply: eq_map => i.
  by rewrite -(wire_wit i).
Qed.

Lemma vars_nth (f : wire -> bool) (l : seq bool) :
  l = f One :: [seq f (Inst i) | i <- iota 0 7] ++ [seq f (Wit i) | i <- iota 0 2457] ->
  size l = n_vars cs /\ forall i, (i < n_vars cs)%N -> nth false l i = f (wire_at cs i).
Proof.
rewrite -vars_list => ->; split=> [|i li]; first by rewrite size_map size_iota.
by rewrite (nth_map 0%N) ?size_iota // nth_iota.
Qed.

Lemma pattern_A : pattern true = nseq 2450 true.
Proof. apply/eqP; vm_cast_no_check (erefl true). Qed.
Lemma b_data : b_g1_query_inf = false :: nseq 7 true ++ map negb (nseq 7 true ++ pattern false).
Proof. apply/eqP; vm_cast_no_check (erefl true). Qed.
Lemma b2_data : b_g2_query_inf = b_g1_query_inf.
Proof. apply/eqP; vm_cast_no_check (erefl true). Qed.
Lemma a_data : a_query_inf = nseq (1 + (7 + 2457)) false.
Proof. apply/eqP; vm_cast_no_check (erefl true). Qed.
Lemma l_data : l_query_inf = nseq 2457 false.
Proof. apply/eqP; vm_cast_no_check (erefl true). Qed.

Lemma in_A_wit i : (i < 2457)%N -> in_A cs (Wit i).
Proof.
move=> li; have h := witnesses_pattern true; rewrite pattern_A -nseqD in h.
have := congr1 (fun l => nth false l i) h; rewrite (nth_map 0%N) ?size_iota // nth_iota // nth_nseq li.
by [].
Qed.
Lemma in_A_inst i : (i < 7)%N -> in_A cs (Inst i).
Proof. by move=> li; have := k_inst (key_of true) i; rewrite li. Qed.

Lemma b_query : size b_g1_query_inf = n_vars cs /\
  forall i, (i < n_vars cs)%N -> nth false b_g1_query_inf i = ~~ in_B cs (wire_at cs i).
Proof.
apply: (vars_nth (f := fun w => ~~ in_B cs w)); rewrite b_data.
have ky := key_of false; congr cons; first by apply/esym/negbTE; rewrite negbK; exact: (k_one ky isT isT).
congr cat; last by rewrite -(witnesses_pattern false) -map_comp.
by rewrite [LHS](_ : _ = [seq ~~ occ (side false) (cs_cons cs) (Inst i) | i <- iota 0 7]) //= !(k_inst ky).
Qed.

Lemma a_query : size a_query_inf = n_vars cs /\
  forall i, (i < n_vars cs)%N -> nth false a_query_inf i = ~~ ((i < 1 + cs_ninst cs)%N || in_A cs (wire_at cs i)).
Proof.
rewrite a_data size_nseq n_varsE; split=> // i; have [e1 _ _ _] := preimage_size c7 run.
rewrite nth_nseq e1 if_same; case: (ltnP i 8) => //= le li; apply/esym/negbTE; rewrite negbK.
by rewrite -(subnKC le) wire_wit in_A_wit // ltn_subLR.
Qed.

Lemma l_query : size l_query_inf = cs_nwit cs /\
  forall i, (i < cs_nwit cs)%N -> nth false l_query_inf i = ~~ [|| in_A cs (Wit i), in_B cs (Wit i) | in_C cs (Wit i)].
Proof.
have [_ e2 _ _] := preimage_size c7 run; rewrite l_data size_nseq e2; split=> // i li.
by rewrite nth_nseq if_same in_A_wit.
Qed.

Lemma lengths : gamma_abc_len = (1 + cs_ninst cs)%N /\ h_query_len = (4096 - 1)%N /\
  (2048 < size (cs_cons cs) + (1 + cs_ninst cs) <= 4096)%N.
Proof. by have [-> _ -> _] := preimage_size c7 run. Qed.
End Keys.

(** * Both modes *)
Section Modes.
Variables (es : K -> outcome FqVar) (m : bool) (c : PreimageCircuit) (cs : csys).
Hypotheses (c7 : seven c) (run : generate_constraints es c (new_cs _ m) = Ret cs).

Lemma setup_cs : exists2 cs', generate_constraints es c (new_cs _ true) = Ret cs' &
  [/\ cs_cons cs' = cs_cons cs, cs_ninst cs' = cs_ninst cs & cs_nwit cs' = cs_nwit cs].
Proof. exact: (preimage_shape c7 run es true c7). Qed.

Lemma wire_at_eq (cs' : csys) : cs_ninst cs' = cs_ninst cs -> wire_at cs' =1 wire_at cs.
Proof. by move=> e [|i] //=; rewrite e. Qed.

Lemma b_query_any : b_g2_query_inf = b_g1_query_inf /\ size b_g1_query_inf = n_vars cs /\
  forall i, (i < n_vars cs)%N -> nth false b_g1_query_inf i = ~~ in_B cs (wire_at cs i).
Proof.
split; first exact: b2_data.
have [cs' run' [e1 e2 e3]] := setup_cs; have [] := b_query c7 run'.
rewrite /n_vars e2 e3 => s h; split; first exact: s.
by move=> i li; rewrite h // wire_at_eq // /in_B e1.
Qed.

Lemma a_query_any : size a_query_inf = n_vars cs /\
  forall i, (i < n_vars cs)%N -> nth false a_query_inf i = ~~ ((i < 1 + cs_ninst cs)%N || in_A cs (wire_at cs i)).
Proof.
have [cs' run' [e1 e2 e3]] := setup_cs; have [] := a_query c7 run'.
rewrite /n_vars e2 e3 => s h; split; first exact: s.
by move=> i li; rewrite h // wire_at_eq // /in_A e1.
Qed.

Lemma l_query_any : size l_query_inf = cs_nwit cs /\
  forall i, (i < cs_nwit cs)%N -> nth false l_query_inf i = ~~ [|| in_A cs (Wit i), in_B cs (Wit i) | in_C cs (Wit i)].
Proof.
have [cs' run' [e1 e2 e3]] := setup_cs; have [] := l_query c7 run'.
rewrite e3 => s h; split; first exact: s.
by move=> i li; rewrite h // /in_A /in_B /in_C e1.
Qed.

Lemma lengths_any : gamma_abc_len = (1 + cs_ninst cs)%N /\
  exists2 d : nat, h_query_len = (2 ^ d - 1)%N &
    (2 ^ d.-1 < size (cs_cons cs) + (1 + cs_ninst cs) <= 2 ^ d)%N.
Proof.
have [-> _ -> _] := preimage_size c7 run; split; first exact: erefl.
by exists 12%N; rewrite /h_query_len /=.
Qed.
End Modes.
