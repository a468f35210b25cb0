(** Which wires occur in the left and right factors of the hash gadget's
    constraints, in setup mode and for exponent 17. *)
From Coq Require Import NArith Lia.
From mathcomp Require Import all_ssreflect all_algebra.
From Verif Require Import Base Matrix MatrixProofs Params Permutation PermutationProofs.
From Verif Require Import R1cs R1csSpec R1csProofs KeySpec.
Set Implicit Arguments.
Unset Strict Implicit.
Unset Printing Implicit Defensive.
Import GRing.Theory.
Local Open Scope ring_scope.
Local Open Scope rust_scope.

Lemma same_wireP v w : reflect (v = w) (same_wire v w).
Proof.
case: v w => [|i|i] [|j|j] /=; try by constructor.
- by apply: (iffP eqP) => [->|[]].
- by apply: (iffP eqP) => [->|[]].
Qed.
Lemma same_wire_refl w : same_wire w w.
Proof. exact/same_wireP. Qed.

Section Coef.
Variable F : fieldType.
Local Notation lc := (lc F).
Local Notation fpvar := (fpvar F).
Local Notation csys := (csys F).
Implicit Types (l : lc) (w : wire) (P : wire -> bool).

Lemma coef_nil w : coef ([::] : lc) w = 0.
Proof. by rewrite /coef big_nil. Qed.
Lemma coef_cat l l' w : coef (l ++ l') w = coef l w + coef l' w.
Proof. by rewrite /coef big_cat. Qed.
Lemma coef_one k v w : coef ([:: (k, v)] : lc) w = if same_wire v w then k else 0.
Proof. by rewrite /coef big_cons big_nil /= addr0. Qed.
Lemma coef_scale l k w : coef [seq (kw.1 * k, kw.2) | kw <- l] w = k * coef l w.
Proof. by rewrite /coef big_map mulrC mulr_suml. Qed.
Lemma coef_flatten (ls : seq lc) w : coef (flatten ls) w = \sum_(l <- ls) coef l w.
Proof. by elim: ls => [|l ls IH]; rewrite /= ?coef_nil ?big_nil // coef_cat big_cons IH. Qed.

Definition supp P l : bool := all (fun kw => P kw.2) l.
Lemma coef_supp P l w : supp P l -> ~~ P w -> coef l w = 0.
Proof.
move=> + nP; elim: l => [|[k v] l IH] /=; first by rewrite coef_nil.
case/andP=> pv /IH; rewrite -cat1s coef_cat coef_one => ->.
by case: same_wireP => [e|_]; rewrite ?addr0 //; move: pv nP; rewrite /= e => ->.
Qed.
Lemma suppW P P' l : (forall w, P w -> P' w) -> supp P l -> supp P' l.
Proof. by move=> h; apply: seq.sub_all => kw; apply: h. Qed.

Definition lcof (x : fpvar) : lc := if x is Var v then a_lc v else [::].
Definition vsupp P x := supp P (lcof x).
Definition vcoef (x : fpvar) w : F := coef (lcof x) w.

Lemma add_constant_coef (v : alloc F) k w : w <> One -> coef (a_lc (add_constant v k)) w = coef (a_lc v) w.
Proof.
move=> h; rewrite /add_constant; case: eqP => //= _.
by rewrite -cats1 coef_cat coef_one; case: same_wireP => [e|_]; rewrite ?addr0 //; case: h.
Qed.
Lemma add_constant_supp P (v : alloc F) k : P One -> supp P (a_lc v) -> supp P (a_lc (add_constant v k)).
Proof. by move=> h s; rewrite /add_constant; case: eqP => //= _; rewrite /supp all_rcons h. Qed.
Lemma mul_constant_coef (v : alloc F) k w : coef (a_lc (mul_constant v k)) w = k * coef (a_lc v) w.
Proof. by rewrite /mul_constant; case: eqP => [->|_]; rewrite ?mul1r //= coef_scale. Qed.
Lemma mul_constant_supp P (v : alloc F) k : supp P (a_lc v) -> supp P (a_lc (mul_constant v k)).
Proof. by rewrite /mul_constant; case: eqP => //= _; rewrite /supp all_map. Qed.

Lemma const_mul_coef k x w : vcoef (const_mul k x) w = k * vcoef x w.
Proof. by case: x => [c|v]; rewrite /vcoef /= ?coef_nil ?mulr0 // mul_constant_coef. Qed.
Lemma const_mul_supp P k x : vsupp P x -> vsupp P (const_mul k x).
Proof. by case: x => //= v; exact: mul_constant_supp. Qed.
Lemma add_const_coef k x w : w <> One -> vcoef (fp_add_const x k) w = vcoef x w.
Proof. by case: x => [c|v] h //; rewrite /vcoef /= add_constant_coef. Qed.
Lemma add_const_supp P k x : P One -> vsupp P x -> vsupp P (fp_add_const x k).
Proof. by case: x => //= v; exact: add_constant_supp. Qed.

Variable empty_sum : F -> outcome fpvar.
Lemma fp_sum_coef (xs : seq fpvar) : has (@is_var F) xs ->
  exists v, [/\ fp_sum empty_sum xs = Ret (Var v),
    forall w, w <> One -> coef (a_lc v) w = \sum_(x <- xs) vcoef x w &
    forall P, P One -> all (vsupp P) xs -> supp P (a_lc v)].
Proof.
move=> hv; rewrite /fp_sum; set vs := pmap _ _; set k := foldl _ _ _.
have n0 : vs <> [::].
  by rewrite /vs; elim: (xs) hv => //= -[c|v] l IH.
exists (add_constant (addmany vs) k); split.
- by case: (vs) n0.
- move=> w h; rewrite add_constant_coef //= coef_flatten big_map /vs.
  elim: (xs) => [|[c|v] l IH]; rewrite /= ?big_nil // !big_cons IH //.
  by rewrite [vcoef (Constant _) _]coef_nil add0r.
- move=> P p1 h; apply: add_constant_supp => //=.
  rewrite /supp /vs; elim: (xs) h => //= -[c|v] l IH /andP [h1 h2] /=; first exact: IH.
  by rewrite all_cat IH // andbT.
Qed.

(** * One S-box *)
Definition wl (i : nat) : lc := [:: (1, Wit i)].
Definition sboxc (x : lc) (n : nat) : seq (constr F) :=
  [:: (x, x, wl n); (wl n, wl n, wl (n + 1)); (wl (n + 1), wl (n + 1), wl (n + 2));
      (wl (n + 2), wl (n + 2), wl (n + 3)); (wl (n + 3), x, wl (n + 4))].
Definition grow (cs : csys) (k : nat) (new : seq (constr F)) : csys :=
  Csys (cs_setup cs) (cs_ninst cs) (cs_inst cs) (cs_nwit cs + k) (cs_wit cs) (cs_cons cs ++ new).

Lemma alloc_mul_setup (v v' : alloc F) cs : cs_setup cs ->
  alloc_mul v v' cs = Ret (Alloc None (wl (cs_nwit cs)), grow cs 1 [:: (a_lc v, a_lc v', wl (cs_nwit cs))]).
Proof. by move=> h; rewrite /alloc_mul /new_witness h /= /enforce /grow /= h addn1 cats1. Qed.

Lemma growA cs k k' new new' : grow (grow cs k new) k' new' = grow cs (k + k') (new ++ new').
Proof. by rewrite /grow /= addnA catA. Qed.
Lemma grow0 cs : grow cs 0 [::] = cs.
Proof. by case: cs => * ; rewrite /grow /= addn0 cats0. Qed.

Lemma pow17_var (v : alloc F) cs : cs_setup cs ->
  pow_by_constant (Var v) 17 cs = Ret (Var (Alloc None (wl (cs_nwit cs + 4))), grow cs 5 (sboxc (a_lc v) (cs_nwit cs))).
Proof.
move=> h; rewrite /pow_by_constant /=.
have -> : mul_constant v (1 * 1) = v by rewrite /mul_constant mulr1 eqxx.
do 5!rewrite alloc_mul_setup //= ?bind_ret.
by rewrite !growA -!addnA.
Qed.

Definition powc (c : F) : F := match pow_by_constant (Constant c) 17 (Csys true 0 [::] 0 [::] [::]) with
  | Ret (Constant d, _) => d | _ => 0 end.
Lemma powcE (c : F) (cs : csys) : pow_by_constant (Constant c) 17 cs = Ret (Constant (powc c), cs).
Proof. by []. Qed.

Fixpoint subw (n : nat) (ws : seq fpvar) : seq fpvar :=
  match ws with
  | [::] => [::]
  | Constant c :: r => Constant (powc c) :: subw n r
  | Var _ :: r => Var (Alloc None (wl (n + 4))) :: subw (n + 5) r
  end.
Fixpoint subc (n : nat) (ws : seq fpvar) : seq (constr F) :=
  match ws with
  | [::] => [::]
  | Constant c :: r => subc n r
  | Var v :: r => sboxc (a_lc v) n ++ subc (n + 5) r
  end.
Local Notation nvar := (count (@is_var F)).

Lemma sub_all17 ws cs : cs_setup cs ->
  R1csProofs.sub_all 17 ws cs = Ret (subw (cs_nwit cs) ws, grow cs (5 * nvar ws) (subc (cs_nwit cs) ws)).
Proof.
elim: ws cs => [|[c|v] ws IH] cs h /=; first by rewrite grow0.
  by rewrite IH.
rewrite pow17_var // bind_ret IH //= growA; congr (Ret (_, grow _ _ _)).
by rewrite mulnDr.
Qed.

Lemma size_subw n ws : size (subw n ws) = size ws.
Proof. by elim: ws n => [|[c|v] ws IH] n //=; rewrite IH. Qed.
Lemma var_subw n ws : map (@is_var F) (subw n ws) = map (@is_var F) ws.
Proof. by elim: ws n => [|[c|v] ws IH] n //=; rewrite IH. Qed.

Lemma subw_low n ws i j : (i < n + 4)%N -> vcoef (nth (Constant 0) (subw n ws) j) (Wit i) = 0.
Proof.
elim: ws n j => [|[c|v] ws IH] n j lt; first by rewrite nth_nil /vcoef coef_nil.
  by case: j => [|j] /=; [rewrite /vcoef coef_nil | apply: IH].
case: j => [|j] /=; last by apply: IH; rewrite addnAC; apply: leq_trans lt (leq_addr _ _).
by rewrite /vcoef /= /wl coef_one /= eqn_leq leqNgt lt.
Qed.

Lemma subw_fresh n ws m : (m < nvar ws)%N -> exists2 j0, (j0 < size ws)%N &
  forall j, vcoef (nth (Constant 0) (subw n ws) j) (Wit (n + 5 * m + 4)) = (j == j0)%:R.
Proof.
elim: ws n m => [|[c|v] ws IH] n m //= lt.
  have [j0 l0 h] := IH n m lt; exists j0.+1 => // -[|j] /=; first by rewrite /vcoef coef_nil.
  exact: h.
case: m lt => [|m] lt.
  exists 0%N => // -[|j] /=; first by rewrite /vcoef /= coef_one /= muln0 addn0 eqxx.
  by rewrite subw_low // muln0 addn0 -addnA ltn_add2l.
have [j0 l0 h] := IH (n + 5)%N m lt; exists j0.+1 => // -[|j] /=.
  by rewrite /vcoef /= coef_one /= eqn_add2r -{1}[n]addn0 eqn_add2l.
by have := h j; rewrite -[(n + 5 + _)%N]addnA -mulnS.
Qed.

Lemma subw_supp P n ws : (forall m, (m < nvar ws)%N -> P (Wit (n + 5 * m + 4))) -> all (vsupp P) (subw n ws).
Proof.
elim: ws n => [|[c|v] ws IH] n //= h; first exact: IH.
rewrite /vsupp /supp /= (_ : P _); last by have := h 0%N isT; rewrite muln0 addn0.
by apply: IH => m lt; rewrite -[(n + 5 + _)%N]addnA -mulnS; apply: h.
Qed.

(** * Occurrences on one side *)
Variables (sel : constr F -> lc) (d : nat).
Hypothesis d4 : (d <= 4)%N.
Definition occ (c : seq (constr F)) (w : wire) : bool := has (fun c => coef (sel c) w != 0) c.
Hypothesis occ_sbox : forall x n w,
  occ (sboxc x n) w = (coef x w != 0) || has (fun r => same_wire w (Wit (n + r))) (iota 0 d).

Lemma occ_cat c c' w : occ (c ++ c') w = occ c w || occ c' w.
Proof. exact: has_cat. Qed.

Definition low (n k : nat) (w : wire) : bool :=
  has (fun j => has (fun r => same_wire w (Wit (n + 5 * j + r))) (iota 0 d)) (iota 0 k).
Lemma lowP n k w : reflect (exists j r, [/\ (j < k)%N, (r < d)%N & w = Wit (n + 5 * j + r)]) (low n k w).
Proof.
apply: (iffP hasP) => [[j]|[j [r [lj lr ->]]]].
  rewrite mem_iota => /andP [_ lj] /hasP [r]; rewrite mem_iota => /andP [_ lr] /same_wireP e.
  by exists j, r.
by exists j; rewrite ?mem_iota //; apply/hasP; exists r; rewrite ?mem_iota ?same_wire_refl.
Qed.

Lemma occ_subc n ws w : occ (subc n ws) w = has (fun x => vcoef x w != 0) ws || low n (nvar ws) w.
Proof.
elim: ws n => [|[c|v] ws IH] n //; first by rewrite /= IH /vcoef coef_nil eqxx.
cbn [subc has count is_var]; rewrite occ_cat occ_sbox IH -!orbA; congr orb; rewrite orbCA; congr orb.
rewrite /low /= muln0 addn0; congr orb; rewrite (iotaDl 1 0) has_map; apply: eq_has => j /=.
by apply: eq_has => r; rewrite mulnS addnA.
Qed.

(** * A round *)
Variable p : params F.
Hypothesis wfp : wf_params p.
Local Notation t := (p_t p).
Hypothesis alpha17 : p_alpha p = Exponent 17.
Hypothesis mds_nz : forall i, (i < t * t)%N -> nth 0 (elements (p_mds p)) i != 0.

Definition at0 (ws : seq fpvar) i := nth (Constant 0) ws i.

Lemma mix_run ws cs : size ws = t -> has (@is_var F) ws ->
  exists rs, [/\ r1cs_mix_layer_mds empty_sum p (ws, cs) = Ret (rs, cs), size rs = t, all (@is_var F) rs,
    forall i w, (i < t)%N -> w <> One ->
      vcoef (at0 rs i) w = \sum_(0 <= j < t) nth 0 (elements (p_mds p)) (i * t + j) * vcoef (at0 ws j) w &
    forall P, P One -> all (vsupp P) ws -> all (vsupp P) rs].
Proof.
move=> sz hv; rewrite /r1cs_mix_layer_mds.
have /and3P [_ wm _] := wfp.
rewrite [X in iter_rows X](wf_mkm wm) iter_rows_mkm ?(t_gt0 wfp) // !bind_ret.
pose f (i j : nat) := nth 0 (elements (p_mds p)) (i * t + j).
pose xs i := [seq const_mul xy.1 xy.2 | xy <- zip [seq f i j | j <- iota 0 t] ws].
have G i : exists v, [/\ fp_sum empty_sum (xs i) = Ret (Var v),
    forall w, w <> One -> coef (a_lc v) w = \sum_(0 <= j < t) f i j * vcoef (at0 ws j) w &
    forall P, P One -> all (vsupp P) ws -> supp P (a_lc v)].
  have szr : size [seq f i j | j <- iota 0 t] = size ws by rewrite size_map size_iota.
  have [|v [E1 E2 E3]] := @fp_sum_coef (xs i).
    rewrite /xs; elim: (map _ _) (ws) szr hv => [|k r IH] [|x s] //= [sr].
    by rewrite is_var_const_mul => /orP [->|/IH ->]; rewrite ?orbT.
  exists v; split=> // [w h|P p1 h].
  - rewrite E2 // /xs big_map (big_nth (0, Constant 0)) size_zip size_map size_iota sz minnn.
    rewrite big_nat [RHS]big_nat; apply: eq_bigr => j /andP [_ lj].
    by rewrite nth_zip //= const_mul_coef (nth_map 0%N) ?size_iota // nth_iota.
  - apply: E3 => //; rewrite /xs; elim: (map _ _) (ws) szr h => [|k r IH] [|x s] //= [sr] /andP [h1 h2].
    by rewrite const_mul_supp // IH.
pose g i := match fp_sum empty_sum (xs i) with Ret r => r | Panic => Constant 0 end.
have gE i : fp_sum empty_sum (xs i) = Ret (g i) by rewrite /g; case: (G i) => r [->].
exists [seq g i | i <- iota 0 t]; split.
- rewrite for_in_map.
  suff gen acc s : for_in s (fun (x : nat) (acc : seq fpvar) => r <- fp_sum empty_sum (xs x) ;; Ret (rcons acc r)) acc
       = Ret (acc ++ [seq g i | i <- s]) by rewrite gen.
  elim: s acc => [|i s IH] acc; first by rewrite cats0.
  by cbn [for_in]; rewrite gE !bind_ret IH cat_rcons.
- by rewrite size_map size_iota.
- by rewrite all_map; apply/allP => i _ /=; rewrite /g; case: (G i) => v [->].
- move=> i w lt h; rewrite /at0 (nth_map 0%N) ?size_iota // nth_iota // add0n /g.
  by case: (G i) => v [-> + _]; apply.
- move=> P p1 h; rewrite all_map; apply/allP => i _ /=; rewrite /g.
  by case: (G i) => v [-> _]; apply.
Qed.

Lemma add_run n ws cs : (n + t <= size (elements (p_arc p)))%N -> size ws = t ->
  exists2 ks, size ks = t & r1cs_add_constants p (elements (p_arc p)) (ws, cs, n)
    = Ret ([seq fp_add_const xk.1 xk.2 | xk <- zip ws ks], cs, (n + t)%N).
Proof.
rewrite /r1cs_add_constants /range subn0; set rc := elements _.
move=> le sz; move: le; rewrite -sz => le {sz}.
pose body := (fun (i : nat) (sc : rstate F * nat) => let: (ws0, cs0, counter) := sc in
  x <- aget ws0 i ;; k <- aget rc counter ;;
  ws1 <- aset ws0 i (fp_add_const x k) ;; Ret (ws1, cs0, counter.+1)).
suff gen pre : exists2 ks, size ks = size ws &
    for_in (iota (size pre) (size ws)) body (pre ++ ws, cs, n) =
      Ret (pre ++ [seq fp_add_const xk.1 xk.2 | xk <- zip ws ks], cs, (n + size ws)%N).
  by have [ks s1 E] := gen [::]; exists ks.
elim: ws n pre le => [|x ws IH] n pre le /=; first by exists [::]; rewrite ?addn0.
rewrite /= addnS -addSn in le *.
have lt : (n < size rc)%N by apply: leq_trans le; rewrite ltnS leq_addr.
have [ks s1 E] := IH n.+1 (rcons pre (fp_add_const x (nth 0 rc n))) le.
rewrite size_rcons in E.
exists (nth 0 rc n :: ks); first by rewrite /= s1.
rewrite (aget_nth (Constant 0)) ?nth_cat ?ltnn ?subnn /=; last by rewrite size_cat /= addnS ltnS leq_addr.
by rewrite (aget_nth 0) // bind_ret aset_cat !bind_ret -cat_rcons E cat_rcons.
Qed.

(** The hash starts with [n0] witnesses; its words mention those of them that
    satisfy [P0].  [c0] are the constraints before it. *)
Variables (n0 : nat) (P0 : nat -> bool) (c0 : seq (constr F)).
Hypothesis P0_lt : forall i, P0 i -> (i < n0)%N.

(** Outputs of the first [c] S-boxes *)
Definition okw (c : nat) (w : wire) : bool :=
  match w with One => true | Inst _ => false
  | Wit i => P0 i || has (fun j => i == n0 + 5 * j + 4)%N (iota 0 c) end.
Definition y (j : nat) : wire := Wit (n0 + 5 * j + 4).

Lemma okw_wit c i : okw c (Wit i) -> P0 i \/ exists2 j, (j < c)%N & i = (n0 + 5 * j + 4)%N.
Proof.
case/orP=> [|/hasP [j]]; first by left.
by rewrite mem_iota => /andP [_ lj] /eqP ->; right; exists j.
Qed.
Lemma okw_y c j : (j < c)%N -> okw c (y j).
Proof. by move=> lj; apply/orP; right; apply/hasP; exists j; rewrite ?mem_iota. Qed.
Lemma okwW c c' w : (c <= c')%N -> okw c w -> okw c' w.
Proof.
case: w => // i le /okw_wit [h|[j lj ->]]; first by rewrite /= h.
exact/okw_y/(leq_trans lj le).
Qed.
Lemma not_okw c j r : (r < 4)%N || (c <= j)%N -> (r < 5)%N -> ~~ okw c (Wit (n0 + 5 * j + r)).
Proof.
move=> h l5; apply/negP => /okw_wit [/P0_lt|[j' lj]].
  by rewrite ltnNge -addnA leq_addr.
by move: h lj l5 => /orP [] /leP + /leP + /leP; rewrite -!plusE -!multE; lia.
Qed.
Lemma not_okw_high c i : (n0 + 5 * c <= i)%N -> ~~ okw c (Wit i).
Proof.
move=> /leP h; apply/negP => /okw_wit [/P0_lt/ltP|[j' /ltP]]; move: h; rewrite -!plusE -!multE; lia.
Qed.

Record inv (f : bool) (a c : nat) (ws : seq fpvar) (cs : csys) : Prop := Inv {
  i_setup : cs_setup cs;
  i_nwit : cs_nwit cs = (n0 + 5 * c)%N;
  i_le : (a <= c)%N;
  i_size : size ws = t;
  i_supp : all (vsupp (okw c)) ws;
  i_low : forall j r, (j < c)%N -> (r < d)%N -> occ (cs_cons cs) (Wit (n0 + 5 * j + r));
  i_mid : forall j r, (j < c)%N -> (d <= r)%N -> (r < 4)%N -> ~~ occ (cs_cons cs) (Wit (n0 + 5 * j + r));
  i_old : forall j, (j < a)%N -> occ (cs_cons cs) (y j);
  i_new : forall j, (a <= j)%N -> (j < c)%N -> ~~ occ (cs_cons cs) (y j);
  i_pend : forall j i, (a <= j)%N -> (j < c)%N -> (i < t)%N -> vcoef (at0 ws i) (y j) != 0;
  i_above : forall i, (n0 + 5 * c <= i)%N -> ~~ occ (cs_cons cs) (Wit i);
  i_inst : forall i, occ (cs_cons cs) (Inst i) = occ c0 (Inst i);
  i_keep : forall i, (i < n0)%N -> ~~ P0 i -> occ (cs_cons cs) (Wit i) = occ c0 (Wit i);
  i_first : f -> forall i, P0 i -> occ (cs_cons cs) (Wit i) }.

Lemma supp_at P ws i : all (vsupp P) ws -> vsupp P (at0 ws i).
Proof. by rewrite /at0; elim: ws i => [|x ws IH] [|i] //= /andP [h1 h2] //; exact: IH. Qed.
Lemma has_at (q : fpvar -> bool) ws i : (i < size ws)%N -> q (at0 ws i) -> has q ws.
Proof.
rewrite /at0; elim: ws i => [|x ws IH] [|i] //=; first by move=> _ ->.
by rewrite ltnS => lt h; rewrite (IH i) ?orbT.
Qed.
Lemma has_zero P ws w : all (vsupp P) ws -> ~~ P w -> has (fun x => vcoef x w != 0) ws = false.
Proof.
move=> + nP; elim: ws => //= x ws IH /andP [h1 h2].
by rewrite IH // orbF /vcoef (coef_supp h1 nP) eqxx.
Qed.

(** Adding constants changes nothing. *)
Lemma inv_add f a c ws cs ks : inv f a c ws cs -> size ks = t ->
  inv f a c [seq fp_add_const xk.1 xk.2 | xk <- zip ws ks] cs.
Proof.
move=> I sk; have sz := i_size I.
have A i : (i < t)%N -> exists k, at0 [seq fp_add_const xk.1 xk.2 | xk <- zip ws ks] i = fp_add_const (at0 ws i) k.
  move=> lt; exists (nth 0 ks i); rewrite /at0 (nth_map (Constant 0, 0)) ?size_zip ?sz ?sk ?minnn //.
  by rewrite nth_zip ?sz ?sk.
split; try by case: I.
- by rewrite size_map size_zip sz sk minnn.
- elim: (ws) (ks) (i_supp I) => [|x l IH] [|k l'] //= /andP [h1 h2].
  by rewrite add_const_supp // IH.
- by move=> j i l1 l2 li; have [k ->] := A i li; rewrite add_const_coef //; apply: (i_pend I).
Qed.

(** What the two S-box layers have in common *)
Lemma inv_sub (f f' : bool) a c ws cs ws2 K new (sub : seq fpvar) :
  inv f a c ws cs -> (0 < K)%N -> size ws2 = t -> has (@is_var F) ws2 -> all (vsupp (okw (c + K))) ws2 ->
  all (vsupp (okw c)) sub ->
  (forall w, vcoef (at0 ws 0) w != 0 -> has (fun x => vcoef x w != 0) sub) ->
  (forall w, occ new w = has (fun x => vcoef x w != 0) sub || low (n0 + 5 * c) K w) ->
  (forall m, (c <= m)%N -> (m < c + K)%N -> exists2 j0, (j0 < t)%N &
     forall j, (j < t)%N -> vcoef (at0 ws2 j) (y m) = (j == j0)%:R) ->
  (f' -> forall i, P0 i -> occ (cs_cons cs) (Wit i) || has (fun x => vcoef x (Wit i) != 0) sub) ->
  exists rs, [/\ r1cs_mix_layer_mds empty_sum p (ws2, grow cs (5 * K) new) = Ret (rs, grow cs (5 * K) new),
    all (@is_var F) rs & inv f' c (c + K) rs (grow cs (5 * K) new)].
Proof.
move=> I K0 sz2 hv2 supp2 ssub h0 hnew hfresh hfirst.
have [rs [E szr vr cr sr]] := mix_run (grow cs (5 * K) new) sz2 hv2.
exists rs; split=> //.
have notlow j r : (j < c)%N -> (r < 5)%N -> low (n0 + 5 * c) K (Wit (n0 + 5 * j + r)) = false.
  move=> /ltP lj /ltP lr; apply/negP => /lowP [j' [r' [_ _ []]]].
  by rewrite -!plusE -!multE; lia.
have lowold i : (i < n0)%N -> low (n0 + 5 * c) K (Wit i) = false.
  move=> /ltP lj; apply/negP => /lowP [j' [r' [_ _ []]]].
  by rewrite -!plusE -!multE; lia.
have split_j j : (j < c + K)%N -> (j < c)%N \/ exists2 m, (m < K)%N & j = (c + m)%N.
  move=> lj; case: (ltnP j c) => [|le]; first by left.
  by right; exists (j - c)%N; rewrite ?subnKC // ltn_subLR.
split.
- exact: (i_setup I).
- by rewrite /= (i_nwit I) mulnDr addnA.
- exact: leq_addr.
- by [].
- exact: sr.
- move=> j r lj lr; rewrite /= occ_cat hnew; case: (split_j j lj) => [{}lj|[m lm ->]].
    by rewrite (i_low I).
  by apply/orP; right; apply/orP; right; apply/lowP; exists m, r; rewrite mulnDr addnA.
- move=> j r lj dr lr; rewrite /= occ_cat hnew (has_zero ssub) ?not_okw ?lr ?(ltn_trans lr) //=.
  case: (split_j j lj) => [{}lj|[m lm ->]].
    by rewrite (negbTE (i_mid I lj dr lr)) notlow // (ltn_trans lr).
  rewrite (negbTE (i_above I _)) /=; last by rewrite mulnDr addnA -addnA leq_addr.
  apply/negP => /lowP [j' [r' [_ /ltP lr' []]]]; rewrite -!plusE -!multE.
  by move: dr lr d4 => /leP dr /ltP lr /leP; lia.
- move=> j lj; rewrite /= occ_cat hnew; case: (ltnP j a) => la; first by rewrite (i_old I).
  by rewrite h0 ?orbT //; apply: (i_pend I) => //; exact: t_gt0.
- move=> j le lj; rewrite /= occ_cat hnew (has_zero ssub) /=; last by apply: not_okw; rewrite ?le ?orbT.
  rewrite (negbTE (i_above I _)) /=; last by apply/leP; move: le => /leP; rewrite -!plusE -!multE; lia.
  apply/negP => /lowP [j' [r' [_ /ltP lr' []]]]; rewrite -!plusE -!multE.
  by move: d4 => /leP; lia.
- move=> j i lc lj li; rewrite cr // /y.
  have [j0 l0 hj] := hfresh j lc lj.
  rewrite big_mkord (bigD1 (Ordinal l0)) //= hj // eqxx mulr1 big1 ?addr0.
    apply: mds_nz.
    by apply: (@leq_trans (i * t + t)%N); rewrite ?ltn_add2l // addnC -mulSn leq_mul2r li orbT.
  move=> j' ne; rewrite hj // (_ : (_ == j0) = false) ?mulr0 //.
  by apply: negbTE; apply: contraNneq ne => e; apply/eqP/val_inj.
- move=> i le; have le' : (n0 + 5 * c <= i)%N by apply: leq_trans le; rewrite leq_add2l leq_mul2l leq_addr.
  rewrite /= occ_cat hnew (has_zero ssub) ?not_okw_high //= (negbTE (i_above I le')) /=.
  apply/negP => /lowP [j' [r' [/ltP lj' /ltP lr' [e]]]]; move: le d4 => /leP + /leP; rewrite e -!plusE -!multE.
  by lia.
- move=> i; rewrite /= occ_cat hnew (has_zero ssub) //= (i_inst I) (_ : low _ _ _ = false) ?orbF //.
  by apply/negP => /lowP [j' [r' []]].
- move=> i li np; rewrite /= occ_cat hnew lowold // (has_zero ssub) /= ?orbF ?(i_keep I) //.
  apply/negP => /okw_wit [h|[j _ e]]; first by rewrite h in np.
  by move: li; rewrite e ltnNge -addnA leq_addr.
- move=> h i pi; rewrite /= occ_cat hnew orbA; apply/orP; left; exact: hfirst.
Qed.
Local Notation fround := (rround empty_sum p (r1cs_full_sub_words p)).
Local Notation pround := (rround empty_sum p (r1cs_partial_sub_words p)).
Local Notation arc := (elements (p_arc p)).

Lemma full_step f a c ws cs n : inv f a c ws cs -> has (@is_var F) ws -> (n + t <= size arc)%N ->
  (~~ f -> forall i, P0 i -> has (fun x => vcoef x (Wit i) != 0) ws) ->
  exists rs cs', [/\ fround (ws, cs, n) = Ret (rs, cs', (n + t)%N), all (@is_var F) rs,
    exists k new, cs' = grow cs k new & inv true c (c + nvar ws) rs cs'].
Proof.
move=> I hv le hf; have [ks sk E1] := add_run cs le (i_size I).
set ws1 := [seq _ | _ <- _] in E1.
have I1 := inv_add I sk; rewrite -/ws1 in I1.
have sk' : size ks = size ws by rewrite sk (i_size I).
have mv : map (@is_var F) ws1 = map (@is_var F) ws.
  rewrite /ws1; elim: (ws) (ks) sk' => [|x l IH] [|k l'] //= [] sl.
  by rewrite is_var_add_const IH.
have nv : nvar ws1 = nvar ws by rewrite -!(count_map (@is_var F) id) mv.
have hv1 : has (@is_var F) ws1 by rewrite -(has_map (@is_var F) id) mv has_map.
have K0 : (0 < nvar ws1)%N by rewrite -has_count.
have [||||||||rs [E2 vr I2]] := @inv_sub f true a c ws1 cs (subw (cs_nwit cs) ws1) (nvar ws1) (subc (cs_nwit cs) ws1) ws1 I1 K0.
- by rewrite size_subw (i_size I1).
- by rewrite -(has_map (@is_var F) id) var_subw mv has_map.
- apply: subw_supp => m lm; have := @okw_y (c + nvar ws1) (c + m); rewrite /y ltn_add2l => /(_ lm).
  by rewrite (i_nwit I) mulnDr addnA.
- exact: (i_supp I1).
- by move=> w; apply: has_at; rewrite (i_size I1); exact: t_gt0.
- by move=> w; rewrite occ_subc (i_nwit I).
- move=> m lc lm; have lm' : (m - c < nvar ws1)%N by rewrite ltn_subLR.
  have [j0 l0 h] := subw_fresh (cs_nwit cs) lm'; rewrite (i_size I1) in l0; exists j0 => // j _.
  by have := h j; rewrite (i_nwit I) -[(n0 + 5 * c + _)%N]addnA -mulnDr subnKC.
- move=> _ i pi; case: f {I1} I hf => [I _|I hf]; first by rewrite (i_first I).
  apply/orP; right; have := hf isT i pi; rewrite /ws1.
  elim: (ws) (ks) sk' => [|x l IH] [|k l'] //= [] sl.
  by rewrite add_const_coef // => /orP [->//|h]; rewrite IH ?orbT.
exists rs, (grow cs (5 * nvar ws1) (subc (cs_nwit cs) ws1)); split=> //.
- rewrite /rround E1 bind_ret (r1cs_full_loop alpha17) ?(i_size I1) // sub_all17 ?(i_setup I) // bind_ret.
  by rewrite E2 bind_ret.
- by eexists; eexists.
- by rewrite -nv.
Qed.

Lemma partial_step a c ws cs n : inv true a c ws cs -> all (@is_var F) ws -> (n + t <= size arc)%N ->
  exists rs cs', [/\ pround (ws, cs, n) = Ret (rs, cs', (n + t)%N), all (@is_var F) rs,
    exists k new, cs' = grow cs k new & inv true c c.+1 rs cs'].
Proof.
move=> I hv le; have [ks sk E1] := add_run cs le (i_size I).
set ws1 := [seq _ | _ <- _] in E1.
have I1 := inv_add I sk; rewrite -/ws1 in I1.
have hv1 : all (@is_var F) ws1.
  rewrite /ws1; elim: (ws) (ks) hv => [|x l IH] [|k l'] //= /andP [h1 h2].
  by rewrite is_var_add_const h1 IH.
case E0 : ws1 hv1 => [|x l].
  by move: (i_size I1) (t_gt0 wfp); rewrite E0 => <-.
case/andP; case: x E0 => // v E0 _ hl.
have cn : cs_nwit cs = (n0 + 5 * c)%N := i_nwit I.
have [||||||||rs [E2 vr I2]] := @inv_sub true true a c ws1 cs (Var (Alloc None (wl (cs_nwit cs + 4))) :: l) 1
    (sboxc (a_lc v) (cs_nwit cs)) [:: Var v] I1 isT.
- by rewrite -(i_size I1) E0.
- by [].
- apply/andP; split.
    by have := @okw_y (c + 1) c; rewrite addn1 ltnSn cn /vsupp /supp /= => ->.
  move: (i_supp I1); rewrite E0 => /andP [_]; apply: seq.sub_all => x; apply: suppW => w.
  by apply: okwW; rewrite leq_addr.
- by move: (i_supp I1); rewrite E0 /= andbT => /andP [].
- by move=> w; rewrite E0 /= orbF.
- by move=> w; rewrite occ_sbox /= orbF /low /= orbF muln0 addn0 cn.
- move=> m lc lm; have -> : m = c by apply/eqP; rewrite eqn_leq lc andbT -ltnS -[c.+1]addn1.
  exists 0%N; first exact: t_gt0.
  case=> [|j] lj; first by rewrite /vcoef /= /wl coef_one cn /y same_wire_refl.
  have h := supp_at j.+1 (i_supp I1); rewrite E0 in h.
  rewrite -[at0 _ _]/(at0 (Var v :: l) j.+1) /vcoef (coef_supp h) //.
  by apply: not_okw => //; rewrite leqnn orbT.
- by move=> _ i pi; rewrite (i_first I).
exists rs, (grow cs (5 * 1) (sboxc (a_lc v) (cs_nwit cs))); split=> //.
- rewrite /rround E1 bind_ret /r1cs_partial_sub_words alpha17 E0 [aget _ _]/= bind_ret.
  by rewrite pow17_var ?(i_setup I) // bind_ret [aset _ _ _]/= !bind_ret E2 bind_ret.
- by eexists; eexists.
- by rewrite -addn1.
Qed.

(** * The permutation *)
Lemma full_loop (l : seq nat) a c ws cs n : inv true a c ws cs -> all (@is_var F) ws -> (n + size l * t <= size arc)%N ->
  exists rs cs', [/\ for_in l (fun=> fround) (ws, cs, n) = Ret (rs, cs', (n + size l * t)%N), all (@is_var F) rs &
    inv true (if size l is m.+1 then c + m * t else a)%N (c + size l * t) rs cs'].
Proof.
elim: l a c ws cs n => [|x l IH] a c ws cs n I hv le.
  by exists ws, cs; rewrite /= !addn0.
have nv : nvar ws = t by apply/eqP; rewrite -(i_size I) -all_count.
have hv' : has (@is_var F) ws by rewrite has_count nv; exact: t_gt0.
have le1 : (n + t <= size arc)%N by apply: leq_trans le; rewrite /= mulSn leq_add2l leq_addr.
have [//|rs1 [cs1 [E1 v1 _ I1]]] := full_step I hv' le1.
rewrite nv in I1.
have [|rs2 [cs2 [E2 v2 I2]]] := IH _ _ _ _ (n + t)%N I1 v1; first by rewrite -addnA -mulSn.
exists rs2, cs2; split=> //=.
- by rewrite E1 bind_ret E2 -addnA -mulSn.
- move: I2; rewrite -addnA -mulSn; case: (size l) => [|m]; rewrite ?mul0n ?addn0 //.
  by rewrite -addnA -mulSn.
Qed.

Lemma partial_loop (l : seq nat) a c ws cs n : inv true a c ws cs -> all (@is_var F) ws -> (n + size l * t <= size arc)%N ->
  exists rs cs', [/\ for_in l (fun=> pround) (ws, cs, n) = Ret (rs, cs', (n + size l * t)%N), all (@is_var F) rs &
    inv true (if size l is m.+1 then c + m else a)%N (c + size l) rs cs'].
Proof.
elim: l a c ws cs n => [|x l IH] a c ws cs n I hv le.
  by exists ws, cs; rewrite /= !addn0.
have le1 : (n + t <= size arc)%N by apply: leq_trans le; rewrite /= mulSn leq_add2l leq_addr.
have [rs1 [cs1 [E1 v1 _ I1]]] := partial_step I hv le1.
have [|rs2 [cs2 [E2 v2 I2]]] := IH _ _ _ _ (n + t)%N I1 v1; first by rewrite -addnA -mulSn.
exists rs2, cs2; split=> //=.
- by rewrite E1 bind_ret E2 -addnA -mulSn.
- move: I2; rewrite addSnnS; case: (size l) => [|m]; rewrite ?addn0 //.
  by rewrite addSnnS.
Qed.

Hypothesis rounds31 : p_rounds p = RoundNumbers 31 8.
Lemma permute_key ws cs : cs_setup cs -> cs_nwit cs = n0 -> size ws = t -> has (@is_var F) ws ->
  all (vsupp (okw 0)) ws -> cs_cons cs = c0 ->
  (forall i, P0 i -> has (fun x => vcoef x (Wit i) != 0) ws) ->
  (forall i, (n0 <= i)%N -> ~~ occ c0 (Wit i)) ->
  exists rs cs', r1cs_permute empty_sum p (ws, cs) = Ret (rs, cs') /\
    inv true (nvar ws + 6 * t + 31) (nvar ws + 7 * t + 31) rs cs'.
Proof.
move=> su nw sz hv sp ec h0 hab.
have I0 : inv false 0 0 ws cs by split; rewrite ?ec ?muln0 ?addn0.
have sa := size_arc wfp; rewrite rounds31 [r_P _]/= [r_F _]/= in sa.
have t0 := t_gt0 wfp.
have [||rs1 [cs1 [E1 v1 _ I1]]] := full_step (n := 0) I0 hv.
- by rewrite sa add0n leq_pmull.
- by move=> _; exact: h0.
rewrite !add0n in E1 I1.
have [|rs2 [cs2 [E2 v2 I2]]] := @full_loop (iota 1 3) _ _ _ _ t I1 v1.
  by rewrite sa -mulSn leq_mul2r orbT.
have [|rs3 [cs3 [E3 v3 I3]]] := @partial_loop (iota 0 31) _ _ _ _ (t + 3 * t)%N I2 v2.
  by rewrite sa -mulSn -mulnDl leq_mul2r orbT.
have [|rs4 [cs4 [E4 v4 I4]]] := @full_loop (iota 0 4) _ _ _ _ (t + 3 * t + 31 * t)%N I3 v3.
  by rewrite sa -mulSn -!mulnDl leq_mul2r orbT.
exists rs4, cs4; split.
  rewrite /r1cs_permute rounds31; cbn [r_F r_P]; rewrite -[(8 %/ 2)%N]/4%N /range !subn0.
  have E0 : for_in (iota 0 4) (fun=> fround) (ws, cs, 0%N) = Ret (rs2, cs2, (t + 3 * t)%N).
    rewrite -[iota 0 4]/(0%N :: iota 1 3) -E2 -[RHS](bind_ret _ (for_in (iota 1 3) (fun=> fround))) -E1.
    by [].
  by rewrite [X in bind X]E0 bind_ret [X in bind X]E3 bind_ret [X in bind X]E4.
move: I4; congr (inv _ _ _ _ _); rewrite !size_iota.
- by rewrite addnAC -addnA -!plusE -!multE; move: (nvar ws) (t) => X Y; lia.
- by rewrite -!plusE -!multE; move: (nvar ws) (t) => X Y; lia.
Qed.
End Coef.
