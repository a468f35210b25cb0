(** The counting programs compute what the plain ones compute, at a cost that depends on the
    width and the round numbers only. *)
From Coq Require Import NArith Arith.
From mathcomp Require Import all_ssreflect all_algebra.
From Verif Require Import Base Slia Matrix Params Permutation Count CountSpec.
Set Implicit Arguments.
Unset Strict Implicit.
Unset Printing Implicit Defensive.
Import GRing.Theory.

(** * Programs with a fixed cost *)
Definition otimes (n : nat) (k : ops) : ops := Ops (n * n_mul k) (n * n_add k) (n * n_sbox k).

Lemma oadd0 o : oadd o no_ops = o.
Proof. by case: o => a b c; rewrite /oadd /= !addn0. Qed.
Lemma oaddA a b c : oadd a (oadd b c) = oadd (oadd a b) c.
Proof. by rewrite /oadd /= !addnA. Qed.

(** [m] does what [v] does, at cost [k], and a result of [v] satisfies [P]. *)
Definition runs A (m : counted A) (k : ops) (v : outcome A) (P : A -> Prop) : Prop :=
  (forall o, m o = omap (fun a => (a, oadd o k)) v) /\ (forall a, v = Ret a -> P a).

Lemma runs_free A (v : outcome A) (P : A -> Prop) :
  (forall a, v = Ret a -> P a) -> runs (free v) no_ops v P.
Proof. by move=> H; split=> // o; rewrite /free; case: (v) => //= a; rewrite oadd0. Qed.
Lemma runs_tick A k (v : outcome A) : runs (tick k v) k v (fun _ => True).
Proof. by split=> // o; rewrite /tick; case: v. Qed.
Lemma runs_ret A (a : A) (P : A -> Prop) : P a -> runs (cret a) no_ops (Ret a) P.
Proof. by move=> H; split=> [o|b [<-]] //; rewrite /cret /= oadd0. Qed.
Lemma runs_bind A B (m : counted A) k v P (f : A -> counted B) k' (g : A -> outcome B) Q :
  runs m k v P -> (forall a, P a -> runs (f a) k' (g a) Q) ->
  runs (cbind m f) (oadd k k') (bind v g) Q.
Proof.
move=> [E HP] H; split=> [o|b].
  rewrite /cbind E; case: v HP {E} => //= a /(_ a erefl) /H [-> _].
  by rewrite oaddA.
by case: v HP {E} => //= a /(_ a erefl) /H [_]; apply.
Qed.
(** Steps without field operations cost nothing *)
Lemma runs_bindf A B (v : outcome A) (P : A -> Prop) (f : A -> counted B) k' (g : A -> outcome B) Q :
  (forall a, v = Ret a -> P a) -> (forall a, P a -> runs (f a) k' (g a) Q) ->
  runs (cbind (free v) f) k' (bind v g) Q.
Proof.
move=> HP H; have -> : k' = oadd no_ops k' by case: (k').
by apply: runs_bind H; apply: runs_free.
Qed.
(** A counted operation on given values *)
Lemma runs_bindt A B k (x : A) (f : A -> counted B) k' v Q :
  runs (f x) k' v Q -> runs (cbind (tick k (Ret x)) f) (oadd k k') v Q.
Proof.
move=> [E HQ]; split=> // o; rewrite /cbind /tick E oaddA //.
Qed.
Lemma runs_for (T : eqType) S (xs : seq T) (f : T -> S -> counted S) (g : T -> S -> outcome S)
    k (I : S -> Prop) s :
  (forall x s, x \in xs -> I s -> runs (f x s) k (g x s) I) -> I s ->
  runs (cfor xs f s) (otimes (size xs) k) (for_in xs g s) I.
Proof.
elim: xs s => [|x xs IH] s H Is /=; first exact: runs_ret.
have -> : otimes (size xs).+1 k = oadd k (otimes (size xs) k) by rewrite /oadd /otimes /= !mulSn.
apply: (runs_bind (P := I)); first by apply: H; rewrite ?mem_head.
by move=> s' Is'; apply: IH => // y s'' yin; apply: H; rewrite inE yin orbT.
Qed.
Lemma runs_eq A (m : counted A) k k' v P : k = k' -> runs m k v P -> runs m k' v P.
Proof. by move=> ->. Qed.
Lemma runs_eqv A (m : counted A) k v v' P : v = v' -> runs m k v P -> runs m k v' P.
Proof. by move=> ->. Qed.

(** * The permutations *)
Section Proofs.
Variable F : fieldType.
Variable p : params F.
Hypothesis wf : wf_params p.
Local Notation t := (p_t p).
Local Notation f := (r_F (p_rounds p) %/ 2).
Local Notation r := (r_P (p_rounds p)).
Local Notation sized n := (fun st : seq F => size st = n).
Local Open Scope ring_scope.

Lemma aset_sized (st : seq F) i y n : size st = n -> forall s, aset st i y = Ret s -> sized n s.
Proof. by move=> E s H; rewrite /= (aset_size H) E. Qed.
Lemma runs_aset (st : seq F) i y n : size st = n -> runs (free (aset st i y)) no_ops (aset st i y) (sized n).
Proof. by move=> E; apply: runs_free; apply: aset_sized. Qed.

Lemma runs_sum_products (a b : seq F) n : size a = n -> size b = n ->
  runs (csum_products a b) (Ops n n 0) (Ret (sum_products a b)) (fun _ => True).
Proof.
move=> sa sb.
have sz : size (zip a b) = n by rewrite size_zip sa sb minnn.
apply: (@runs_eq _ _ (otimes (size (zip a b)) (Ops 1 1 0))).
  by rewrite sz /otimes /= muln1 muln0.
apply: (@runs_eqv _ _ _ (for_in (zip a b) (fun xy acc => Ret (acc + xy.1 * xy.2)) 0)).
  by rewrite /sum_products; elim: (zip a b) 0 => //= xy l IH z.
apply: runs_for => // xy acc _ _; apply: (runs_eq (k := oadd (Ops 1 0 0) (Ops 0 1 0))) => //.
by apply: runs_bindt; apply: runs_tick.
Qed.

Lemma runs_partial st : size st = t ->
  runs (cpartial_sub_words p st) (Ops 0 0 1) (partial_sub_words p st) (sized t).
Proof.
move=> sz; rewrite /cpartial_sub_words /partial_sub_words.
apply: (runs_bindf (P := fun _ => True)) => // x _.
apply: (runs_eq (k := oadd (Ops 0 0 1) no_ops)) => //.
apply: runs_bind; first exact: runs_tick.
by move=> y _; apply: runs_aset.
Qed.

Lemma runs_full st : size st = t ->
  runs (cfull_sub_words p st) (Ops 0 0 t) (full_sub_words p st) (sized t).
Proof.
move=> sz; rewrite /cfull_sub_words /full_sub_words.
apply: (runs_eq (k := otimes (size (range 0 t)) (Ops 0 0 1))).
  by rewrite size_range /otimes /= muln0 muln1 subn0.
apply: runs_for => // i s _ ss.
apply: (runs_bindf (P := fun _ => True)) => // x _.
apply: (runs_eq (k := oadd (Ops 0 0 1) no_ops)) => //.
apply: runs_bind; first exact: runs_tick.
by move=> y _; apply: runs_aset.
Qed.

Lemma chunks_rows (T : Type) (els : seq T) a b : (0 < b)%N -> size els = (a * b)%N ->
  exists rows, [/\ chunks b els = Ret rows, size rows = a & all (fun row => size row == b) rows].
Proof.
move=> b0 sz; pose sh := nseq a b.
have sm : sumn sh = size els by rewrite sumn_nseq mulnC sz.
have shp : shape (reshape sh els) = sh by rewrite reshapeKl // sm.
have al : all (fun row : seq T => size row == b) (reshape sh els).
  rewrite -(all_map size (fun n => n == b)) -/(shape _) shp.
  by apply/allP=> n; rewrite mem_nseq => /andP [_ ->].
exists (reshape sh els); split=> //; last by rewrite -(size_map size) -/(shape _) shp size_nseq.
by rewrite -{1}[els](@reshapeKr _ sh) ?sm //; apply: chunks_flatten.
Qed.

Lemma runs_mix m st : wf_shape t t m -> (0 < t)%N -> size st = t ->
  runs (cmix_layer p m st) (Ops (t * t) (t * t) 0) (mix_layer p m st) (sized t).
Proof.
rewrite /wf_shape => /and3P [/eqP nr /eqP nc /eqP sz] t0 ss.
rewrite /cmix_layer /mix_layer /iter_rows nc.
have [rows [-> sr al]] := chunks_rows t0 sz.
apply: (runs_bindf (P := fun x => x = rows)); first by move=> a [].
move=> _ ->.
apply: (runs_eq (k := otimes (size (enumerate rows)) (Ops t t 0))).
  by rewrite /enumerate size_zip size_iota minnn sr /otimes /= muln0.
apply: runs_for; last by rewrite size_nseq.
move=> [i row] acc /= mem sa.
have srow : size row = t.
  have: row \in rows.
    have := map_f snd mem; rewrite /enumerate -/(unzip2 _) unzip2_zip ?size_iota //.
  by move=> /(allP al) /eqP.
apply: (runs_eq (k := oadd (Ops t t 0) no_ops)); first by rewrite oadd0.
have [E _] := runs_sum_products srow ss.
split=> [o|]; last exact: aset_sized.
rewrite /cbind E /= /free; case: aset => //= a.
by rewrite /oadd /= !addn0.
Qed.

Lemma runs_constants c st : size st = t ->
  runs (cadd_constants p c st) (Ops 0 t 0) (add_constants p c st) (sized t).
Proof.
move=> sz; rewrite /cadd_constants /add_constants.
apply: (runs_eq (k := otimes (size (range 0 t)) (Ops 0 1 0))).
  by rewrite size_range /otimes /= muln0 muln1 subn0.
apply: runs_for => // i s _ ss.
apply: (runs_bindf (P := fun _ => True)) => // x _.
apply: (runs_bindf (P := fun _ => True)) => // y _.
apply: (runs_eq (k := oadd (Ops 0 1 0) no_ops)) => //.
by apply: runs_bindt; apply: runs_aset.
Qed.

Lemma runs_constants_counter rc st n : size st = t ->
  runs (cadd_constants_counter p rc (st, n)) (Ops 0 t 0) (add_constants_counter p rc (st, n))
    (fun sc => size sc.1 = t).
Proof.
move=> sz; rewrite /cadd_constants_counter /add_constants_counter.
apply: (runs_eq (k := otimes (size (range 0 t)) (Ops 0 1 0))).
  by rewrite size_range /otimes /= muln0 muln1 subn0.
apply: runs_for => // i [s c] _ /= ss.
apply: (runs_bindf (P := fun _ => True)) => // x _.
apply: (runs_bindf (P := fun _ => True)) => // y _.
apply: (runs_eq (k := oadd (Ops 0 1 0) no_ops)) => //.
apply: runs_bindt; apply: (runs_bindf (P := sized t)); first exact: aset_sized.
by move=> a sa; apply: runs_ret.
Qed.

Lemma t_pos : (0 < t)%N.
Proof. by move: wf => /andP [/eqP -> _]. Qed.
Lemma t1E : t = (p_t1 p).+1.
Proof. by move: wf => /andP [/eqP -> _]. Qed.

Lemma runs_mds st : size st = t ->
  runs (cmix_layer_mds p st) (Ops (t * t) (t * t) 0) (mix_layer_mds p st) (sized t).
Proof.
apply: runs_mix t_pos.
by move: wf => /and4P [_ H _ _].
Qed.
Lemma runs_mi st : size st = t ->
  runs (cmix_layer_mi p st) (Ops (t * t) (t * t) 0) (mix_layer_mi p st) (sized t).
Proof.
apply: runs_mix t_pos.
by move: wf => /and5P [_ _ _ _ /andP [H _]].
Qed.

Lemma aget_all (T : Type) (P : T -> bool) l i x : all P l -> aget l i = Ret x -> P x.
Proof.
elim: l i => [|y l IH] [|i] //= /andP [py al]; first by case=> <-.
exact: IH.
Qed.

Lemma aslice_size (T : Type) (l : seq T) a b x : aslice l a b = Ret x -> size x = (b - a)%N.
Proof.
rewrite /aslice; case: ifP => // /andP [ab bl] [<-].
rewrite size_take size_drop; case: ltnP => // H.
by apply/eqP; rewrite eqn_leq H leq_sub2r.
Qed.

Lemma runs_sparse n st : size st = t ->
  runs (csparse_mat_mul p n st) (Ops (2 * t - 1) (2 * t - 1) 0) (sparse_mat_mul p n st) (sized t).
Proof.
move=> ss; rewrite /csparse_mat_mul /sparse_mat_mul.
have [av aw] : all (wf_shape 1 (p_t1 p)) (om_v_collection (p_optimized_mds p)) /\
               all (wf_shape (p_t1 p) 1) (om_w_hat_collection (p_optimized_mds p)).
  by move: wf => /and5P [_ _ _ _ /and5P [_ _ H _ H']].
apply: (runs_bindf (P := fun vm => size (elements vm) = p_t1 p)).
  by move=> vm /(aget_all av) /and3P [_ _ /eqP ->]; rewrite mul1n.
move=> vm sv.
apply: (runs_eq (k := oadd (Ops (p_t1 p) (p_t1 p) 0) (oadd (Ops 1 0 0)
   (oadd (Ops (p_t1 p) (p_t1 p) 0) (oadd (Ops 0 1 0) no_ops))))).
  by rewrite t1E /oadd /=; congr Ops; slia.
apply: (runs_bind (P := sized (p_t1 p))).
  apply: (runs_eq (k := otimes (size (enumerate (elements vm))) (Ops 1 1 0))).
    by rewrite /enumerate size_zip size_iota minnn sv /otimes /= muln1 muln0.
  apply: runs_for; last by rewrite size_nseq.
  move=> [i x] acc _ /= sa.
  apply: (runs_bindf (P := fun _ => True)) => // s0 _.
  apply: (runs_bindf (P := fun _ => True)) => // si _.
  apply: (runs_eq (k := oadd (Ops 1 0 0) (oadd (Ops 0 1 0) no_ops))) => //.
  by do 2 apply: runs_bindt; apply: runs_aset.
move=> add_row sr.
apply: (runs_bindf (P := fun _ => True)) => // s0 _.
apply: (runs_bindf (P := fun wm => size (elements wm) = p_t1 p)).
  by move=> wm /(aget_all aw) /and3P [_ _ /eqP ->]; rewrite muln1.
move=> wm sw.
apply: (runs_bindf (P := sized (p_t1 p))).
  by move=> tl H; rewrite (aslice_size H) t1E subn1.
move=> tl stl; apply: runs_bindt.
rewrite -[bind (aset _ _ _) _](bind_ret (sum_products (elements wm) tl)
  (fun b => bind (aset st 0 (om_M_00 (p_optimized_mds p) * s0 + b)) _)).
apply: runs_bind; first exact: runs_sum_products.
move=> b _; apply: runs_bindt.
apply: (runs_bindf (P := sized t)); first exact: aset_sized.
move=> st' ss'.
apply: (runs_bindf (P := fun _ => True)) => // n' _.
apply: (runs_bindf (P := fun _ => True)) => // src _.
apply: (runs_bindf (P := sized (p_t1 p))).
  by move=> l H; rewrite (aslice_size H) t1E subn1.
move=> l sl; apply: runs_free => a; case: eqP => //= E [<-].
by rewrite !size_cat -E sl size_drop ss' subnn addn0 size_takel ?ss' ?t1E // add1n.
Qed.

Lemma opsE a b c a' b' c' : a = a' -> b = b' -> c = c' -> Ops a b c = Ops a' b' c'.
Proof. by move=> -> -> ->. Qed.

Lemma runs_full_round rc (sc : seq F * nat) : size sc.1 = t ->
  runs (sc <- cadd_constants_counter p rc sc ;;
        let: (st, counter) := sc in
        st <- cfull_sub_words p st ;; st <- cmix_layer_mds p st ;; cret (st, counter))%count
    (Ops (t * t) (t * t + t) t)
    (sc <- add_constants_counter p rc sc ;;
     let: (st, counter) := sc in
     st <- full_sub_words p st ;; st <- mix_layer_mds p st ;; Ret (st, counter))%rust
    (fun sc => size sc.1 = t).
Proof.
case: sc => [s n] /= ss'.
apply: (runs_eq (k := oadd (Ops 0 t 0) (oadd (Ops 0 0 t) (oadd (Ops (t * t) (t * t) 0) no_ops)))).
  by rewrite /oadd /=; apply: opsE; rewrite ?addn0 ?add0n // addnC.
apply: runs_bind; first exact: runs_constants_counter.
move=> [s' n'] /= E'; apply: runs_bind; first exact: runs_full.
move=> s2 E2; apply: runs_bind; first exact: runs_mds.
by move=> s3 E3; apply: runs_ret.
Qed.
Lemma runs_partial_round rc (sc : seq F * nat) : size sc.1 = t ->
  runs (sc <- cadd_constants_counter p rc sc ;;
        let: (st, counter) := sc in
        st <- cpartial_sub_words p st ;; st <- cmix_layer_mds p st ;; cret (st, counter))%count
    (Ops (t * t) (t * t + t) 1)
    (sc <- add_constants_counter p rc sc ;;
     let: (st, counter) := sc in
     st <- partial_sub_words p st ;; st <- mix_layer_mds p st ;; Ret (st, counter))%rust
    (fun sc => size sc.1 = t).
Proof.
case: sc => [s n] /= ss'.
apply: (runs_eq (k := oadd (Ops 0 t 0) (oadd (Ops 0 0 1) (oadd (Ops (t * t) (t * t) 0) no_ops)))).
  by rewrite /oadd /=; apply: opsE; rewrite ?addn0 ?add0n // addnC.
apply: runs_bind; first exact: runs_constants_counter.
move=> [s' n'] /= E'; apply: runs_bind; first exact: runs_partial.
move=> s2 E2; apply: runs_bind; first exact: runs_mds.
by move=> s3 E3; apply: runs_ret.
Qed.

Theorem runs_unoptimized st : size st = t ->
  runs (cunoptimized_permute p st) (Ops (base_muls t f r) (base_adds t f r) (both_sboxes t f r))
    (unoptimized_permute p st) (sized t).
Proof.
move=> ss; rewrite /cunoptimized_permute /unoptimized_permute.
apply: (runs_eq (k := oadd (otimes (size (range 0 f)) (Ops (t * t) (t * t + t) t))
   (oadd (otimes (size (range 0 r)) (Ops (t * t) (t * t + t) 1))
   (oadd (otimes (size (range 0 f)) (Ops (t * t) (t * t + t) t)) no_ops)))).
  rewrite !size_range !subn0 /oadd /otimes /= /base_muls /base_adds /both_sboxes.
  by clear; move: f r t => x y z; apply: opsE; slia.
apply: (runs_bind (P := fun sc => size sc.1 = t)).
  by apply: runs_for => // i sc _; apply: runs_full_round.
move=> sc1 E1; apply: (runs_bind (P := fun sc => size sc.1 = t)).
  by apply: runs_for => // i sc _; apply: runs_partial_round.
move=> sc2 E2; apply: (runs_bind (P := fun sc => size sc.1 = t)).
  by apply: runs_for => // i sc _; apply: runs_full_round.
by move=> sc3 E3; apply: runs_ret.
Qed.

Lemma runs_fast_partial r0 (sc : seq F * nat) : size sc.1 = t ->
  runs (let: (st, counter) := sc in
        st <- cpartial_sub_words p st ;;
        x <- free (aget st 0) ;; k <- free (get_element (p_optimized_arc p) counter.+1 0) ;;
        s <- cadd x k ;;
        st <- free (aset st 0 s) ;;
        n <- free (usub r r0) ;; n <- free (usub n 1) ;;
        st <- csparse_mat_mul p n st ;;
        cret (st, counter.+1))%count
    (Ops (2 * t - 1) (2 * t - 1).+1 1)
    (let: (st, counter) := sc in
     st <- partial_sub_words p st ;;
     x <- aget st 0 ;; k <- get_element (p_optimized_arc p) counter.+1 0 ;;
     st <- aset st 0 (x + k) ;;
     n <- usub r r0 ;; n <- usub n 1 ;;
     st <- sparse_mat_mul p n st ;;
     Ret (st, counter.+1))%rust
    (fun sc => size sc.1 = t).
Proof.
case: sc => [s n] /= ss'.
apply: (runs_eq (k := oadd (Ops 0 0 1) (oadd (Ops 0 1 0) (oadd (Ops (2 * t - 1) (2 * t - 1) 0) no_ops)))).
  by rewrite /oadd /=; apply: opsE; rewrite ?addn0 ?add0n // add1n.
apply: runs_bind; first exact: runs_partial.
move=> s' E'.
apply: (runs_bindf (P := fun _ => True)) => // x _.
apply: (runs_bindf (P := fun _ => True)) => // y _.
apply: runs_bindt; apply: (runs_bindf (P := sized t)); first exact: aset_sized.
move=> s2 E2.
apply: (runs_bindf (P := fun _ => True)) => // m _.
apply: (runs_bindf (P := fun _ => True)) => // m' _.
apply: runs_bind; first exact: runs_sparse.
by move=> s3 E3; apply: runs_ret.
Qed.
Lemma runs_fast_last (sc : seq F * nat) : size sc.1 = t ->
  runs (let: (st, counter) := sc in
        st <- cadd_constants p (get_element (p_optimized_arc p) counter) st ;;
        st <- cfull_sub_words p st ;; st <- cmix_layer_mds p st ;;
        cret (st, counter.+1))%count
    (Ops (t * t) (t * t + t) t)
    (let: (st, counter) := sc in
     st <- add_constants p (get_element (p_optimized_arc p) counter) st ;;
     st <- full_sub_words p st ;; st <- mix_layer_mds p st ;;
     Ret (st, counter.+1))%rust
    (fun sc => size sc.1 = t).
Proof.
case: sc => [s n] /= ss'.
apply: (runs_eq (k := oadd (Ops 0 t 0) (oadd (Ops 0 0 t) (oadd (Ops (t * t) (t * t) 0) no_ops)))).
  by rewrite /oadd /=; apply: opsE; rewrite ?addn0 ?add0n // addnC.
apply: runs_bind; first exact: runs_constants.
move=> s' E'; apply: runs_bind; first exact: runs_full.
move=> s2 E2; apply: runs_bind; first exact: runs_mds.
by move=> s3 E3; apply: runs_ret.
Qed.

Theorem runs_permute st : size st = t ->
  runs (cpermute p st) (Ops (fast_muls t f r) (fast_adds t f r) (both_sboxes t f r))
    (permute p st) (sized t).
Proof.
move=> ss; rewrite /cpermute /permute.
have full_round c s : size s = t ->
    runs (cbind (cadd_constants p c s) (fun s => cbind (cfull_sub_words p s) (cmix_layer_mds p)))
      (Ops (t * t) (t * t + t) t)
      (bind (add_constants p c s) (fun s => bind (full_sub_words p s) (mix_layer_mds p))) (sized t).
  move=> ss'.
  apply: (runs_eq (k := oadd (Ops 0 t 0) (oadd (Ops 0 0 t) (Ops (t * t) (t * t) 0)))).
    by rewrite /oadd /=; apply: opsE; rewrite ?addn0 ?add0n // addnC.
  apply: runs_bind; first exact: runs_constants.
  move=> s' E'; apply: runs_bind; first exact: runs_full.
  by move=> s2 E2; apply: runs_mds.
pose b := (0 < r)%N : nat.
apply: (runs_eq (k := oadd (otimes (size (range 0 f)) (Ops (t * t) (t * t + t) t))
   (oadd (Ops 0 t 0) (oadd (Ops (t * t) (t * t) 0)
   (oadd (otimes (size (range 0 (r - 1))) (Ops (2 * t - 1) (2 * t - 1).+1 1))
   (oadd (otimes b (Ops 0 0 1)) (oadd (otimes b (Ops (2 * t - 1) (2 * t - 1) 0))
   (oadd (otimes (size (range 0 f)) (Ops (t * t) (t * t + t) t)) no_ops)))))))).
  rewrite !size_range !subn0 /oadd /otimes /= /fast_muls /fast_adds /both_sboxes /b.
  clear; move: (2 * t - 1)%N f t r => v x y [|u] /=.
    by apply: opsE; slia.
  have -> : (u.+1 - 1 = u)%N by rewrite subn1.
  by apply: opsE; slia.
apply: (runs_bind (P := sized t)).
  by apply: runs_for => // i s _; apply: full_round.
move=> s1 E1; apply: runs_bind; first exact: runs_constants.
move=> s2 E2; apply: runs_bind; first exact: runs_mi.
move=> s3 E3; apply: (runs_bindf (P := fun n => n = (r - 1)%N /\ (0 < r)%N)).
  by rewrite /usub; case: ifP => // r0 n [<-].
move=> _ [-> r0]; rewrite /b r0.
apply: (runs_bind (P := fun sc => size sc.1 = t)).
  by apply: runs_for => // i s _; apply: runs_fast_partial.
move=> [s4 c4] /= E4; apply: runs_bind.
  by rewrite /otimes !mul1n; apply: runs_partial.
move=> s5 E5; apply: runs_bind.
  by rewrite /otimes !mul1n; apply: runs_sparse.
move=> s6 E6; apply: (runs_bind (P := fun sc => size sc.1 = t)).
  by apply: runs_for => // i s _; apply: runs_fast_last.
by move=> sc3 E7; apply: runs_ret.
Qed.
End Proofs.
