(** Running the generator on lists: the register eighteen bits at a time. *)
From Coq Require Import ZArith NArith Lia.
From mathcomp Require Import all_ssreflect.
From Verif Require Import GrainGen GrainSpec GrainPeriod GrainProofs.
Set Implicit Arguments.
Unset Strict Implicit.
Unset Printing Implicit Defensive.

Fixpoint xor6 (a b c d e f : bits) : bits :=
  match a, b, c, d, e, f with
  | x :: a, y :: b, z :: c, u :: d, v :: e, w :: f => x (+) y (+) z (+) u (+) v (+) w :: xor6 a b c d e f
  | _, _, _, _, _, _ => [::]
  end.
(** the next eighteen bits and the rest of the register *)
Definition block (s : bits) : bits :=
  let s13 := drop 13 s in let s23 := drop 10 s13 in let s38 := drop 15 s23 in
  let s51 := drop 13 s38 in let s62 := drop 11 s51 in
  xor6 s62 s51 s38 s23 s13 s.

Fixpoint shrink (bs : bits) : bits :=
  match bs with
  | b :: c :: bs => if b then c :: shrink bs else shrink bs
  | _ => [::]
  end.

(** the outputs of [18 * k] steps *)
Fixpoint outs (k : nat) (s : bits) : bits :=
  if k is k'.+1 then let b := block s in b ++ outs k' (drop 18 s ++ b) else [::].

Lemma size_xor6 k (a b c d e f : bits) : size a = k -> (k <= size b)%N -> (k <= size c)%N -> (k <= size d)%N ->
  (k <= size e)%N -> (k <= size f)%N -> size (xor6 a b c d e f) = k.
Proof.
elim: k a b c d e f => [|k IH] [|x a] // [|y b] // [|z c] // [|u d] // [|v e] // [|w f] //= [].
by move=> *; rewrite IH.
Qed.
Lemma nth_xor6 j (a b c d e f : bits) : (j < size a)%N -> (size a <= size b)%N -> (size a <= size c)%N -> (size a <= size d)%N ->
  (size a <= size e)%N -> (size a <= size f)%N ->
  nth false (xor6 a b c d e f) j = nth false a j (+) nth false b j (+) nth false c j (+) nth false d j (+) nth false e j (+) nth false f j.
Proof.
elim: a j b c d e f => [|x a IH] [|j] // [|y b] // [|z c] // [|u d] // [|v e] // [|w f] //=.
by move=> *; apply: IH.
Qed.

Lemma size_block s : size s = 80 -> size (block s) = 18.
Proof. by move=> E; apply: size_xor6; rewrite ?size_drop E. Qed.
Lemma nth_block s j : size s = 80 -> (j < 18)%N -> nth false (block s) j = seqb s (80 + j).
Proof.
move=> E j18; rewrite nth_xor6 ?size_drop ?E // !nth_drop [(80 + j)%N]addnC seqb_rec //.
have lt m : (m <= 62)%N -> (j + m < 80)%N by move=> h; rewrite -(addnC m) -[80%N]/(62 + 18)%N -addnS leq_add.
rewrite !seqb_init ?lt //; last by have := lt 0%N isT; rewrite addn0.
by rewrite !addnA -!(addnC j).
Qed.

Lemma block_state s : size s = 80 -> drop 18 s ++ block s = iter 18 step s.
Proof.
move=> E; apply: (@eq_from_nth _ false) => [|j]; first by rewrite size_cat size_drop size_block // size_iter // E.
rewrite size_cat size_drop size_block // E => j80.
rewrite nth_iter // nth_cat size_drop E nth_drop; case: ltnP => h.
  by rewrite seqb_init // -[80%N]/(18 + 62)%N ltn_add2l.
rewrite nth_block //; first by congr seqb; rewrite -[80%N]/(18 + 62)%N -addnA subnKC.
by rewrite ltn_subLR.
Qed.

Lemma outsE k s : size s = 80 -> outs k s = [seq seqb s (80 + i) | i <- iota 0 (18 * k)].
Proof.
elim: k s => [|k IH] s E //.
rewrite -[outs k.+1 s]/(block s ++ outs k (drop 18 s ++ block s)) block_state // IH ?size_iter //.
rewrite mulnS iotaD map_cat; congr cat.
  apply: (@eq_from_nth _ false) => [|j]; first by rewrite size_block // size_map size_iota.
  by rewrite size_block // => j18; rewrite nth_block // (nth_map 0%N) ?size_iota // nth_iota.
rewrite [(0 + 18)%N]addnC iotaDl -map_comp; apply: eq_map => i.
by rewrite /comp seqb_shift addnCA.
Qed.

Lemma shrinkE (u : nat -> bool) m : shrink [seq u (80 + i) | i <- iota 0 (2 * m)] = selected u m.
Proof.
rewrite /selected.
suff H (v w : nat -> bool) k : shrink [seq (if odd i then w i./2 else v i./2) | i <- iota (2 * k) (2 * m)] = [seq w i | i <- iota k m & v i].
  rewrite -H; congr shrink; apply: eq_map => i.
  rewrite -[in LHS](odd_double_half i) -mul2n; case: (odd i) => //.
elim: m k => [|m IH] k; first by [].
have -> : iota (2 * k) (2 * m.+1) = (2 * k :: (2 * k).+1 :: iota (2 * k.+1) (2 * m))%N by rewrite !mulnS.
have -> : iota k m.+1 = k :: iota k.+1 m by [].
rewrite !map_cons [shrink _]/= (IH k.+1) /= mul2n odd_double /= uphalf_double doubleK.
by case: (v k).
Qed.

(** ** Draws from a list of bits *)
Fixpoint l_below (retries n : nat) (p : Z) (L : bits) : option (Z * bits) :=
  if retries is retries'.+1 then
    let bs := take n L in
    if size bs == n then
      let z := int_2 bs in
      if (p <=? z)%Z then l_below retries' n p (drop n L) else Some (z, drop n L)
    else None
  else None.
Fixpoint l_constants (retries n : nat) (p : Z) (num : nat) (L : bits) : option (seq Z * bits) :=
  if num is k.+1 then
    if l_below retries n p L is Some (c, L) then
      if l_constants retries n p k L is Some (cs, L) then Some (c :: cs, L) else None
    else None
  else Some ([::], L).

Definition sim (s L : bits) : Prop := live s /\ exists m, selected (seqb s) m = L.

Lemma sim_next fuel s L k : (79 <= fuel)%N -> sim s L -> (k <= size L)%N ->
  exists2 s', next_bits fuel k s = Some (take k L, s') & sim s' (drop k L).
Proof.
move=> fu [[E nz] [m mL]] kL; have [m' [Hm' Sm']] := next_bits_ok k fu E nz.
exists (iter (2 * m') step s).
  rewrite Hm'; congr (Some (_, _)); rewrite -mL.
  case: (leqP m' m) => [/subnKC <-|/ltnW /subnKC H].
    by rewrite selectedD take_size_cat.
  have := Sm'; rewrite -{1 2}H selectedD size_cat mL => S2.
  have z : size (selected (seqb (iter (2 * m) step s)) (m' - m)) = 0%N.
    by apply/eqP; rewrite -leqn0 -(leq_add2l (size L)) S2 addn0.
  by rewrite (size0nil z) cats0 take_oversize // -S2 leq_addr.
split; first by exact: live_iter.
case: (leqP m' m) => [/subnKC H|/ltnW /subnKC H].
  by exists (m - m')%N; rewrite -mL -{2}H selectedD drop_size_cat.
exists 0%N; rewrite drop_oversize //; have := Sm'; rewrite -{1}H selectedD size_cat mL => <-; exact: leq_addr.
Qed.

Lemma sim_random fuel s L n : (79 <= fuel)%N -> (0 < n)%N -> sim s L -> size (take n L) == n ->
  exists2 s', grain_random_bits fuel n s = Some (int_2 (take n L), s') & sim s' (drop n L).
Proof.
move=> fu n0 sm; rewrite size_take => sz.
have nL : (n <= size L)%N by move: sz; case: ltnP => [/ltnW //|_ /eqP ->].
have [s' H sm'] := sim_next fu sm nL; exists s' => //.
by rewrite /grain_random_bits H; case: (n) n0.
Qed.

Section Sim.
Variables fuel n : nat.
Hypothesis fu : (79 <= fuel)%N.
Hypothesis n0 : (0 < n)%N.

Lemma l_belowE retries p s L c L' : sim s L -> l_below retries n p L = Some (c, L') ->
  exists2 s', random_below fuel retries n p s = Some (c, s') & sim s' L'.
Proof.
elim: retries s L => [//|r IH] s L sm; rewrite /l_below -/l_below /random_below -/random_below.
cbv zeta; case: ifP => // sz; have [s1 -> sm1] := sim_random fu n0 sm sz.
case: ifP => _; first exact: IH.
by case=> <- <-; exists s1.
Qed.

Lemma l_constantsE retries p num s L cs L' : sim s L -> l_constants retries n p num L = Some (cs, L') ->
  exists2 s', draw_constants fuel retries n p num s = Some (cs, s') & sim s' L'.
Proof.
elim: num s L cs L' => [|num IH] s L cs L' sm; rewrite /l_constants -/l_constants /draw_constants -/draw_constants.
  by case=> <- <-; exists s.
case E1: l_below => [[c L1]|] //; have [s1 -> sm1] := l_belowE sm E1.
case E2: l_constants => [[cs' L2]|] // [<- <-].
by have [s2 -> sm2] := IH _ _ _ _ sm1 E2; exists s2.
Qed.
End Sim.

(** the bits selected in [18 * k] steps *)
Definition l_bits (k : nat) (s : bits) : bits := shrink (outs k s).

Lemma l_bitsE m s : live s -> sim s (l_bits m.*2 s).
Proof.
move=> ls; split=> //; exists (18 * m)%N.
by rewrite /l_bits outsE ?(proj1 ls) // -shrinkE -!mul2n mulnCA.
Qed.
