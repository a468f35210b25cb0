(** The generator of [GrainGen.v]: the register, the selected bits, the constants and the
    candidate matrices. *)
From Coq Require Import ZArith NArith Lia.
From mathcomp Require Import all_ssreflect.
From Verif Require Import GrainGen GrainSpec GrainPeriod.
Set Implicit Arguments.
Unset Strict Implicit.
Unset Printing Implicit Defensive.

Definition step (s : bits) : bits := (shift s).2.
Definition seqb (s : bits) (k : nat) : bool := nth false (iter k step s) 0.

Lemma size_step s : (0 < size s)%N -> size (step s) = size s.
Proof. by case: s => //= b s _; rewrite size_rcons. Qed.
Lemma size_iter k s : size s = 80 -> size (iter k step s) = 80.
Proof. by move=> E; elim: k => //= k IH; rewrite size_step ?IH. Qed.

Lemma nth_step s j : size s = 80 -> (j < 79)%N -> nth false (step s) j = nth false s j.+1.
Proof. by case: s => //= b s [E] j79; rewrite nth_rcons E j79. Qed.
Lemma last_step s : size s = 80 -> nth false (step s) 79 = (shift s).1.
Proof. by case: s => //= b s [E]; rewrite nth_rcons E. Qed.

Lemma nth_iter s k j : size s = 80 -> (j < 80)%N -> nth false (iter k step s) j = seqb s (k + j).
Proof.
move=> E; elim: j k => [|j IH] k j80; first by rewrite addn0.
by rewrite -nth_step ?size_iter // -iterS IH ?addSnnS // ltnW.
Qed.

Lemma seqb_init s j : size s = 80 -> (j < 80)%N -> seqb s j = nth false s j.
Proof. by move=> E j80; rewrite -(nth_iter 0 E). Qed.

Lemma seqb_shift s m k : seqb (iter m step s) k = seqb s (m + k).
Proof. by rewrite /seqb -iterD addnC. Qed.

Lemma out_iter s k : size s = 80 -> (shift (iter k step s)).1 = seqb s (k + 80).
Proof. by move=> E; rewrite -last_step ?size_iter // -iterS nth_iter // addSnnS. Qed.

Lemma seqb_rec s k : size s = 80 ->
  seqb s (k + 80) = seqb s (k + 62) (+) seqb s (k + 51) (+) seqb s (k + 38) (+) seqb s (k + 23) (+) seqb s (k + 13) (+) seqb s k.
Proof. by move=> E; rewrite -out_iter // /= /new_bit_of !nth_iter // addn0. Qed.

Lemma rec_seqb s : size s = 80 -> rec (seqb s).
Proof.
move=> E k.
have -> : Pmask = N.lxor (mono 80) (N.lxor (mono 62) (N.lxor (mono 51) (N.lxor (mono 38) (N.lxor (mono 23) (N.lxor (mono 13) (mono 0)))))) by vm_compute.
rewrite !act_lxor !act_mono seqb_rec // addn0.
by case: (seqb s (k + 62)); case: (seqb s (k + 51)); case: (seqb s (k + 38)); case: (seqb s (k + 23));
  case: (seqb s (k + 13)); case: (seqb s k).
Qed.

(** ** The register *)
Lemma state_ext s t : size s = 80 -> size t = 80 -> (forall j, (j < 80)%N -> seqb s j = seqb t j) -> s = t.
Proof.
move=> Es Et H; apply: (@eq_from_nth _ false) => [|j]; first by rewrite Es Et.
by rewrite Es => j80; rewrite -!seqb_init ?H.
Qed.

Lemma iter_period n s : size s = 80 -> (forall k, seqb s (k + n) = seqb s k) -> iter n step s = s.
Proof.
move=> E H; apply: state_ext => // [|j _]; first exact: size_iter.
by rewrite seqb_shift addnC.
Qed.

Lemma full_iter s : size s = 80 -> iter (Pos.to_nat full) step s = s.
Proof. by move=> E; exact (iter_period E (fun k => full_period k (rec_seqb E))). Qed.

Definition zero : bits := nseq 80 false.
Lemma seqb_zero k : seqb zero k = false.
Proof.
rewrite /seqb; have -> : iter k step zero = zero; last by [].
by elim: k => //= k ->.
Qed.

Lemma min_iter s d : size s = 80 -> s <> zero -> (0 < d < Pos.to_nat full)%N -> iter d step s <> s.
Proof.
move=> E nz dn P; apply: nz; apply: state_ext => // j _; rewrite seqb_zero.
apply: (min_period (rec_seqb E) dn) => k.
by rewrite -{2}P seqb_shift addnC.
Qed.

Lemma full80 : (80 <= Pos.to_nat full)%N.
Proof. by apply/leP; apply/Nat2Z.inj_le; rewrite positive_nat_Z. Qed.

Lemma zero_back_gen n s k : (0 < n)%N -> iter n step s = s -> iter k step s = zero -> s = zero.
Proof.
move=> n0 Hn P; have H m : iter (k + m) step s = zero.
  by rewrite addnC iterD P; elim: m => //= m ->.
have K m : iter (m * n) step s = s by elim: m => // m IH; rewrite mulSn iterD IH.
by rewrite -(K k); have : (k <= k * n)%N; [rewrite leq_pmulr|move=> /subnKC <-; exact: H].
Qed.

Lemma zero_back s k : size s = 80 -> iter k step s = zero -> s = zero.
Proof. by move=> E; exact (zero_back_gen (ltn_trans (ltn0Sn 78) full80) (full_iter E)). Qed.

Lemma even_bit s k : size s = 80 -> s <> zero -> exists2 i, (i < 80)%N & seqb s (k + 2 * i).
Proof.
move=> E nz; case: (boolP (has (fun i => seqb s (k + 2 * i)) (iota 0 80))) => [/hasP [i]|/hasPn H].
  by rewrite mem_iota => i80; exists i.
case: nz; apply: (@zero_back _ k) => //; apply: state_ext => // [|j j80]; first exact: size_iter.
rewrite seqb_zero seqb_shift; apply: (decimated (rec_seqb E)) => // i i80.
by apply/negbTE/H; rewrite mem_iota.
Qed.

(** ** The selected bits *)
Lemma skip_zerosE fuel s k i : size s = 80 -> (i <= fuel)%N -> seqb s (k + 80 + 2 * i) ->
  (forall j, (j < i)%N -> seqb s (k + 80 + 2 * j) = false) ->
  skip_zeros fuel (seqb s (k + 80)) (iter k.+1 step s) = Some (iter (k.+1 + 2 * i) step s).
Proof.
move=> E; elim: fuel k i => [|fuel IH] k [|i] //.
- by rewrite muln0 !addn0 => _ /= ->.
- by rewrite muln0 !addn0 => _ /= ->.
move=> i1 Hi Hj; have := Hj 0%N isT; rewrite muln0 addn0 => H0.
rewrite {1}/skip_zeros -/skip_zeros H0.
have -> : shift (iter k.+1 step s) = (seqb s (k.+1 + 80), iter k.+2 step s) by rewrite -out_iter //; case: shift.
have -> : shift (iter k.+2 step s) = (seqb s (k.+2 + 80), iter k.+3 step s) by rewrite -out_iter //; case: shift.
rewrite (IH k.+2 i) //.
- by rewrite mulnS addnA addn2.
- by move: Hi; rewrite mulnS addnA !addSn addn2.
- by move=> j ji; have := Hj j.+1 ji; rewrite mulnS addnA !addSn addn2.
Qed.

Lemma nextE fuel s i : size s = 80 -> (i <= fuel)%N -> seqb s (80 + 2 * i) ->
  (forall j, (j < i)%N -> seqb s (80 + 2 * j) = false) ->
  next fuel s = Some (seqb s (81 + 2 * i), iter (2 * i.+1) step s).
Proof.
move=> E ifu Hi Hj; rewrite /next.
have -> : shift s = (seqb s 80, iter 1 step s) by rewrite [LHS]surjective_pairing -(out_iter 0 E).
rewrite (@skip_zerosE _ _ 0 i) //; set t := iter _ _ _.
have -> : shift t = ((shift t).1, iter 1 step t) by rewrite [LHS]surjective_pairing.
by rewrite /t out_iter // -iterD; rewrite addnAC mulnS addnA.
Qed.

Lemma selectedD s m k : selected (seqb s) (m + k) = selected (seqb s) m ++ selected (seqb (iter (2 * m) step s)) k.
Proof.
rewrite /selected iotaD filter_cat map_cat add0n; congr cat.
rewrite -{1}[m]addn0 iotaDl filter_map -map_comp.
have -> : [seq i <- iota 0 k | preim (addn m) (fun i => seqb s (80 + 2 * i)) i] = [seq i <- iota 0 k | seqb (iter (2 * m) step s) (80 + 2 * i)].
  by apply: eq_filter => i /=; rewrite seqb_shift mulnDr addnCA.
by apply: eq_map => i /=; rewrite seqb_shift mulnDr addnCA.
Qed.

Lemma next_ok fuel s : (79 <= fuel)%N -> size s = 80 -> s <> zero ->
  exists i, [/\ (i < 80)%N, next fuel s = Some (seqb s (81 + 2 * i), iter (2 * i.+1) step s) &
             selected (seqb s) i.+1 = [:: seqb s (81 + 2 * i)]].
Proof.
move=> fu E nz; have [i0 i080 Hi0] := even_bit 80 E nz.
have ex : exists i, seqb s (80 + 2 * i) by exists i0.
case: (ex_minnP ex) => i Hi mini; exists i.
have i80 : (i < 80)%N by exact: leq_ltn_trans (mini _ Hi0) _.
have Hj j : (j < i)%N -> seqb s (80 + 2 * j) = false.
  by move=> ji; apply/negbTE; apply: contraL ji => /mini; rewrite -leqNgt.
split=> //; first by apply: nextE => //; exact: leq_trans fu.
rewrite -addn1 /selected iotaD filter_cat add0n.
have -> : [seq j <- iota i 1 | seqb s (80 + 2 * j)] = [:: i] by rewrite /iota /filter Hi.
rewrite map_cat (@eq_in_filter _ _ pred0); first by rewrite filter_pred0.
by move=> j; rewrite mem_iota => /Hj.
Qed.

Lemma next_bitsS fuel k s : next_bits fuel k.+1 s =
  if next fuel s is Some (b, s) then
    if next_bits fuel k s is Some (bs, s) then Some (b :: bs, s) else None
  else None.
Proof. by []. Qed.

Lemma next_bits_ok fuel k s : (79 <= fuel)%N -> size s = 80 -> s <> zero ->
  exists m, next_bits fuel k s = Some (selected (seqb s) m, iter (2 * m) step s) /\ size (selected (seqb s) m) = k.
Proof.
move=> fu; elim: k s => [|k IH] s E nz; first by exists 0%N.
have [i [i80 Hn Hs]] := next_ok fu E nz.
have nz' : iter (2 * i.+1) step s <> zero by move=> H; apply: nz; exact: zero_back H.
have [m [Hm Sm]] := IH _ (size_iter _ E) nz'.
exists (i.+1 + m)%N; split; last by rewrite selectedD Hs size_cat Sm.
rewrite next_bitsS Hn Hm selectedD Hs -iterD; congr (Some (_, iter _ _ _)).
by rewrite addnC -mulnDr.
Qed.

(** Numbers: the selected bits in blocks of [n], the first bit highest. *)
Fixpoint lblocks (n k : nat) (bs : bits) : seq Z :=
  if k is k'.+1 then int_2 (take n bs) :: lblocks n k' (drop n bs) else [::].

Lemma int_2E bs : int_2 bs = number bs.
Proof.
rewrite /int_2; suff H z : foldl (fun z (b : bool) => (2 * z + (if b then 1 else 0))%Z) z bs = (z * 2 ^ Z.of_nat (size bs) + number bs)%Z.
  by rewrite H.
elim: bs z => [|b bs IH] z; first by rewrite /= Z.add_0_r Z.mul_1_r.
have E : (2 ^ Z.of_nat (size (b :: bs)) = 2 * 2 ^ Z.of_nat (size bs))%Z.
  by rewrite -[size (b :: bs)]/(size bs).+1 Nat2Z.inj_succ Z.pow_succ_r //; lia.
rewrite /foldl -/(foldl _) IH E /number -/number; case: b {E}; lia.
Qed.

Lemma lblocksE n k bs : lblocks n k bs = blocks n k bs.
Proof.
elim: k bs => [//|k IH] bs; rewrite /lblocks -/lblocks IH /blocks -[iota 0 k.+1]/(0 :: iota 1 k)%N map_cons mul0n drop0 int_2E.
congr cons; rewrite -[1%N]addn0 iotaDl -map_comp; apply: eq_map => i.
by rewrite /comp drop_drop mulnDl mul1n addnC.
Qed.

Lemma dropl_cat n (bs cs : bits) : (n <= size bs)%N -> drop n (bs ++ cs) = drop n bs ++ cs.
Proof.
rewrite leq_eqVlt drop_cat => /orP [/eqP ->|->] //.
by rewrite ltnn subnn drop0 drop_size.
Qed.

Lemma blocksD n k l bs cs : size bs = (k * n)%N -> lblocks n (k + l) (bs ++ cs) = lblocks n k bs ++ lblocks n l cs.
Proof.
elim: k bs => [|k IH] bs sz; first by rewrite (size0nil sz).
have nb : (n <= size bs)%N by rewrite sz mulSn leq_addr.
by rewrite addSn /= takel_cat // dropl_cat // IH // size_drop sz mulSn addKn.
Qed.

Lemma size_blocks n k bs : size (lblocks n k bs) = k.
Proof. by elim: k bs => //= k IH bs; rewrite IH. Qed.

Lemma int_2_bound bs : (0 <= int_2 bs < 2 ^ Z.of_nat (size bs))%Z.
Proof.
elim/last_ind: bs => [|bs b IH] //; rewrite /int_2 foldl_rcons -/(int_2 bs) size_rcons Nat2Z.inj_succ Z.pow_succ_r; last by lia.
by case: b; lia.
Qed.

Lemma blocks_bound n k bs : size bs = (k * n)%N -> forall z, List.In z (lblocks n k bs) -> (0 <= z < 2 ^ Z.of_nat n)%Z.
Proof.
elim: k bs => //= k IH bs sz z [<-|zI].
  have := int_2_bound (take n bs); rewrite size_takel // sz mulSn leq_addr //.
by apply: (IH (drop n bs)) => //; rewrite size_drop sz mulSn addKn.
Qed.

(** What was drawn between two states of the register *)
Definition drew (s : bits) (bs : bits) (s' : bits) : Prop :=
  exists m, s' = iter (2 * m) step s /\ bs = selected (seqb s) m.
Definition live (s : bits) : Prop := size s = 80 /\ s <> zero.

Lemma drew0 s : drew s [::] s. Proof. by exists 0%N. Qed.
Lemma drew_cat s1 s2 s3 bs cs : drew s1 bs s2 -> drew s2 cs s3 -> drew s1 (bs ++ cs) s3.
Proof.
case=> m [-> ->] [k [-> ->]]; exists (m + k)%N; split; last by rewrite selectedD.
by rewrite -iterD addnC mulnDr.
Qed.
Lemma live_iter s k : live s -> live (iter k step s).
Proof. by case=> E nz; split; [exact: size_iter|move=> H; apply: nz; exact: zero_back H]. Qed.
Lemma drew_live s bs s' : live s -> drew s bs s' -> live s'.
Proof. by move=> ls [m [-> _]]; exact: live_iter. Qed.

Lemma random_bits_ok fuel n s : (79 <= fuel)%N -> (0 < n)%N -> live s ->
  exists bs s', [/\ grain_random_bits fuel n s = Some (int_2 bs, s'), size bs = n & drew s bs s'].
Proof.
move=> fu n0 [E nz]; have [m [Hm Sm]] := next_bits_ok n fu E nz.
exists (selected (seqb s) m), (iter (2 * m) step s); split=> //; last by exists m.
by rewrite /grain_random_bits Hm; case: (n) n0.
Qed.

Section Draw.
Variables fuel n : nat.
Hypothesis fu : (79 <= fuel)%N.
Hypothesis n0 : (0 < n)%N.

Lemma random_below_ok p retries s c s' : live s -> random_below fuel retries n p s = Some (c, s') ->
  exists k bs, [/\ drew s bs s', size bs = (k * n)%N & [seq z <- lblocks n k bs | (z <? p)%Z] = [:: c]].
Proof.
elim: retries s => [//|r IH] s ls; rewrite /random_below -/random_below.
have [b1 [s1 [-> sz dr]]] := random_bits_ok fu n0 ls.
case: Z.leb_spec => H.
  case/(IH _ (drew_live ls dr)) => k [bs [dr2 sz2 E2]]; exists k.+1, (b1 ++ bs); split.
  - exact: drew_cat dr dr2.
  - by rewrite size_cat sz sz2 mulSn.
  - rewrite -add1n blocksD ?mul1n // filter_cat E2 /= take_oversize ?sz //.
    by have -> : (int_2 b1 <? p)%Z = false by apply/Z.ltb_ge.
case=> <- <-; exists 1%N, b1; split; rewrite ?mul1n //= take_oversize ?sz //.
by have -> : (int_2 b1 <? p)%Z by apply/Z.ltb_lt.
Qed.

Lemma draw_constants_ok p retries num s cs s' : live s -> draw_constants fuel retries n p num s = Some (cs, s') ->
  exists k bs, [/\ drew s bs s', size bs = (k * n)%N, cs = [seq z <- lblocks n k bs | (z <? p)%Z] & size cs = num].
Proof.
elim: num s cs s' => [|num IH] s cs s' ls; rewrite /draw_constants -/draw_constants.
  by case=> <- <-; exists 0%N, [::]; split=> //; exact: drew0.
case E1: random_below => [[c s1]|] //; have [k1 [b1 [dr1 sz1 F1]]] := random_below_ok ls E1.
case E2: draw_constants => [[cs' s2]|] // [<- <-].
have [k2 [b2 [dr2 sz2 F2 S2]]] := IH _ _ _ (drew_live ls dr1) E2.
exists (k1 + k2)%N, (b1 ++ b2); split; rewrite ?size_cat ?sz1 ?sz2 ?mulnDl //=; last by rewrite S2.
- exact: drew_cat dr1 dr2.
- by rewrite blocksD // filter_cat F1 F2.
Qed.
End Draw.

(** ** The start *)
Lemma size_bin_pos x w : (Zpos x < 2 ^ Z.of_nat w)%Z -> (size (bin_pos x) <= w)%N.
Proof.
have pw k : (2 ^ Z.of_nat k.+1 = 2 * 2 ^ Z.of_nat k)%Z by rewrite Nat2Z.inj_succ Z.pow_succ_r //; lia.
elim: x w => [x IH|x IH|] [|w] H; rewrite /bin_pos -/bin_pos ?size_rcons ?ltnS //.
- by apply: IH; move: H; rewrite pw; lia.
- by apply: IH; move: H; rewrite pw; lia.
Qed.

Lemma size_field x w : (Z.of_N x < 2 ^ Z.of_nat w.+1)%Z -> size (zfill w.+1 (bin x)) = w.+1.
Proof.
move=> H; rewrite size_cat size_nseq subnK //.
by case: x H => [|x] //; exact: size_bin_pos.
Qed.

Lemma init_live field sbox n t R_F R_P :
  (field < 4)%num -> (sbox < 16)%num -> (n < 4096)%num -> (t < 4096)%num -> (R_F < 1024)%num -> (R_P < 1024)%num ->
  live (init_generator field sbox n t R_F R_P).
Proof.
move=> H1 H2 H3 H4 H5 H6; split.
  have sc (a b : bits) k : size a = k -> size (a ++ b) = (k + size b)%N by rewrite size_cat => ->.
  rewrite /init_generator (sc _ _ 2%N); last by apply: size_field; lia.
  rewrite (sc _ _ 4%N); last by apply: size_field; lia.
  rewrite (sc _ _ 12%N); last by apply: size_field; lia.
  rewrite (sc _ _ 12%N); last by apply: size_field; lia.
  rewrite (sc _ _ 10%N); last by apply: size_field; lia.
  by rewrite (sc _ _ 10%N); last by apply: size_field; lia.
have e (bs : bits) : last false (bs ++ nseq 30 true) by rewrite last_cat.
move/(congr1 (last false)); rewrite /init_generator !catA e; discriminate.
Qed.

Lemma warm_live s : live s -> live (warm_up s).
Proof. exact: live_iter. Qed.
