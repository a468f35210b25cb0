(** What [generate_ark] computes, and for how many partial rounds its constants are the right ones. *)
From Coq Require Import String.
From mathcomp Require Import all_ssreflect all_algebra.
From Verif Require Import Base Slia ArkSpec GenerateArk.
Set Implicit Arguments.
Unset Strict Implicit.
Unset Printing Implicit Defensive.
Import GRing.Theory.
Local Open Scope ring_scope.
Local Open Scope rust_scope.

Section Ark.
Variables (F : fieldType) (rc : string -> nat -> F) (n : nat).
Local Notation t := n.+1.
Local Notation vec := 'cV[F]_t.

Lemma item_map (T : Type) (f : nat -> T) a k i :
  item [seq f j | j <- iota a k] i = if (i < k)%N then Ret (f (a + i)%N) else Panic.
Proof.
rewrite /item -map_drop drop_iota; case: ltnP => H.
  by case: (k - i)%N (subn_gt0 i k) => [|m]; rewrite H // addnC.
by have /eqP -> : (k - i == 0)%N by rewrite subn_eq0.
Qed.

Local Notation constants := (round_constants n rc).

Lemma ark_loopE (x : vec) (f : nat -> vec) K (A : 'M[F]_t) k : forall l w i, (0 < i)%N ->
  ark_loop (x :: [seq f j | j <- iota 1 K]) A (A ^+ i) l w i k =
  if (k == 0%N) || (i + k <= K.+1)%N then
    Ret (l + \sum_(j <- iota i k) clear_0 (A ^+ j *m f j), w ++ [seq (A ^+ j *m f j) 0 0 | j <- iota i k])
  else Panic.
Proof.
elim: k => [|k IH] l w i i0 /=; first by rewrite big_nil addr0 cats0.
case: i i0 => // i _; rewrite /item /= -/(item _ _) item_map; case: ltnP => Hi; last first.
  by rewrite [bind _ _]/= ifN // -ltnNge; move: Hi; clear; slia.
rewrite bind_ret add1n (_ : A ^+ i.+1 *m A = A ^+ i.+2); last by rewrite mulmxE -exprSr.
rewrite IH // addSnnS.
have -> : (k == 0%N) || (i.+1 + k.+1 <= K.+1)%N = (i.+1 + k.+1 <= K.+1)%N.
  by case: k {IH} => //; rewrite addn1 ltnS Hi.
by case: ifP => // _; rewrite big_cons addrA -catA.
Qed.

Theorem ark_values N R (M : 'M[F]_t) : generate_ark rc N true R (Some M) =
  if (M \in unitmx) && (maxn 1 R + 8 <= N)%N then
    Ret (ArkOut (map constants (iota 0 N))
      (Some (\sum_(i < maxn 1 R) clear_0 (invmx M ^+ i *m constants (4 + i))))
      (0 :: [seq (invmx M ^+ i *m constants (4 + i)) 0 0 | i <- iota 1 (R - 1)]))
  else Panic.
Proof.
rewrite /generate_ark bind_ret; case: (M \in unitmx) => //; rewrite bind_ret.
have -> : drop 4 (take (size (ark_vectors rc n N) - 4) (ark_vectors rc n N)) = [seq constants (4 + i) | i <- iota 0 (N - 8)].
  rewrite /ark_vectors size_map size_iota -map_take -map_drop take_iota drop_iota.
  have -> : (minn (N - 4) N - 4 = N - 8)%N by rewrite (minn_idPl (leq_subr _ _)) -subnDA.
  by rewrite add0n -[4%N]addn0 iotaDl -map_comp addn0.
have HR : (1 <= maxn 1 R)%N by rewrite leq_maxl.
have HR1 : (maxn 1 R = (R - 1).+1)%N by case: R {HR} => [|[|R]].
rewrite item_map; case: ltnP => Hp; last first.
  by rewrite [bind _ _]/= ifN // andTb -ltnNge; move: Hp HR; generalize (maxn 1 R); clear; slia.
have -> : behead [seq constants (4 + i) | i <- iota 0 (N - 8)] = [seq constants (4 + j) | j <- iota 1 (N - 8).-1].
  by case: (N - 8)%N Hp.
rewrite bind_ret -{2}[invmx M]expr1 ark_loopE // HR1 add1n prednK //.
have -> : (R - 1 == 0)%N || ((R - 1).+1 <= N - 8)%N = ((R - 1).+1 + 8 <= N)%N.
  rewrite leq_subRL; last by move: Hp; clear; slia.
  rewrite addnC; case: eqP => [->|//]; apply/esym; move: Hp; clear; slia.
rewrite andTb; case: ifP => // _; rewrite bind_ret; congr (Ret (ArkOut _ (Some _) _)).
  rewrite [RHS]big_ord_recl expr0 mul1mx addn0; congr (_ + _).
  rewrite -[iota 1 _]/(iota (1 + 0) _) iotaDl big_map.
  by rewrite -{1}[(R - 1)%N]subn0 -/(index_iota 0 (R - 1)) big_mkord.
by rewrite /= mxE eqxx.
Qed.

Theorem ark_no_matrix N R : generate_ark rc (n := n) N true R None = Panic.
Proof. by []. Qed.

Theorem ark_plain N R M : generate_ark rc N false R M = Ret (ArkOut (map constants (iota 0 N)) None [::]).
Proof. by []. Qed.
End Ark.

Section Rounds.
Variables (F : fieldType) (n : nat) (S : F -> F) (M : 'M[F]_n.+1).
Local Notation vec := 'cV[F]_n.+1.
Local Notation e_0 := (e_0 F n).

(** The linear constants of the script *)
Definition script_linear (c : nat -> vec) (r : nat) : vec := \sum_(i < maxn 1 r) clear_0 (invmx M ^+ i *m c i).

Lemma split_0 (v : vec) : v = clear_0 v + v 0 0 *: e_0.
Proof.
apply/colP => i; rewrite !mxE eqxx andbT; case: (altP (i =P 0)) => [->|_] /=; first by rewrite add0r mulr1.
by rewrite mulr0 addr0.
Qed.

Lemma sbox_0_clear (x v : vec) : sbox_0 S (x + clear_0 v) = sbox_0 S x + clear_0 v.
Proof. by apply/colP => i; rewrite !mxE; case: (i == 0); rewrite ?addr0. Qed.

Lemma mulmxKinv (v : vec) : M \in unitmx -> M *m (invmx M *m v) = v.
Proof. by move=> U; rewrite mulmxA mulmxV // mul1mx. Qed.

(** Up to two rounds *)
Theorem two_rounds (c : nat -> vec) r x : M \in unitmx -> (0 < r <= 2)%N ->
  moved_rounds S M (script_linear c r) (fun i => (invmx M ^+ i *m c i) 0 0) r x =
  partial_rounds S M c r x.
Proof.
move=> U; case: r => [//|[|[|//]]] _; rewrite /moved_rounds /partial_rounds /script_linear /=.
  by rewrite big_ord1 expr0 mul1mx -addrA -split_0 scale0r addr0.
rewrite !big_ord_recl big_ord0 /= addr0 expr0 mul1mx expr1 scale0r addr0.
congr (M *m sbox_0 S _).
have -> : x + (clear_0 (c 0%N) + clear_0 (invmx M *m c 1%N)) + c 0%N 0 0 *: e_0 =
   x + c 0%N + clear_0 (invmx M *m c 1%N).
  by rewrite {3}(split_0 (c 0%N)) addrA addrAC -!addrA.
rewrite sbox_0_clear -addrA -split_0 mulmxDr mulmxKinv //.
Qed.

(** Other constants do, for any number of rounds *)
Lemma moving (r : nat) (c : nat -> vec) : M \in unitmx -> (0 < r)%N ->
  exists l w, forall x, moved_rounds S M l w r x = partial_rounds S M c r x.
Proof.
move=> U; case: r => [//|r] _; elim: r c => [|r IH] c.
  exists (clear_0 (c 0%N)), (fun _ => c 0%N 0 0) => x.
  by rewrite /moved_rounds /partial_rounds /= -addrA -split_0 scale0r addr0.
have I (T : Type) (f : T -> nat -> T) y k : foldl f y (iota 0 k.+1) = foldl (fun z i => f z i.+1) (f y 0%N) (iota 0 k).
  rewrite -[iota 0 k.+1]/(0%N :: iota (1 + 0) k) iotaDl [LHS]/=.
  by elim: (iota 0 k) (f y 0%N) => [//|i s IHs] z /=; rewrite IHs.
have [l' [w' E]] := IH (fun i => c i.+1).
pose k := invmx M *m (l' + w' 0%N *: e_0).
pose d := c 0%N + clear_0 k.
exists (clear_0 d), (fun i => if i == 0%N then d 0 0 else if i == 1%N then k 0 0 else w' i.-1) => x.
have -> : partial_rounds S M c r.+2 x = partial_rounds S M (fun i => c i.+1) r.+1 (M *m sbox_0 S (x + c 0%N)).
  by rewrite /partial_rounds I.
rewrite -E /moved_rounds I eqxx [(1 < r.+2)%N]/= [1%N == 0%N]/= eqxx.
have -> : M *m (sbox_0 S (x + clear_0 d + d 0 0 *: e_0) + k 0 0 *: e_0) =
    M *m sbox_0 S (x + c 0%N) + l' + w' 0%N *: e_0.
  rewrite -addrA -split_0 /d addrA sbox_0_clear -addrA -split_0 mulmxDr.
  by rewrite /k mulmxKinv // addrA.
by [].
Qed.

Lemma sbox_0_inj : injective S -> injective (sbox_0 (n := n) S).
Proof.
move=> iS x y E; apply/colP => i; move/colP/(_ i): E; rewrite !mxE.
by case: (i == 0) => //; exact: iS.
Qed.

Lemma mul_inj (x y : vec) : M \in unitmx -> M *m x = M *m y -> x = y.
Proof. by move=> U E; rewrite -[x](mulKmx U) E mulKmx. Qed.

(** The constants of the witness *)
Definition third (i : nat) : vec := if i == 2%N then M *m e_0 else 0.

Lemma clear_0_0 : clear_0 (0 : vec) = 0.
Proof. by apply/colP => i; rewrite !mxE; case: (i == 0). Qed.

Lemma script_third r : M \in unitmx -> (2 < r)%N -> script_linear third r = clear_0 (invmx M *m e_0).
Proof.
case: r => [|[|[|r]]] // U _; rewrite /script_linear (_ : maxn 1 r.+3 = r.+3) //.
rewrite !big_ord_recl big1 => [|i _]; last by rewrite /third /= mulmx0 clear_0_0.
rewrite /third /= !mulmx0 !clear_0_0 !add0r addr0; congr clear_0.
by rewrite exprS expr1 -mulmxE -mulmxA mulKmx.
Qed.

Lemma sbox_0_add (x : vec) a : sbox_0 S (x + a *: e_0) = sbox_0 S x + (S (x 0 0 + a) - S (x 0 0)) *: e_0.
Proof.
apply/colP => i; rewrite !mxE eqxx andbT; case: (altP (i =P 0)) => [->|_] /=.
  by rewrite !mulr1 addrCA subrr addr0.
by rewrite !mulr0.
Qed.


Lemma foldl_iter (T : Type) (f : T -> nat -> T) (g : T -> T) s : (forall y i, i \in s -> f y i = g y) ->
  forall y, foldl f y s = iter (size s) g y.
Proof.
elim: s => [//|i s IH] H y; rewrite [LHS]/= IH => [|z k ks]; last by apply: H; rewrite inE ks orbT.
by rewrite H ?mem_head // [RHS]iterSr.
Qed.

Lemma last_moved (w : nat -> F) l r x : (forall i, (2 < i)%N -> w i = 0) ->
  moved_rounds S M l w (3 + r) x = iter r (fun y => M *m sbox_0 S y) (moved_rounds S M l w 3 x).
Proof.
move=> w0; rewrite /moved_rounds iotaD foldl_cat (foldl_iter (g := fun y => M *m sbox_0 S y)) ?size_iota.
  congr iter; rewrite [iota 0 3]/= /= scale0r (w0 3%N) //.
  by rewrite (_ : (if _ then 0 else 0) = 0) ?scale0r //; case: ifP.
move=> y i; rewrite mem_iota => /andP [Hi _].
rewrite (w0 i.+1) ?ltnS; last exact: ltnW.
by rewrite (_ : (if _ then 0 else 0) = 0) ?scale0r ?addr0 //; case: ifP.
Qed.

Lemma last_partial r x :
  partial_rounds S M third (3 + r) x = iter r (fun y => M *m sbox_0 S y) (partial_rounds S M third 3 x).
Proof.
rewrite /partial_rounds iotaD foldl_cat (foldl_iter (g := fun y => M *m sbox_0 S y)) ?size_iota //.
move=> y i; rewrite mem_iota /third => /andP [Hi _].
by rewrite ifN ?addr0 //; move: Hi; case: eqP => // ->.
Qed.

Lemma first_round (u b : vec) a k :
  M *m (u + a *: e_0 + clear_0 b + k *: e_0) = M *m u + (M *m b + (a + k - b 0 0) *: (M *m e_0)).
Proof.
have -> : clear_0 b = b - b 0 0 *: e_0 by rewrite {2}(split_0 b) addrK.
rewrite !mulmxDr mulmxN -!scalemxAr scalerBl scalerDl -!addrA; congr (_ + _).
by rewrite addrCA; congr (_ + (_ + _)); rewrite addrC.
Qed.

(** From three rounds on no words fit the linear constants of the script *)
Theorem three_rounds r i j : M \in unitmx -> (2 < r)%N -> injective S ->
  i != 0 -> M i 0 != 0 -> j != 0 -> M 0 j != 0 ->
  (exists y z, S (y + 1) - S y <> S (z + 1) - S z) ->
  forall w : nat -> F, (forall k, (2 < k)%N -> w k = 0) ->
  ~ forall x, moved_rounds S M (script_linear third r) w r x = partial_rounds S M third r x.
Proof.
move=> U r2 iS i0 Mi j0 Mj [y [z ne]] w w0 E.
have {}E x : moved_rounds S M (clear_0 (invmx M *m e_0)) w 3 x = partial_rounds S M third 3 x.
  have := E x; rewrite script_third // -(subnKC r2) last_moved // last_partial.
  move: (moved_rounds _ _ _ _ _ _) (partial_rounds _ _ _ _ _).
  elim: (r - 3)%N => [//|k IH] u v /=.
  by move=> /(mul_inj U)/(sbox_0_inj iS)/IH.
have key v : S (v + 1) - S v = 1 - w 2%N.
  (* a state whose word 0 after one round without constants is v *)
  pose g := (v - M 0 0 * S 0) / M 0 j.
  pose x : vec := g *: delta_mx j 0.
  have x00 : x 0 0 = 0 by rewrite !mxE eq_sym (negbTE j0) mulr0.
  have Hx : (M *m sbox_0 S x) 0 0 = v.
    rewrite mxE (bigD1 0) //= (bigD1 j) //= big1 => [|k /andP [k0 kj]].
      rewrite addr0 ![sbox_0 _ _ _ _]mxE eqxx x00 (negbTE j0) mxE [delta_mx _ _ _ _]mxE !eqxx mulr1.
      by rewrite /g mulrCA divff // mulr1 addrC subrK.
    by rewrite [sbox_0 _ _ _ _]mxE (negbTE k0) !mxE (negbTE kj) !mulr0.
  have := E x; rewrite /moved_rounds /partial_rounds /= scale0r !addr0 /third /=.
  move=> /(mul_inj U)/(sbox_0_inj iS); rewrite -mulmxDr => /(mul_inj U).
  rewrite addrAC sbox_0_clear sbox_0_add.
  set a := S _ - S _; set b := invmx M *m e_0.
  have -> : M *m (sbox_0 S x + a *: e_0 + clear_0 b + w 1%N *: e_0) =
      M *m sbox_0 S x + (e_0 + (a + w 1%N - b 0 0) *: (M *m e_0)).
    by rewrite first_round /b mulmxKinv.
  set d := M *m sbox_0 S x in Hx *; set k := a + _ - _ => /colP H.
  have k0 : k = 0.
    have fi : (M *m e_0) i 0 = M i 0 by rewrite -colE mxE.
    have := H i; move: fi; move: (M *m e_0) => f fi.
    clearbody d k; rewrite !mxE (negbTE i0) /= mulr0 !addr0 add0r fi.
    by rewrite -[RHS]addr0 => /addrI/eqP; rewrite mulf_eq0 (negbTE Mi) orbF => /eqP.
  have := H 0; clearbody d; rewrite k0 scale0r addr0 !mxE !eqxx /= mulr1 Hx => H0.
  by rewrite -[S (v + 1)](addrK (w 2%N)) H0 addrAC [S v + 1]addrC addrK.
by apply: ne; rewrite !key.
Qed.
End Rounds.

Section Wrong.
Variables (F : fieldType) (n : nat) (S : F -> F) (M : 'M[F]_n.+1).
Local Notation vec := 'cV[F]_n.+1.

(** Round constants such that those of the third partial round are column 0 of the matrix and
    the others are zero *)
Definition third_rc (_ : string) (k : nat) : F :=
  if (k %/ n.+1)%N == 6%N then M (inord (k %% n.+1)) 0 else 0.

Lemma third_rcE i : round_constants n third_rc (4 + i) = third M i.
Proof.
apply/colP => j; rewrite mxE /third_rc mulnC divnMDl // (divn_small (ltn_ord j)) addn0.
rewrite modnMDl (modn_small (ltn_ord j)) inord_val /third -[6%N]/(4 + 2)%N eqn_add2l.
by case: eqP => _; [rewrite -colE mxE|rewrite mxE].
Qed.

Theorem ark_wrong N R i j : M \in unitmx -> (2 < R)%N -> (R + 8 <= N)%N -> injective S ->
  i != 0 -> M i 0 != 0 -> j != 0 -> M 0 j != 0 ->
  (exists y z, S (y + 1) - S y <> S (z + 1) - S z) ->
  exists rc out l, [/\ generate_ark rc N true R (Some M) = Ret out, a_linear out = Some l &
    forall w : nat -> F, (forall k, (2 < k)%N -> w k = nth 0 (a_words out) k) ->
    ~ forall x, moved_rounds S M l w R x = partial_rounds S M (fun i => round_constants n rc (4 + i)) R x].
Proof.
move=> U R2 RN iS i0 Mi j0 Mj ne; exists third_rc.
have mR : maxn 1 R = R by apply/maxn_idPr; exact: ltnW (ltnW R2).
rewrite ark_values U mR RN /=; eexists; eexists; split; [by []|by []|].
move=> w Hw E; apply: (three_rounds U R2 iS i0 Mi j0 Mj ne (w := w)) => [k k2|x].
  rewrite Hw // [a_words _]/=; case: k k2 => // k k2; rewrite [nth _ _ _]/=.
  case: (ltnP k (R - 1)) => Hk; last by rewrite nth_default // size_map size_iota.
  rewrite (nth_map 0%N) ?size_iota // nth_iota // third_rcE /third ifN ?mulmx0 ?mxE //.
  by move: k2; clear; case: k => [|[|k]].
rewrite /script_linear mR.
have := E x; rewrite /partial_rounds.
have -> : \sum_(i < R) clear_0 (invmx M ^+ i *m round_constants n third_rc (4 + i)) =
    \sum_(i < R) clear_0 (invmx M ^+ i *m third M i).
  by apply: eq_bigr => k _; rewrite third_rcE.
move=> ->; elim: (iota 0 R) x {E} => [//|k s IH] x /=; by rewrite third_rcE IH.
Qed.

Theorem ark_two_rounds N R rc out (x : vec) : (0 < R <= 2)%N -> generate_ark rc N true R (Some M) = Ret out ->
  exists l w, [/\ a_linear out = Some l, size w = R, behead w = behead (a_words out) &
    moved_rounds S M l (nth 0 w) R x = partial_rounds S M (fun i => round_constants n rc (4 + i)) R x].
Proof.
move=> /andP [R0 R2]; rewrite ark_values; case: ifP => // /andP [U _] [<-].
have mR : maxn 1 R = R by apply/maxn_idPr.
eexists; exists (mkseq (fun i => (invmx M ^+ i *m round_constants n rc (4 + i)) 0 0) R).
split; [by []|by rewrite size_mkseq| |].
  by rewrite /= /mkseq; case: R R0 {R2 mR} => // R _; rewrite subn1.
rewrite -(two_rounds S (fun i => round_constants n rc (4 + i)) x U); last by rewrite R0.
rewrite /script_linear mR.
by case: R R0 R2 {mR} => [//|[|[|//]]] _ _; rewrite /moved_rounds /=.
Qed.
End Wrong.
