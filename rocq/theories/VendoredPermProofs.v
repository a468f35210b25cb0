(** The vendored [perm] is the textbook permutation. *)
From Coq Require Import ZArith NArith Lia.
From mathcomp Require Import all_ssreflect all_algebra.
From Verif Require Import Base Matrix MatrixSpec MatrixProofs Params Permutation Spec PermutationProofs PoseidonProofs.
From Verif Require Import PrimeField VendoredPerm.
Set Implicit Arguments.
Unset Strict Implicit.
Unset Printing Implicit Defensive.
Import GRing.Theory.
Local Open Scope ring_scope.
Local Open Scope rust_scope.

Lemma for_in_foldl T S A (xs : seq T) (f : T -> S -> outcome S) (rep : A -> S) (g : A -> T -> A) a :
  (forall x a, f x (rep a) = Ret (rep (g a x))) -> for_in xs f (rep a) = Ret (rep (foldl g a xs)).
Proof. by move=> H; elim: xs a => //= x xs IH a; rewrite H bind_ret IH. Qed.

Section X5.
Variables (F : fieldType) (t1 : nat).
Local Notation t := (1 + t1)%N.
Local Notation vec := ('cV[F]_(1 + t1)).
Variables (R_F R_P : nat) (M : 'M[F]_t) (rc : seq F).
Hypothesis rcs : ((R_F %/ 2 + R_P + R_F %/ 2) * t <= size rc)%N.

Let row r : vec := \col_i nth 0 rc (r * t + i).
Let nop : rmat F := Rmat 0 0 [::].
Let dummy : params F := Params t t1 0 Params.Inverse (RoundNumbers 0 0) nop nop nop
  (OptimizedMds nop nop nop nop nop nop nop 0 nop [::] [::]).

Lemma x5_add r x : (r < R_F %/ 2 + R_P + R_F %/ 2)%N ->
  x5_add_constants t rc (ofV x, (r * t)%N) = Ret (ofV (x + row r), (r.+1 * t)%N).
Proof.
move=> rR; have := @add_constants_counter_ofV F dummy t1 erefl rc (row r) x (r * t)%N.
rewrite /add_constants_counter /range subn0 mulSn [(t + _)%N]addnC; apply=> i.
by rewrite (aget_nth 0) ?mxE //; apply: leq_trans rcs; exact: idx_lt.
Qed.

Lemma x5_all (x : vec) : x5_sbox_all t (ofV x) = Ret (ofV (\col_i (x i 0) ^+ 5)).
Proof.
have := sub_loop (fun x => Ret (x ^+ 5)) (size_ofV x); rewrite /range subn0 traverse_ret => E.
rewrite /x5_sbox_all; etransitivity; first exact: E.
by congr Ret; rewrite /ofV -map_comp; apply: eq_map => i /=; rewrite mxE.
Qed.

Lemma x5_one (x : vec) : x5_sbox_0 (ofV x) = Ret (ofV (\col_i (if i == 0 then (x i 0) ^+ 5 else x i 0))).
Proof.
rewrite /x5_sbox_0 (aget_nth 0) ?size_ofV //= -[0%N]/(val (0 : 'I_t)) nth_ofV.
rewrite (aset_set_nth 0) size_ofV /=; congr Ret.
have mx1 : maxn 1 t = t by apply/maxn_idPr.
apply: (@eq_from_nth _ 0); rewrite size_set_nth !size_ofV mx1 // => i ir.
rewrite nth_set_nth /= -[i]/(val (Ordinal ir)) !nth_ofV mxE -val_eqE /=.
by case: i ir => [|i] ir //=; congr (x _ _ ^+ 5); apply: val_inj.
Qed.

Lemma x5_mixE (x : vec) : x5_mix M (ofV x) = Ret (ofV (M *m x)).
Proof. by rewrite /x5_mix size_ofV eqxx toV_ofV. Qed.

Lemma x5_loop k n f (g : vec -> nat -> vec) x :
  (forall i r y, (r < k + n)%N -> f i (ofV y, (r * t)%N) = Ret (ofV (g y r), (r.+1 * t)%N)) ->
  for_in (iota 0 n) f (ofV x, (k * t)%N) = Ret (ofV (foldl g x (iota k n)), ((k + n) * t)%N).
Proof.
move=> H; have gen m : (m <= n)%N -> for_in (iota 0 m) f (ofV x, (k * t)%N) = Ret (ofV (foldl g x (iota k m)), ((k + m) * t)%N).
  elim: m => [|m IH] mn; first by rewrite addn0.
  have E a : iota a m.+1 = rcons (iota a m) (a + m)%N by rewrite -{1}addn1 iotaD /= cats1.
  by rewrite !E for_in_rcons IH ?(ltnW mn) // bind_ret H ?ltn_add2l // foldl_rcons addnS.
exact: gen.
Qed.

Lemma x5_permE x : x5_perm R_F R_P M rc (ofV x) = Ret (ofV (poseidon (fun x => x ^+ 5) M row (R_F %/ 2) R_P x)).
Proof.
have FR i r (y : vec) : (r < R_F %/ 2 + R_P + R_F %/ 2)%N -> x5_full_round M rc i (ofV y, (r * t)%N) =
    Ret (ofV (full_round (fun x => x ^+ 5) M y (row r)), (r.+1 * t)%N).
  by move=> rR; rewrite /x5_full_round x5_add // bind_ret x5_all bind_ret x5_mixE.
have PR i r (y : vec) : (r < R_F %/ 2 + R_P + R_F %/ 2)%N -> x5_partial_round M rc i (ofV y, (r * t)%N) =
    Ret (ofV (partial_round (fun x => x ^+ 5) M y (row r)), (r.+1 * t)%N).
  by move=> rR; rewrite /x5_partial_round x5_add // bind_ret x5_one bind_ret x5_mixE.
rewrite /x5_perm /poseidon.
rewrite (@x5_loop 0 _ _ (fun y r => full_round (fun x => x ^+ 5) M y (row r))); last first.
  by move=> i r y rR; apply: FR; rewrite add0n in rR; apply: leq_trans rR _; rewrite -addnA leq_addr.
rewrite bind_ret add0n.
rewrite (@x5_loop _ _ _ (fun y r => partial_round (fun x => x ^+ 5) M y (row r))); last first.
  by move=> i r y rR; apply: PR; apply: leq_trans rR _; rewrite leq_addr.
rewrite bind_ret.
by rewrite (@x5_loop _ _ _ (fun y r => full_round (fun x => x ^+ 5) M y (row r))).
Qed.
End X5.

(** ** Too few constants *)
Section Few.
Variables (F : fieldType) (t : nat) (M : 'M[F]_t) (rc : seq F).
Let ok n (st st' : seq F * nat) := st'.2 = (st.2 + n)%N /\ ((n == 0) || (st'.2 <= size rc))%N.

Lemma ok_trans m n a b c : ok m a b -> ok n b c -> ok (m + n) a c.
Proof.
move=> [e1 h1] [e2 h2]; split; first by rewrite e2 e1 addnA.
case: n e2 h2 => [|n] e2 /=; last by move=> ->; rewrite addnS.
by move=> _; rewrite e2 !addn0.
Qed.

Lemma for_ok T (l : seq T) f n a b : (forall x a b, f x a = Ret b -> ok n a b) -> for_in l f a = Ret b -> ok (size l * n) a b.
Proof.
move=> H; elim: l a => [|x l IH] a /=; first by case=> <-; split; rewrite ?addn0.
case E: (f x a) => [c|] //= /IH; rewrite mulSn; exact: ok_trans (H _ _ _ E).
Qed.

Lemma add_ok a b : x5_add_constants t rc a = Ret b -> ok t a b.
Proof.
move=> /(@for_ok _ _ _ 1) H; rewrite -[X in ok X _ _](size_iota 0) -[X in ok X _ _]muln1; apply: H.
move=> i [s c] b' /=; case: aget => //= x; rewrite (agetE 0); case: ifP => //= cl.
by case: aset => //= s' [<-]; split=> /=; rewrite ?addn1.
Qed.

Lemma full_ok i a b : x5_full_round M rc i a = Ret b -> ok t a b.
Proof.
rewrite /x5_full_round; case E: x5_add_constants => [[s c]|] //=.
by case: x5_sbox_all => //= s1; case: x5_mix => //= s2 [<-]; exact: add_ok E.
Qed.
Lemma partial_ok i a b : x5_partial_round M rc i a = Ret b -> ok t a b.
Proof.
rewrite /x5_partial_round; case E: x5_add_constants => [[s c]|] //=.
by case: x5_sbox_0 => //= s1; case: x5_mix => //= s2 [<-]; exact: add_ok E.
Qed.

Lemma x5_few R_F R_P x : (size rc < (R_F %/ 2 + R_P + R_F %/ 2) * t)%N -> x5_perm R_F R_P M rc x = Panic.
Proof.
move=> few; rewrite /x5_perm.
case E1: for_in => [a|] //=; case E2: for_in => [b|] //=; case E3: for_in => [c|] //=.
have [e h] := ok_trans (ok_trans (for_ok full_ok E1) (for_ok partial_ok E2)) (for_ok full_ok E3).
rewrite !size_iota -!mulnDl in e h; move: few h; case: eqP => [->|_] //= few.
by rewrite e add0n leqNgt few.
Qed.
End Few.
