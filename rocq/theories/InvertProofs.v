(** Textbook Poseidon backwards inverts textbook Poseidon; counting lists. *)
From mathcomp Require Import all_ssreflect all_algebra.
From Verif Require Import Spec InvertSpec.
Set Implicit Arguments.
Unset Strict Implicit.
Unset Printing Implicit Defensive.
Import GRing.Theory.
Local Open Scope ring_scope.

Lemma foldl_rev_cancel (V T : Type) (f g : V -> T -> V) (l : seq T) :
  (forall r x, g (f x r) r = x) -> forall x, foldl g (foldl f x l) (rev l) = x.
Proof.
move=> H; elim/last_ind: l => [//|l r IH] x.
by rewrite rev_rcons -cats1 foldl_cat /= H IH.
Qed.

Section Backwards.
Variables (F : fieldType) (t1 : nat) (S S' : F -> F) (M M' : 'M[F]_(1 + t1)) (rc : nat -> 'cV[F]_(1 + t1)).
Hypotheses (K1 : cancel S S') (K2 : cancel S' S) (MM' : M *m M' = 1%:M) (M'M : M' *m M = 1%:M).

Lemma full_backK c x : full_back S' M' (full_round S M x c) c = x.
Proof. by apply/matrixP => i j; rewrite /full_back /full_round mulmxA M'M mul1mx !mxE (ord1 j) K1 addrK. Qed.
Lemma full_roundK c x : full_round S M (full_back S' M' x c) c = x.
Proof.
have E : (\col_i S ((full_back S' M' x c + c) i 0)) = M' *m x.
  by apply/matrixP => i j; rewrite /full_back subrK !mxE K2 (ord1 j).
by rewrite /full_round E mulmxA MM' mul1mx.
Qed.
Lemma partial_backK c x : partial_back S' M' (partial_round S M x c) c = x.
Proof.
apply/matrixP => i j; rewrite /partial_back /partial_round mulmxA M'M mul1mx !mxE (ord1 j).
by case: (i == 0); rewrite ?K1 addrK.
Qed.
Lemma partial_roundK c x : partial_round S M (partial_back S' M' x c) c = x.
Proof.
have E : (\col_i (if i == 0 then S ((partial_back S' M' x c + c) i 0) else (partial_back S' M' x c + c) i 0)) = M' *m x.
  by apply/matrixP => i j; rewrite /partial_back subrK !mxE (ord1 j); case: (i == 0); rewrite ?K2.
by rewrite /partial_round E mulmxA MM' mul1mx.
Qed.

Lemma poseidon_backK Rf Rp : cancel (poseidon S M rc Rf Rp) (poseidon_back S' M' rc Rf Rp).
Proof.
move=> x; rewrite /poseidon /poseidon_back.
rewrite foldl_rev_cancel => [|r y]; last exact: full_backK.
rewrite foldl_rev_cancel => [|r y]; last exact: partial_backK.
by rewrite foldl_rev_cancel => [//|r y]; exact: full_backK.
Qed.

Lemma foldl_rev_cancel' (V T : Type) (f g : V -> T -> V) (l : seq T) :
  (forall r x, f (g x r) r = x) -> forall x, foldl f (foldl g x (rev l)) l = x.
Proof. by move=> H x; rewrite -{2}[l]revK; apply: foldl_rev_cancel. Qed.

Lemma poseidonK Rf Rp : cancel (poseidon_back S' M' rc Rf Rp) (poseidon S M rc Rf Rp).
Proof.
move=> x; rewrite /poseidon /poseidon_back.
rewrite foldl_rev_cancel' => [|r y]; last exact: full_roundK.
rewrite foldl_rev_cancel' => [|r y]; last exact: partial_roundK.
by rewrite foldl_rev_cancel' => [//|r y]; exact: full_roundK.
Qed.
End Backwards.

Section Lists.
Variables (T : eqType) (xs : seq T).
Hypotheses (u : uniq xs) (full : forall x, x \in xs).

Fixpoint lists (n : nat) : seq (seq T) :=
  if n is n'.+1 then [seq x :: w | w <- lists n', x <- xs] else [:: [::]].

Lemma lists_all n : all_lists n (lists n).
Proof.
elim: n => [|n [IHu IHm]].
  by split=> // l; rewrite inE; case: l.
split.
  apply: allpairs_uniq => // -[a b] [c d] _ _ /= [-> ->] //.
case=> [|x l].
  by apply/negbTE/allpairsP => -[[a b] /= [_ _]].
rewrite /= eqSS -IHm; apply/allpairsP/idP => [[[a b] /= [ha _ [_ ->]]] //|h].
by exists (l, x).
Qed.

Lemma size_lists n : size (lists n) = (size xs ^ n)%N.
Proof. by elim: n => // n IH; rewrite /= size_allpairs IH expnSr. Qed.

Lemma all_lists_perm n (L : seq (seq T)) : all_lists n L -> perm_eq L (lists n).
Proof.
move=> [uL mL]; have [ul ml] := lists_all n.
by apply: uniq_perm => // l; rewrite mL ml.
Qed.

Lemma all_lists_size n (L : seq (seq T)) : all_lists n L -> size L = (size xs ^ n)%N.
Proof. by move/all_lists_perm/perm_size; rewrite size_lists. Qed.

(** What is hit by an injective function of the lists of length [n], and only that *)
Lemma count_image n m (f : seq T -> seq T) (P : pred (seq T)) L : all_lists m L ->
  (forall w, size w = n -> size (f w) = m /\ P (f w)) ->
  (forall w w', size w = n -> size w' = n -> f w = f w' -> w = w') ->
  (forall l, size l = m -> P l -> exists2 w, size w = n & l = f w) ->
  count P L = (size xs ^ n)%N.
Proof.
move=> [uL mL] Hf inj sur; have [ul ml] := lists_all n.
rewrite -size_filter -(size_lists n) -[size (lists n)](size_map f); apply: perm_size; apply: uniq_perm.
- exact: filter_uniq.
- rewrite map_inj_in_uniq // => w w'; rewrite !ml => /eqP s /eqP s'; exact: inj.
move=> l; rewrite mem_filter mL; apply/andP/mapP => [[Pl /eqP sl]|[w]].
  by have [w sw E] := sur l sl Pl; exists w; rewrite // ml sw.
by rewrite ml => /eqP sw ->; have [-> ->] := Hf w sw.
Qed.

(** A bound for the first element gives one for the list *)
Lemma count_head n (P : pred (seq T)) k L : all_lists n.+1 L ->
  (forall w, size w = n -> (count (fun x => P (x :: w)) xs <= k)%N) ->
  (count P L <= k * size xs ^ n)%N.
Proof.
move=> /all_lists_perm/permP -> H; have [_ ml] := lists_all n.
rewrite -(size_lists n) /= count_flatten -map_comp mulnC.
have : all (fun w => size w == n) (lists n) by apply/allP => w; rewrite ml.
elim: (lists n) => [//|w s IH] /= /andP [/eqP sw hs].
by rewrite mulSn leq_add ?IH // count_map; apply: H.
Qed.
End Lists.
