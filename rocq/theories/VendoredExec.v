(** The textbook permutation computed on representatives of the elements of a prime field:
    integers of any kind, reduced modulo the prime after each product. *)
From Coq Require Import ZArith NArith Lia.
From Bignums Require Import BigZ.
From mathcomp Require Import all_ssreflect all_algebra.
From Verif Require Import Spec PrimeField SageShipped.
Set Implicit Arguments.
Unset Strict Implicit.
Unset Printing Implicit Defensive.
Import GRing.Theory.
Local Open Scope ring_scope.
Delimit Scope Z_scope with Z.

Section Compute.
Variables (C : Type) (c0 : C) (add mul : C -> C -> C) (red : C -> C) (M : seq (seq C)).
Fixpoint cadd (s c : seq C) : seq C := match s, c with x :: s, k :: c => add x k :: cadd s c | _, _ => s end.
Fixpoint cdot (s c : seq C) : C := match s, c with x :: s, k :: c => add (mul x k) (cdot s c) | _, _ => c0 end.
Definition cbox (x : C) : C :=
  let x := red x in let x2 := red (mul x x) in let x4 := red (mul x2 x2) in red (mul x4 x).
Definition cmix (s : seq C) : seq C := [seq red (cdot r s) | r <- M].
Definition cfull (s c : seq C) : seq C := cmix [seq cbox x | x <- cadd s c].
Definition cpartial (s c : seq C) : seq C := cmix (if cadd s c is x :: s then cbox x :: s else [::]).
Fixpoint citer (t n : nat) (f : seq C -> seq C -> seq C) (s rc : seq C) : seq C * seq C :=
  if n is n.+1 then citer t n f (f s (take t rc)) (drop t rc) else (s, rc).
Definition cposeidon (t Rf Rp : nat) (rc s : seq C) : seq C :=
  let: (s, rc) := citer t Rf cfull s rc in
  let: (s, rc) := citer t Rp cpartial s rc in
  (citer t Rf cfull s rc).1.

Variables (F : fieldType) (t1 : nat) (phi : C -> F).
Local Notation t := (1 + t1)%N.
Local Notation vec := ('cV[F]_(1 + t1)).
Hypothesis phi0 : phi c0 = 0.
Hypothesis phiD : forall a b, phi (add a b) = phi a + phi b.
Hypothesis phiM : forall a b, phi (mul a b) = phi a * phi b.
Hypothesis phiR : forall a, phi (red a) = phi a.
Hypothesis Mr : size M = t.
Hypothesis Mc : all (fun r => size r == t) M.
Let A : 'M[F]_t := \matrix_(i, j) phi (nth c0 (nth [::] M i) j).
Let cv (s : seq C) : vec := \col_i phi (nth c0 s i).
Let S (x : F) := x ^+ 5.

Lemma size_cadd s c : size (cadd s c) = size s.
Proof. by elim: s c => [|x s IH] [|k c] //=; rewrite IH. Qed.
Lemma nth_cadd s c i : (i < size s)%N -> phi (nth c0 (cadd s c) i) = phi (nth c0 s i) + phi (nth c0 c i).
Proof. by elim: s c i => [//|x s IH] [|k c] [|i] //=; rewrite ?phi0 ?addr0 //; apply: IH. Qed.

Lemma cdotE n (r s : seq C) : size r = n -> size s = n -> phi (cdot r s) = \sum_(i < n) phi (nth c0 r i) * phi (nth c0 s i).
Proof.
elim: n r s => [|n IH] [|x r] [|y s] //=; first by rewrite big_ord0 phi0.
by move=> [H1] [H2]; rewrite phiD phiM (IH _ _ H1 H2) big_ord_recl.
Qed.

Lemma cmixE s : size s = t -> cv (cmix s) = A *m cv s.
Proof.
move=> ss; apply/colP => i; rewrite !mxE (nth_map [::]) ?Mr // phiR (@cdotE t) //; last first.
  by apply/eqP; apply: (all_nthP [::] Mc); rewrite Mr.
by apply: eq_bigr => j _; rewrite !mxE.
Qed.

Lemma cboxE x : phi (cbox x) = S (phi x).
Proof. by rewrite /cbox phiR phiM phiR phiM phiR phiM !phiR /S !exprS expr0 mulr1 -!mulrA. Qed.

Let rcol (rc : seq C) r : vec := \col_i phi (nth c0 rc (r * t + i)).

Lemma cfullE s rc r : size s = t -> cv (cfull s (take t (drop (r * t) rc))) = full_round S A (cv s) (rcol rc r).
Proof.
move=> ss; rewrite /cfull cmixE ?size_map ?size_cadd //; congr (_ *m _); apply/colP => i; rewrite !mxE.
by rewrite (nth_map c0) ?size_cadd ?ss // cboxE nth_cadd ?ss // nth_take // nth_drop.
Qed.
Lemma cpartialE s rc r : size s = t -> cv (cpartial s (take t (drop (r * t) rc))) = partial_round S A (cv s) (rcol rc r).
Proof.
move=> ss; rewrite /cpartial; have : size (cadd s (take t (drop (r * t) rc))) = t by rewrite size_cadd.
have H (i : 'I_t) : phi (nth c0 (cadd s (take t (drop (r * t) rc))) i) = (cv s + rcol rc r) i 0.
  by rewrite !mxE nth_cadd ?ss // nth_take // nth_drop.
case: (cadd _ _) H => [//|x s'] H sz; rewrite cmixE //; congr (_ *m _); apply/colP => i; rewrite 2!mxE -H.
by case: i => [[|i] ir] //=; rewrite cboxE.
Qed.
Lemma size_cfull s c : size (cfull s c) = t. Proof. by rewrite size_map. Qed.
Lemma size_cpartial s c : size (cpartial s c) = t. Proof. by rewrite size_map. Qed.

Lemma citerE n f (g : vec -> vec -> vec) s rc r : size s = t ->
  (forall s c, size (f s c) = t) ->
  (forall s r, size s = t -> cv (f s (take t (drop (r * t) rc))) = g (cv s) (rcol rc r)) ->
  let: (s', rc') := citer t n f s (drop (r * t) rc) in
  [/\ size s' = t, rc' = drop ((r + n) * t) rc & cv s' = foldl (fun x r => g x (rcol rc r)) (cv s) (iota r n)].
Proof.
move=> + H1 H2; elim: n s r => [|n IH] s r ss; first by rewrite /= addn0.
rewrite [citer _ _ _ _ _]/= drop_drop -mulSn [iota _ _]/= [foldl _ _ _]/= -H2 // addnS -addSn.
by apply: IH.
Qed.

Lemma cposeidonE Rf Rp rc s : size s = t ->
  size (cposeidon t Rf Rp rc s) = t /\
  cv (cposeidon t Rf Rp rc s) = poseidon S A (rcol rc) Rf Rp (cv s).
Proof.
move=> ss; rewrite /cposeidon /poseidon -{1 2}[rc]drop0 -{1 2}[0%N]/((0 * t)%N).
have := @citerE Rf _ (full_round S A) s rc 0 ss size_cfull (fun s r => @cfullE s rc r).
case: citer => s1 r1 [ss1 -> <-]; rewrite add0n.
have := @citerE Rp _ (partial_round S A) s1 rc Rf ss1 size_cpartial (fun s r => @cpartialE s rc r).
case: citer => s2 r2 [ss2 -> <-].
have := @citerE Rf _ (full_round S A) s2 rc (Rf + Rp) ss2 size_cfull (fun s r => @cfullE s rc r).
by case: citer => s3 r3 [ss3 _ <-].
Qed.
End Compute.

(** ** With machine integers *)
Definition bposeidon (p : Z) (M : seq (seq Z)) (t Rf Rp : nat) (rc s : seq Z) : seq Z :=
  let q := BigZ.of_Z p in
  [seq BigZ.to_Z y | y <- cposeidon BigZ.zero BigZ.add BigZ.mul (fun x => BigZ.modulo x q)
     [seq [seq BigZ.of_Z z | z <- r] | r <- M] t Rf Rp [seq BigZ.of_Z z | z <- rc] [seq BigZ.of_Z z | z <- s]].

Lemma bposeidonE (PF : prime_field) (t1 : nat) (M : seq (seq Z)) Rf Rp rc s :
  size M = (1 + t1)%N -> all (fun r => size r == 1 + t1)%N M -> size s = (1 + t1)%N ->
  let out := bposeidon (pf_p PF) M (1 + t1) Rf Rp rc s in
  size out = (1 + t1)%N /\
  \col_i pf_of PF (nth 0%Z out i) =
  poseidon (fun x => x ^+ 5) (\matrix_(i < 1 + t1, j < 1 + t1) pf_of PF (nth 0%Z (nth [::] M i) j))
    (fun r => \col_i pf_of PF (nth 0%Z rc (r * (1 + t1) + i))) Rf Rp (\col_i pf_of PF (nth 0%Z s i)).
Proof.
move=> Mr Mc ss out; rewrite /out /bposeidon; set q := BigZ.of_Z (pf_p PF).
pose phi (x : BigZ.t) := pf_of PF (BigZ.to_Z x).
have phiZ l i : phi (nth BigZ.zero [seq BigZ.of_Z z | z <- l] i) = pf_of PF (nth 0%Z l i).
  case: (ltnP i (size l)) => il; first by rewrite (nth_map 0%Z) // /phi BigZ.spec_of_Z.
  by rewrite !nth_default ?size_map.
have p0 : phi BigZ.zero = 0 by exact: pf_of_0.
have pD a b : phi (BigZ.add a b) = phi a + phi b by rewrite /phi BigZ.spec_add pf_of_add.
have pM a b : phi (BigZ.mul a b) = phi a * phi b by rewrite /phi BigZ.spec_mul pf_of_mul.
have pR a : phi (BigZ.modulo a q) = phi a by rewrite /phi BigZ.spec_modulo /q BigZ.spec_of_Z pf_of_mod.
have Mr' : size [seq [seq BigZ.of_Z z | z <- r] | r <- M] = (1 + t1)%N by rewrite size_map.
have Mc' : all (fun r => size r == 1 + t1)%N [seq [seq BigZ.of_Z z | z <- r] | r <- M].
  by rewrite all_map; apply: sub_all Mc => r /=; rewrite size_map.
have ss' : size [seq BigZ.of_Z z | z <- s] = (1 + t1)%N by rewrite size_map.
have [H1 H2] := cposeidonE p0 pD pM pR Mr' Mc' Rf Rp [seq BigZ.of_Z z | z <- rc] ss'.
split; first by rewrite size_map.
have -> : \matrix_(i < 1 + t1, j < 1 + t1) pf_of PF (nth 0%Z (nth [::] M i) j) =
    \matrix_(i, j) phi (nth BigZ.zero (nth [::] [seq [seq BigZ.of_Z z | z <- r] | r <- M] i) j).
  by apply/matrixP => i j; rewrite !mxE (nth_map [::]) ?Mr // phiZ.
have -> : \col_(i < 1 + t1) pf_of PF (nth 0%Z s i) = \col_i phi (nth BigZ.zero [seq BigZ.of_Z z | z <- s] i).
  by apply/colP => i; rewrite !mxE phiZ.
rewrite (@eq_poseidon _ _ _ _ _ (fun r => \col_i phi (nth BigZ.zero [seq BigZ.of_Z z | z <- rc] (r * (1 + t1) + i)))); last first.
  by move=> r; apply/colP => i; rewrite !mxE phiZ.
rewrite -H2; apply/colP => i; rewrite !mxE; set l := cposeidon _ _ _ _ _ _ _ _ _ _.
by rewrite (nth_map BigZ.zero) // -/l H1.
Qed.
