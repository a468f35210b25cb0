(** The register visits every nonzero state. *)
From Coq Require Import ZArith NArith Lia.
From mathcomp Require Import all_ssreflect.
From Verif Require Import PrimeLib GrainGen GrainPeriod GrainProofs.
Set Implicit Arguments.
Unset Strict Implicit.
Unset Printing Implicit Defensive.

Section Orbit.
Variables (w n : nat).
Variable f : w.-tuple bool -> w.-tuple bool.
Hypothesis fi : injective f.
Let zt : w.-tuple bool := nseq_tuple w false.
Hypothesis f0 : f zt = zt.
Hypothesis fmin : forall s d, s != zt -> 0 < d < n -> iter d f s != s.
Hypothesis nE : n.+1 = 2 ^ w.

Lemma orbit_all s t : s != zt -> t != zt -> exists2 k, k < n & iter k f s = t.
Proof.
move=> sz tz.
have oz : fingraph.order f s > 0 by exact: fingraph.order_gt0.
have on : n <= fingraph.order f s.
  rewrite leqNgt; apply/negP => lt; have := fmin sz (d := fingraph.order f s).
  by rewrite oz lt => /(_ isT) /eqP; apply; exact: iter_order.
have sub : fconnect f s \subset predC1 zt.
  apply/subsetP => x; rewrite !inE => /iter_findex E; apply: contra sz => /eqP xz.
  have : iter (findex f s x) f s = iter (findex f s x) f zt.
    by rewrite E xz; elim: (findex _ _ _) => //= k <-.
  by move=> H; apply/eqP; elim: (findex f s x) H => //= k IH /fi.
have cc : #|predC1 zt| = n.
  by have := cardC1 zt; rewrite card_tuple card_bool -nE.
have eqc : fconnect f s =i predC1 zt.
  apply/subset_cardP => //; apply/eqP; rewrite eqn_leq subset_leq_card //= cc.
  exact: on.
have ct : fconnect f s t by rewrite -[fconnect f s t]/(t \in fconnect f s) eqc !inE.
exists (findex f s t); last exact: iter_findex.
apply: leq_trans (findex_max ct) _.
by rewrite -cc; exact: subset_leq_card.
Qed.
End Orbit.

Lemma fullP n : Z.of_nat n = Zpos full -> n.+1 = (2 ^ 80)%N.
Proof.
move=> H; apply: Nat2Z.inj; rewrite Nat2Z.inj_succ H Zofnat_expn.
by have -> : Z.of_nat 80 = 80%Z by [].
Qed.

Lemma full_pred : Pos.to_nat full = (2 ^ 80).-1%N.
Proof. by rewrite -(fullP (positive_nat_Z full)) -pred_Sn. Qed.

Lemma size_step80 (s : 80.-tuple bool) : size (step s) == 80.
Proof. by rewrite size_step size_tuple. Qed.
Definition stept (s : 80.-tuple bool) : 80.-tuple bool := Tuple (size_step80 s).
Lemma val_iter k (s : 80.-tuple bool) : val (iter k stept s) = iter k step (val s).
Proof. by elim: k => //= k ->. Qed.

Lemma orbit_gen n (s t : bits) : n.+1 = (2 ^ 80)%N ->
  (forall s, size s = 80 -> iter n step s = s) ->
  (forall s d, size s = 80 -> s <> zero -> (0 < d < n)%N -> iter d step s <> s) ->
  live s -> live t -> exists2 k, (k < n)%N & iter k step s = t.
Proof.
move=> nE Hn Hd [/eqP ss sz] [/eqP st tz].
pose s' := Tuple ss; pose t' := Tuple st.
have n0 : (0 < n)%N by rewrite lt0n; apply/eqP => z; move: nE; rewrite z => /(congr1 odd); rewrite oddX.
have fi : injective stept.
  have ii : injective (iter n.-1 stept \o stept).
    move=> a b /= /(congr1 val); rewrite -!iterSr prednK // !val_iter !Hn ?size_tuple //.
    exact: val_inj.
  by move=> a b E; apply: ii => /=; rewrite E.
have vz : val (nseq_tuple 80 false) = zero by [].
have [k kn E] : exists2 k, (k < n)%N & iter k stept s' = t'.
  apply: (@orbit_all 80 n stept fi) => //.
  - exact: val_inj.
  - move=> a d az dn; apply/eqP => /(congr1 val); rewrite val_iter; apply: Hd => //; first exact: size_tuple.
    by move=> H; case/eqP: az; apply: val_inj.
  - by apply/eqP => /(congr1 val).
  - by apply/eqP => /(congr1 val).
by exists k => //; have := congr1 val E; rewrite val_iter.
Qed.

Lemma orbit_step (s t : bits) : live s -> live t -> exists2 k, (k < (2 ^ 80).-1)%N & iter k step s = t.
Proof.
rewrite -full_pred; exact (orbit_gen (fullP (positive_nat_Z full)) full_iter min_iter).
Qed.
