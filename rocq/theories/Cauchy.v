(** Cauchy matrices are invertible, hence all their square submatrices are. *)
From mathcomp Require Import all_ssreflect all_algebra.
Set Implicit Arguments.
Unset Strict Implicit.
Unset Printing Implicit Defensive.
Import GRing.Theory.
Local Open Scope ring_scope.

Section Cauchy.
Variable F : fieldType.
Variable n : nat.
Variables x y : 'I_n -> F.
Hypothesis xinj : injective x.
Hypothesis yinj : injective y.
Hypothesis n0 : forall i j, x i + y j != 0.

Let C : 'M[F]_n := \matrix_(i, j) (x i + y j)^-1.

Lemma cauchy_unit : C \in unitmx.
Proof.
rewrite -row_free_unit -kermx_eq0; apply/eqP/row_matrixP => r; rewrite row0.
set u := row r _.
have uC : u *m C = 0 by apply/sub_kermxP; apply: row_sub.
pose Pi i := \prod_(k | k != i) ('X + (x k)%:P).
pose P := \sum_i (u 0 i) *: Pi i.
have szP : (size P <= n)%N.
  apply: (leq_trans (size_sum _ _ _)); apply/bigmax_leqP => i _.
  apply: (leq_trans (size_scale_leq _ _)).
  rewrite /Pi size_prod; last by move=> k _; rewrite -size_poly_eq0 size_XaddC.
  rewrite (eq_bigr (fun _ => 2%N)); last by move=> k _; rewrite size_XaddC.
  rewrite sum_nat_const muln2 -addnn.
  have -> : #|(fun k => k != i)| = n.-1.
    by rewrite -[n in RHS]card_ord -(cardC1 i); apply: eq_card => k; rewrite !inE.
  rewrite -addSn -addnBA ?leqnn // subnn addn0 prednK //; exact: leq_ltn_trans (ltn_ord i).
have P0 : P = 0.
  apply: (roots_geq_poly_eq0 (rs := [seq y j | j <- enum 'I_n])).
  - apply/allP => z /mapP [j _ ->]; rewrite rootE horner_sum.
    have -> : \sum_i (u 0 i *: Pi i).[y j] = (\prod_k (x k + y j)) * (u *m C) 0 j.
      rewrite mxE big_distrr /=; apply: eq_bigr => i _.
      rewrite hornerZ /Pi horner_prod mulrCA [C i j]mxE; congr (_ * _).
      rewrite [in RHS](bigD1 i) //= mulrAC mulfV // mul1r.
      by apply: eq_bigr => k _; rewrite !hornerE addrC.
    by rewrite uC mxE mulr0.
  - by rewrite map_inj_uniq // enum_uniq.
  - by rewrite size_map size_enum_ord.
apply/rowP => i; rewrite [in RHS]mxE.
have: P.[- x i] = 0 by rewrite P0 horner0.
rewrite horner_sum (bigD1 i) //= big1 ?addr0; last first.
  move=> k ki; rewrite hornerZ /Pi horner_prod (bigD1 i) 1?eq_sym //=.
  by rewrite !hornerE addNr /= ?(mul0r, mulr0).
rewrite hornerZ /Pi horner_prod => /eqP; rewrite mulf_eq0 => /orP [/eqP //|].
rewrite prodf_seq_eq0 => /hasP [k _ /andP [ki]].
by rewrite !hornerE addrC subr_eq0 (inj_eq xinj) (negPf ki).
Qed.
End Cauchy.

(** The matrix with entries 1/(i+t+j), and its square submatrices. *)
Section Fixed.
Variables (F : fieldType) (t : nat).
Definition cauchy_mx : 'M[F]_t := \matrix_(i, j) ((i + t + j)%:R)^-1.

(** MDS: every square submatrix is invertible. *)
Definition mds_mx (M : 'M[F]_t) : Prop :=
  forall k (f g : 'I_k -> 'I_t), injective f -> injective g -> mxsub f g M \in unitmx.

Hypothesis small : forall m, (0 < m < 3 * t)%N -> m%:R != 0 :> F.

Lemma small_inj a b : (a < t)%N -> (b < t)%N -> (a%:R : F) = b%:R -> a = b.
Proof.
wlog: a b / (a <= b)%N.
  move=> H at_ bt E; case: (leqP a b) => [ab|/ltnW ba]; first exact: H.
  by symmetry; apply: H.
move=> ab at_ bt /eqP; rewrite eq_sym -subr_eq0 -natrB // => z.
apply/eqP; rewrite eqn_leq ab /= leqNgt -subn_gt0; apply/negP => h.
have hs : (0 < b - a < 3 * t)%N; last by have := small hs; rewrite z.
rewrite h /=; by apply: leq_ltn_trans (leq_subr _ _) _; apply: leq_trans bt _; rewrite leq_pmull.
Qed.

Lemma cauchy_mds : mds_mx cauchy_mx.
Proof.
move=> k f g fi gi.
have -> : mxsub f g cauchy_mx = \matrix_(i, j) ((f i + t)%:R + (g j)%:R)^-1.
  by apply/matrixP => i j; rewrite !mxE natrD.
apply: (cauchy_unit (x := fun i => (f i + t)%:R) (y := fun j => (g j)%:R)).
- move=> i j; rewrite !natrD => /addIr /small_inj; rewrite !ltn_ord => /(_ isT isT) /val_inj; exact: fi.
- move=> i j /small_inj; rewrite !ltn_ord => /(_ isT isT) /val_inj; exact: gi.
- move=> i j; rewrite -natrD; apply: small.
  have t0 : (0 < t)%N := leq_ltn_trans (leq0n _) (ltn_ord (f i)).
  rewrite -addnA addnCA addn_gt0 t0 /= mulSn ltn_add2l mul2n -addnn -addSn.
  by apply: leq_add; rewrite // ltnW.
Qed.

Lemma mds_unit (M : 'M[F]_t) : mds_mx M -> M \in unitmx.
Proof. by move=> /(_ t id id) H; rewrite -[M]mxsub_id; apply: H. Qed.
End Fixed.
