(** The deterministic Cauchy matrix of the generator: when it exists, that it is
    MDS, and that its optimization passes the generator's own assertions. *)
From Coq Require Import ZArith NArith Lia PeanoNat.
From mathcomp Require Import all_ssreflect all_algebra.
From Verif Require Import Base Matrix MatrixSpec MatrixProofs MatrixProps Params Spec Cauchy.
From Verif Require Import PrimeField Transcript Mds MdsProofs.
Set Implicit Arguments.
Unset Strict Implicit.
Unset Printing Implicit Defensive.
Import GRing.Theory.
Local Open Scope ring_scope.
Local Open Scope rust_scope.
Delimit Scope Z_scope with Z.

Lemma for_in_grows A T (xs : seq T) (f : T -> seq A -> outcome (seq A)) c s s' :
  (forall x s s', f x s = Ret s' -> size s' = (size s + c)%N) ->
  for_in xs f s = Ret s' -> size s' = (size s + size xs * c)%N.
Proof.
move=> H; elim: xs s => [|x xs IH] s /=; first by case=> <-; rewrite addn0.
by case E: (f x s) => [s1|//] /= /IH ->; rewrite (H _ _ _ E) mulSn addnA.
Qed.

Lemma ZaddN a b : Z.of_nat (a + b)%N = (Z.of_nat a + Z.of_nat b)%Z.
Proof. by rewrite -plusE Nat2Z.inj_add. Qed.

Section Cauchy.
Variable PF : prime_field.
Local Notation p := (pf_p PF).

Lemma small_of_p t : (3 * Z.of_nat t <= p)%Z ->
  forall m, (0 < m < 3 * t)%N -> m%:R != 0 :> PF.
Proof. by move=> h m /andP [m0 /ltP hm]; apply: pf_nat_neq0 => //; rewrite -?multE in hm; lia. Qed.

(** Every width with 3t <= p: no division by zero, entries 1 / (i + t + j). *)
Lemma cauchy_elementsE t : (3 * Z.of_nat t <= p)%Z ->
  cauchy_elements PF t = Ret (elements (ofM (cauchy_mx PF t))).
Proof.
move=> /small_of_p small; rewrite /cauchy_elements.
set xs := map _ (range 0 t); set ys := map _ (range t (2 * t)).
have sx : size xs = t by rewrite size_map size_range subn0.
have sy : size ys = t by rewrite size_map size_range mul2n -addnn addnK.
have xsE i : (i < t)%N -> aget xs i = Ret i%:R.
  move=> hi; rewrite (aget_nth 0) ?sx // (nth_map 0%N) ?size_range ?subn0 //.
  by rewrite nth_iota ?subn0 // pf_of_nat.
have ysE i : (i < t)%N -> aget ys i = Ret (t + i)%:R.
  move=> hi; rewrite (aget_nth 0) ?sy // (nth_map 0%N) ?size_range ?mul2n -?addnn ?addnK //.
  by rewrite nth_iota ?addnK // pf_of_nat.
have nz i j : (i < t)%N -> (j < t)%N -> (i%:R + (t + j)%:R != 0 :> PF).
  move=> hi hj; rewrite -natrD small //.
  have t0 : (0 < t)%N := leq_ltn_trans (leq0n _) hi.
  apply/andP; split; first by rewrite !addn_gt0 t0 orbT.
  move: hi hj => /ltP hi /ltP hj; apply/ltP; rewrite -!plusE -multE; lia.
pose v i j : outcome PF := if (i < t)%N && (j < t)%N then Ret ((i + t + j)%:R^-1) else Panic.
rewrite (eq_in_for_in (g := fun i => for_in (range 0 t) (fun j => push (v i j)))).
  rewrite (push_mkels (f := mxf (cauchy_mx PF t))) => [|i j hi hj].
    by rewrite ofM_mkm.
  by rewrite /v hi hj (mxf_at _ hi hj) mxE.
move=> i els; rewrite mem_iota add0n subn0 => /= hi.
apply: eq_in_for_in => j els'; rewrite mem_iota add0n subn0 => /= hj.
rewrite xsE // bind_ret ysE // bind_ret require_ret ?nz // ysE // bind_ret /fdiv (negPf (nz _ _ hi hj)).
by rewrite /v hi hj div1r -natrD addnA.
Qed.

Lemma v1_generate_mdsE (L : Type) (i : input L) : in_p i = p ->
  v1_generate_mds PF i =
  if (0 < in_t i <= 8)%N && (2 ^ 127 <=? p)%Z then Ret (ofM (cauchy_mx PF (in_t i))) else Panic.
Proof.
move=> hp; have p1 := pf_p_gt1 PF; rewrite /v1_generate_mds /fixed_cauchy_matrix hp.
set t := in_t i.
have -> : (num_bits p <? 128)%Z = ~~ (2 ^ 127 <=? p)%Z.
  rewrite /num_bits; case: Z.leb_spec; first by lia.
  move=> _; case: (Z.leb_spec (2 ^ 127) p) => h.
    by have := Z.log2_le_pow2 p 127 ltac:(lia); case: Z.ltb_spec => //; lia.
  by have := Z.log2_lt_pow2 p 127 ltac:(lia); case: Z.ltb_spec => //; lia.
case: (Z.leb_spec (2 ^ 127) p) => h; rewrite ?andbF /=; last by case: ifP.
rewrite andbT; case: (ltnP 8 t) => t8.
  rewrite andbF; case: ifP => // _.
  rewrite /cauchy_elements.
  case E: (for_in _ _ _) => [els|//]; rewrite bind_ret.
  have sz : size els = (t * t)%N.
    rewrite (@for_in_grows _ _ _ _ t _ _ _ E) ?size_range ?subn0 // => i' s1 s2.
    have -> : (size s1 + t = size s1 + size (range 0 t) * 1)%N by rewrite size_range subn0 muln1.
    apply: for_in_grows => j s3 s4.
    case: (aget _ i') => // a; rewrite bind_ret; case: (aget _ i') => // b; rewrite bind_ret.
    case: (require _) => // -[]; rewrite bind_ret; case: (aget _ j) => // c; rewrite bind_ret /push.
    by case: (fdiv _ _) => // d [<-]; rewrite size_rcons addn1.
  rewrite /from_vec sz Nat.sqrt_square /mnew eqxx /= sz eqxx /= /determinant det_rec_big //.
case: ltnP => t0 /=; last first.
  move: t0; rewrite leqn0 => /eqP ->.
  by rewrite muln0; case: ifP => //.
case: Z.ltb_spec => h2.
  by move: t8 => /leP t8; move: h2; rewrite -multE; lia.
rewrite cauchy_elementsE; last by move: t8 => /leP; lia.
rewrite bind_ret ofM_mkm from_vec_mkels bind_ret -ofM_mkm determinant_ofM ?t0 // bind_ret.
rewrite require_ret // -unitfE -unitmxE; apply: mds_unit; apply: cauchy_mds.
by apply: small_of_p; move: t8 => /leP; lia.
Qed.

Lemma generated_mds t : (3 * Z.of_nat t <= p)%Z -> mds_mx (cauchy_mx PF t).
Proof. by move=> h; apply: cauchy_mds; apply: small_of_p. Qed.
End Cauchy.

(** * The optimization assertions hold for the Cauchy matrix *)

(** Solution of [hat(M) x = w] over the rationals: numerators, denominators and a
    common denominator of everything that occurs, for t - 1 = 1, ..., 7. *)
Definition cert (t1 : nat) : seq (Z * Z) * Z :=
  nth ([::], 1%Z) [::
    ([::], 1);
    ([:: (4, 3)], 12);
    ([:: (3, 1); (-21, 10)], 420);
    ([:: (24, 5); (-36, 5); (24, 7)], 2520);
    ([:: (20, 3); (-110, 7); (110, 7); (-715, 126)], 1081080);
    ([:: (60, 7); (-195, 7); (130, 3); (-65, 2); (104, 11)], 720720);
    ([:: (21, 2); (-175, 4); (280, 3); (-1190, 11); (714, 11); (-2261, 143)], 232792560);
    ([:: (112, 9); (-952, 15); (1904, 11); (-9044, 33); (36176, 143); (-18088, 143);
         (5168, 195)], 3491888400)]%Z t1.
Definition num t1 j := (nth (1, 1)%Z (cert t1).1 j).1.
Definition den t1 j := (nth (1, 1)%Z (cert t1).1 j).2.
Definition cd t1 := (cert t1).2.
Definition hatd (t1 i j : nat) : Z := (Z.of_nat i + 1 + (Z.of_nat t1 + 1) + (Z.of_nat j + 1))%Z.
Definition wd (t1 i : nat) : Z := (Z.of_nat i + 1 + (Z.of_nat t1 + 1))%Z.
Definition zsum (s : seq Z) : Z := foldr Z.add 0%Z s.
Definition cert_ok (t1 : nat) : bool :=
  [&& (0 <? cd t1)%Z, (cd t1 <? 2 ^ 127)%Z,
      all (fun i => (cd t1 mod wd t1 i =? 0)%Z &&
        (zsum [seq num t1 j * (cd t1 / (hatd t1 i j * den t1 j)) | j <- iota 0 t1]
           =? cd t1 / wd t1 i)%Z) (iota 0 t1),
      all (fun i => all (fun j => (cd t1 mod (hatd t1 i j * den t1 j) =? 0)%Z) (iota 0 t1)) (iota 0 t1) &
      all (fun j => [&& ~~ (num t1 j =? 0)%Z, ~~ (num t1 j =? den t1 j)%Z, (0 <? den t1 j)%Z,
        (Z.abs (num t1 j) + den t1 j <? 2 ^ 127)%Z & true]) (iota 0 t1)].
Lemma certs_ok : all cert_ok (iota 1 7).
Proof. by vm_compute. Qed.

Section Dense.
Variable PF : prime_field.
Local Notation p := (pf_p PF).
Hypothesis big : (2 ^ 127 <= p)%Z.
Variable t1 : nat.
Hypothesis ht1 : (0 < t1 < 8)%N.
Local Notation M := (cauchy_mx PF (1 + t1)).

Lemma frE x y d : (0 < d < p)%Z -> (d mod y = 0)%Z -> (0 < y)%Z ->
  pf_of PF x / pf_of PF y = pf_of PF (x * (d / y))%Z / pf_of PF d.
Proof.
move=> hd hy y0; have E : d = (y * (d / y))%Z by have := Z.div_mod d y ltac:(lia); lia.
have nd : pf_of PF d != 0 by apply: pf_of_small_neq0.
have ndy : pf_of PF (d / y)%Z != 0 by move: nd; rewrite {1}E pf_of_mul mulf_eq0 negb_or => /andP [].
have ny : pf_of PF y != 0 by move: nd; rewrite {1}E pf_of_mul mulf_eq0 negb_or => /andP [].
by rewrite pf_of_mul {2}E pf_of_mul invfM mulrACA divff // mulr1.
Qed.

Lemma sum_pf_of (f : nat -> Z) n :
  \sum_(j < n) pf_of PF (f j) = pf_of PF (zsum [seq f j | j <- iota 0 n]).
Proof.
rewrite -(big_mkord xpredT (fun j => pf_of PF (f j))) /index_iota subn0.
elim: (iota 0 n) => [|k s IH] /=; first by rewrite big_nil pf_of_0.
by rewrite big_cons IH pf_of_add.
Qed.

Lemma sol_ok : cert_ok t1.
Proof. by apply: (allP certs_ok); rewrite mem_iota. Qed.

Lemma M_unit : M \in unitmx.
Proof.
apply: mds_unit; apply: generated_mds.
by case/andP: ht1 => _ /ltP; rewrite Nat2Z.inj_add; lia.
Qed.
Lemma hat_unit : drsubmx M \in unitmx.
Proof.
have H := @generated_mds PF (1 + t1) _.
have -> : drsubmx M = mxsub (@rshift 1 t1) (@rshift 1 t1) M by apply/matrixP => i j; rewrite !mxE.
apply: H; [|exact: rshift_inj|exact: rshift_inj].
by case/andP: ht1 => _ /ltP; rewrite Nat2Z.inj_add; lia.
Qed.

Definition sol : 'cV[PF]_t1 := \col_j (pf_of PF (num t1 j) / pf_of PF (den t1 j)).

Lemma hat_sol : drsubmx M *m sol = dlsubmx M.
Proof.
have /and5P [/Z.ltb_lt d0 /Z.ltb_lt d1 /allP c1 /allP c2 /allP c3] := sol_ok.
apply/colP => i; rewrite !mxE.
have iin : (i : nat) \in iota 0 t1 by rewrite mem_iota ltn_ord.
have /andP [/Z.eqb_eq w0 /Z.eqb_eq E] := c1 _ iin; have /allP c2i := c2 _ iin.
rewrite (eq_bigr (fun j : 'I_t1 =>
  pf_of PF (num t1 j * (cd t1 / (hatd t1 i j * den t1 j)))%Z / pf_of PF (cd t1))).
  rewrite -mulr_suml (sum_pf_of (fun j => (num t1 j * (cd t1 / (hatd t1 i j * den t1 j)))%Z)) E.
  have := @frE 1 (wd t1 i) (cd t1) ltac:(lia) w0 ltac:(rewrite /wd; lia).
  rewrite pf_of_1 Z.mul_1_l div1r => <-; congr (_^-1); rewrite addn0 -pf_of_nat; congr (pf_of _ _).
  by rewrite /wd -[nat_of_ord (rshift 1 i)]/(1 + i)%N !ZaddN; lia.
move=> j _; have jin : (j : nat) \in iota 0 t1 by rewrite mem_iota ltn_ord.
have /Z.eqb_eq hm := c2i _ jin; have /and5P [_ _ /Z.ltb_lt dj _ _] := c3 _ jin.
rewrite -(@frE _ (hatd t1 i j * den t1 j)%Z) //; last by rewrite /hatd; nia.
  rewrite !mxE pf_of_mul invfM [LHS]mulrCA; congr (_ * (_^-1 * _)).
  rewrite -pf_of_nat; congr (pf_of _ _); rewrite /hatd.
  rewrite -[nat_of_ord (rshift 1 i)]/(1 + i)%N -[nat_of_ord (rshift 1 j)]/(1 + j)%N !ZaddN; lia.
lia.
Qed.

Lemma w_hatE : w_hat_mx M = sol.
Proof. by rewrite /w_hat_mx -hat_sol mulKmx ?hat_unit. Qed.

Lemma inv_nat_neq n : (1 < n)%N -> (Z.of_nat n < p)%Z -> (n%:R^-1 != 0 :> PF) && (n%:R^-1 != 1 :> PF).
Proof.
move=> n1 np; have n0 : n%:R != 0 :> PF by apply: pf_nat_neq0 => //; apply: ltnW.
rewrite invr_eq0 n0 /= invr_eq1 -[1]/(1%:R) -subr_eq0 -natrB ?pf_nat_neq0 // ?subn_gt0 // 1?ltnW //.
by move: n1 => /ltP n1; rewrite -minusE; lia.
Qed.

Lemma cauchy_dense : denseb M.
Proof.
have /and5P [/Z.ltb_lt d0 /Z.ltb_lt d1 /allP c1 /allP c2 /allP c3] := sol_ok.
case/andP: ht1 => /ltP t0 /ltP t8.
rewrite /denseb !mxE /= !addn0 add0n.
have /andP [-> ->] : ((1 + t1)%:R^-1 != 0 :> PF) && ((1 + t1)%:R^-1 != 1 :> PF).
  by apply: inv_nat_neq; [apply/ltP|]; rewrite -!plusE; lia.
rewrite !andTb; apply/andP; split; apply/forallP => j.
  rewrite !mxE /=; apply: inv_nat_neq; first by apply/ltP; rewrite -!plusE; lia.
  by have /ltP := ltn_ord j; rewrite -!plusE; lia.
have jin : (j : nat) \in iota 0 t1 by rewrite mem_iota ltn_ord.
have /and5P [n0 n1 /Z.ltb_lt dj /Z.ltb_lt s _] := c3 _ jin.
have dn : pf_of PF (den t1 j) != 0 by apply: pf_of_small_neq0; lia.
have nz a : a <> 0%Z -> (Z.abs a < p)%Z -> pf_of PF a != 0.
  move=> a0 ap; case: (Z.lt_ge_cases 0 a) => h; first by apply: pf_of_small_neq0; lia.
  by rewrite -oppr_eq0 -pf_of_opp; apply: pf_of_small_neq0; lia.
rewrite w_hatE !mxE mulf_eq0 invr_eq0 (negPf dn) orbF nz; [|by apply/Z.eqb_neq; rewrite (negPf n0)|lia].
rewrite -subr_eq0 -(divff dn) -mulrBl mulf_eq0 invr_eq0 (negPf dn) orbF -pf_of_sub nz //; last by lia.
by move: n1 => /negPf /Z.eqb_neq; lia.
Qed.

Lemma cauchy_optimized r : (0 < r_P r)%N ->
  mds_generate_optimized (ofM M) (1 + t1) r = Ret (opt_result M r).
Proof. by move=> r0; rewrite mds_generate_optimizedE // M_unit hat_unit cauchy_dense. Qed.
End Dense.
