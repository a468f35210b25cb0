(** The generated matrices: Cauchy matrix, M', M'', equivalent sparse matrices. *)
From Coq Require Import ZArith NArith Lia PeanoNat.
From mathcomp Require Import all_ssreflect all_algebra.
From Verif Require Import Base Matrix MatrixSpec MatrixProofs MatrixProps Params Spec Cauchy.
From Verif Require Import PrimeField Transcript Mds.
Set Implicit Arguments.
Unset Strict Implicit.
Unset Printing Implicit Defensive.
Import GRing.Theory.
Local Open Scope ring_scope.
Local Open Scope rust_scope.
Delimit Scope Z_scope with Z.

Lemma require_ret (b : bool) B (k : unit -> outcome B) : b -> bind (require b) k = k tt.
Proof. by move->. Qed.

Section Generic.
Variable F : fieldType.

Lemma push_row n c (v : nat -> outcome F) f s :
  (forall j, (n <= j < n + c)%N -> v j = Ret (f j)) ->
  for_in (iota n c) (fun j => push (v j)) s = Ret (s ++ [seq f j | j <- iota n c]).
Proof.
elim: c n s => [|c IH] n s H /=; first by rewrite cats0.
rewrite {1}/push H ?leqnn ?addnS ?ltnS ?leq_addr //= IH ?cat_rcons // => j /andP [h1 h2].
by rewrite H // (ltnW h1) addnS.
Qed.

Lemma push_mkels r c (v : nat -> nat -> outcome F) f s :
  (forall i j, (i < r)%N -> (j < c)%N -> v i j = Ret (f i j)) ->
  for_in (range 0 r) (fun i => for_in (range 0 c) (fun j => push (v i j))) s
  = Ret (s ++ mkels r c f).
Proof.
rewrite /range !subn0 /mkels => H.
have : {subset iota 0 r <= [pred i | (i < r)%N]} by move=> i; rewrite mem_iota inE.
elim: (iota 0 r) s => [|i l IH] s sub /=; first by rewrite cats0.
rewrite (push_row (f := f i)) => [|j hj]; last first.
  by apply: H => //; apply: (sub i); rewrite mem_head.
by rewrite /= IH ?catA // => k kl; apply: sub; rewrite inE kl orbT.
Qed.

Lemma from_vec_mkels n f : from_vec (mkels n n f) = Ret (mkm n n f : rmat F).
Proof. by rewrite /from_vec size_mkels Nat.sqrt_square new_mkm. Qed.

Lemma mxf_block d (a : 'M[F]_1) (b : 'rV[F]_d) (c : 'cV[F]_d) (e : 'M[F]_d) i j :
  (i < d.+1)%N -> (j < d.+1)%N -> mxf (block_mx a b c e : 'M[F]_(1 + d)) i j =
  match i, j with
  | 0, 0 => a 0 0
  | 0, j'.+1 => mxf b 0%N j'
  | i'.+1, 0 => mxf c i' 0%N
  | i'.+1, j'.+1 => mxf e i' j'
  end.
Proof.
have o0 (h : (0 < 1 + d)%N) : Ordinal h = lshift d (0 : 'I_1) by exact: val_inj.
have oS k (h : (k.+1 < 1 + d)%N) (h' : (k < d)%N) : Ordinal h = rshift 1 (Ordinal h') by exact: val_inj.
move=> hi hj; rewrite (@mxf_at _ (1 + d) (1 + d) _ i j hi hj).
case: i j hi hj => [|i] [|j] hi hj.
- by rewrite !o0 block_mxEul.
- rewrite o0 (oS _ _ hj) block_mxEur (@mxf_at _ _ _ b 0 j isT hj).
  by congr (b _ _); apply: val_inj.
- rewrite o0 (oS _ _ hi) block_mxEdl (@mxf_at _ _ _ c i 0 hi isT).
  by congr (c _ _); apply: val_inj.
- by rewrite (oS _ _ hi) (oS _ _ hj) block_mxEdr (@mxf_at _ _ _ e i j hi hj).
Qed.

Lemma get_mxf r c (A : 'M[F]_(r, c)) i j : (i < r)%N -> (j < c)%N ->
  get_element (ofM A) i j = Ret (mxf A i j).
Proof. by move=> hi hj; rewrite ofM_mkm get_mkm. Qed.

Lemma prime_of_ofM d (A : 'M[F]_d) : prime_of (ofM A) = Ret (ofM (diag1 A)).
Proof.
rewrite /prime_of -[n_cols (ofM A)]/d.
rewrite (push_mkels (f := mxf (diag1 A : 'M[F]_(1 + d)))).
  by rewrite bind_ret cat0s from_vec_mkels ofM_mkm.
move=> i j hi hj; rewrite /diag1 mxf_block //.
case: i j hi hj => [|i] [|j] hi hj //=; rewrite ?mxE //.
- by rewrite (@mxf_at _ 1 d _ 0 j isT hj) mxE.
- by rewrite (@mxf_at _ d 1 _ i 0 hi isT) mxE.
- by rewrite /= !subn1 /= get_mxf.
Qed.

Lemma mul_ofM r c s (A : 'M[F]_(r, c)) (B : 'M[F]_(c, s)) :
  (0 < c)%N -> mul (ofM A) (ofM B) = Ret (ofM (A *m B)).
Proof. by move=> c0; rewrite /mul mat_mul_ofM. Qed.

Definition sparse2 d (m00 : F) (v : 'rV[F]_d) (w : 'cV[F]_d) : 'M[F]_(1 + d) :=
  block_mx m00%:M v w 1%:M.

Lemma doubleprime_ofM d (Hi : 'M[F]_d) (w : 'cV[F]_d) (v : 'rV[F]_d) m00 : (0 < d)%N ->
  doubleprime_of (ofM Hi) (ofM w) (ofM v) m00 = Ret (ofM (sparse2 m00 v (Hi *m w))).
Proof.
move=> d0; rewrite /doubleprime_of -[n_cols (ofM Hi)]/d subn1 [d.+1.-1]/= identity_ofM bind_ret mul_ofM // bind_ret.
rewrite (push_mkels (f := mxf (sparse2 m00 v (Hi *m w)))).
  by rewrite bind_ret cat0s from_vec_mkels ofM_mkm.
move=> i j hi hj; rewrite /sparse2 mxf_block //.
case: i j hi hj => [|i] [|j] hi hj //=; rewrite ?mxE //.
- by rewrite /= subn1 /= get_mxf.
- by rewrite /= subn1 /= get_mxf.
- by rewrite /= !subn1 /= get_mxf.
Qed.

Lemma hat_ofM d (A : 'M[F]_(1 + d)) : hat_of (ofM A) = Ret (ofM (drsubmx A)).
Proof. by case: (mds_blocks A). Qed.
Lemma v_ofM d (A : 'M[F]_(1 + d)) : v_of (ofM A) = Ret (ofM (ursubmx A)).
Proof. by case: (mds_blocks A). Qed.
Lemma w_ofM d (A : 'M[F]_(1 + d)) : w_of (ofM A) = Ret (ofM (dlsubmx A)).
Proof. by case: (mds_blocks A). Qed.

Lemma inverse_ret n (A : 'M[F]_n) : (0 < n <= 8)%N ->
  (r <- inverse (ofM A) ;; expect r) =
  if A \in unitmx then Ret (ofM (invmx A)) else Panic.
Proof.
move=> hn; rewrite unitmxE unitfE; case: n A hn => // -[|n] A hn.
- by rewrite inverse_ofM1; case: (_ == 0).
- by rewrite inverse_ofM //= ; case: (_ == 0).
Qed.

(** * The equivalent matrices *)

Section Equiv.
Variable t1 : nat.
Hypothesis ht1 : (0 < t1 <= 8)%N.
Variable M : 'M[F]_(1 + t1).
Local Notation A := (M^T).
Local Notation H := (drsubmx A).

(** [H] to the power k. *)
Definition Hpow (k : nat) : 'M[F]_t1 := iter k (mulmx H) 1%:M.

Lemma HpowSr k : Hpow k.+1 = Hpow k *m H.
Proof.
elim: k => [|k IH]; first by rewrite /Hpow /= mul1mx mulmx1.
by rewrite -[Hpow k.+2]/(H *m Hpow k.+1) {1}IH mulmxA.
Qed.

Definition mmul_at (k : nat) : 'M[F]_(1 + t1) := A *m diag1 (Hpow k).

Lemma mmul_blocks k : mmul_at k =
  block_mx (ulsubmx A) (ursubmx A *m Hpow k) (dlsubmx A) (Hpow k.+1).
Proof.
rewrite /mmul_at /diag1 -{1}[A]submxK.
rewrite (mulmx_block (ulsubmx A) (ursubmx A) (dlsubmx A) H) !mulmx0 !mulmx1 ?addr0 ?add0r //.
Qed.

Definition v_at (k : nat) : 'rV[F]_t1 := ursubmx A *m Hpow k.
Definition w_at (k : nat) : 'cV[F]_t1 := invmx (Hpow k.+1) *m dlsubmx A.

Lemma unit_HpowS k : (Hpow k.+1 \in unitmx) = (H \in unitmx).
Proof.
elim: k => [|k IH]; first by rewrite /Hpow /= mulmx1.
by rewrite -[Hpow k.+2]/(H *m Hpow k.+1) unitmx_mul IH andbb.
Qed.

Lemma equiv_stepE Mi k vs ws :
  equiv_step (ofM A) (Mi, ofM (mmul_at k), vs, ws) =
  if H \in unitmx then
    Ret (ofM (diag1 (Hpow k.+1)), ofM (mmul_at k.+1), rcons vs (ofM (v_at k)), rcons ws (ofM (w_at k)))
  else Panic.
Proof.
case/andP: (ht1) => t0 t8.
have -> : equiv_step (ofM A) (Mi, ofM (mmul_at k), vs, ws) =
  bind (if Hpow k.+1 \in unitmx then Ret (ofM (invmx (Hpow k.+1))) else Panic) (fun hi =>
    w_hat <- mul hi (ofM (dlsubmx A)) ;;
    M_i <- prime_of (ofM (Hpow k.+1)) ;;
    M_mul <- mul (ofM A) M_i ;;
    Ret (M_i, M_mul, rcons vs (ofM (v_at k)), rcons ws w_hat)).
  rewrite /equiv_step hat_ofM bind_ret w_ofM bind_ret v_ofM bind_ret mmul_blocks.
  by rewrite block_mxKdr block_mxKur block_mxKdl -inverse_ret // bindA.
rewrite unit_HpowS; case: ifP => // u.
by rewrite bind_ret mul_ofM // bind_ret prime_of_ofM bind_ret mul_ofM.
Qed.

Lemma equiv_loop xs : H \in unitmx -> forall Mi k vs ws,
  for_in xs (fun _ : nat => equiv_step (ofM A)) (Mi, ofM (mmul_at k), vs, ws) =
  Ret (if xs is [::] then Mi else ofM (diag1 (Hpow (k + size xs))), ofM (mmul_at (k + size xs)),
       vs ++ [seq ofM (v_at i) | i <- iota k (size xs)], ws ++ [seq ofM (w_at i) | i <- iota k (size xs)]).
Proof.
move=> u; elim: xs => [|x xs IH] Mi k vs ws; first by rewrite !addn0 !cats0.
rewrite /for_in -/for_in equiv_stepE u bind_ret IH !cat_rcons.
have e : (k + size (x :: xs) = k.+1 + size xs)%N by rewrite addnS.
rewrite e; congr (Ret (_, _, _, _)).
by case: xs {IH e} => [|y ys] //; rewrite addn0.
Qed.

Lemma calc_equivalentE (r : rounds) : (0 < r_P r)%N ->
  calc_equivalent_matrices (ofM M) r =
  if drsubmx M \in unitmx then
    Ret (ofM (diag1 (Hpow (r_P r)))^T, [seq ofM (v_at i) | i <- iota 0 (r_P r)],
         [seq ofM (w_at i) | i <- iota 0 (r_P r)])
  else Panic.
Proof.
move=> r0; have uE : (drsubmx M \in unitmx) = (H \in unitmx) by rewrite -trmx_drsub unitmx_tr.
rewrite uE /calc_equivalent_matrices transpose_ofM bind_ret.
have -> : prime_of (ofM A) = Ret (ofM (diag1 A)) by exact: prime_of_ofM.
rewrite bind_ret.
have mm0 : ofM A = ofM (mmul_at 0).
  by rewrite /mmul_at /Hpow /= /diag1 -scalar_mx_block mulmx1.
have sz : size (rev (range 0 (r_P r))) = r_P r by rewrite size_rev size_range subn0.
case: ifP => u.
  rewrite [X in for_in _ _ (_, X, _, _)]mm0 equiv_loop // bind_ret sz add0n.
  case E: (rev _) => [|x xs]; first by move: r0; rewrite -sz E.
  by rewrite transpose_ofM.
case E: (rev _) => [|x xs]; first by move: r0; rewrite -sz E.
by rewrite /for_in -/for_in [X in equiv_step _ (_, X, _, _)]mm0 equiv_stepE u.
Qed.

Lemma Hpow_tr k : (Hpow k)^T = iter k (mulmx (drsubmx M)) 1%:M.
Proof.
elim: k => [|k IH]; first by rewrite /Hpow /= trmx1.
by rewrite HpowSr trmx_mul trmx_drsub trmxK IH.
Qed.

(** The equivalent matrices factor the repeated multiplication by [M]. *)
Lemma equivalent_factorization Rp : drsubmx M \in unitmx ->
  sparse_factorization M (diag1 (Hpow Rp))^T (M 0 0) (fun j => (w_at j)^T) (fun j => (v_at j)^T) Rp.
Proof.
move=> u; exists (fun k => (Hpow k)^T); split.
- by rewrite /Hpow /= trmx1.
- by rewrite /diag1 tr_block_mx trmx1 !trmx0.
move=> j jlt; have uH : Hpow j.+1 \in unitmx by rewrite unit_HpowS -trmx_drsub unitmx_tr.
rewrite /sparse /diag1 mulmx_block -[M in RHS]submxK mulmx_block !mulmx0 !mul0mx !mul1mx !mulmx1.
rewrite !addr0 !add0r; congr block_mx.
- by apply/matrixP => a b; rewrite !ord1 !mxE !eqxx /=; congr (M _ _); apply: val_inj.
- by rewrite /w_at trmx_mul -mulmxA -trmx_mul mulmxV // trmx1 mulmx1 trmx_dlsub trmxK.
- by rewrite /v_at trmx_mul trmx_ursub trmxK.
- by rewrite -[Hpow j.+1]/(H *m Hpow j) trmx_mul trmx_drsub trmxK.
Qed.
End Equiv.

(** * The optimized matrices *)

Lemma count_mkels (a : pred F) r c f :
  count a (mkels r c f) = (\sum_(i < r) \sum_(j < c) a (f i j))%N.
Proof.
rewrite /mkels count_flatten sumnE big_map big_map -{1}(subn0 r) -/(index_iota 0 r) big_mkord.
apply: eq_bigr => i _; rewrite count_map -sum1_count big_mkcond -{1}(subn0 c) -/(index_iota 0 c) big_mkord.
by apply: eq_bigr => j _ /=; case: (a _).
Qed.

Lemma count_ofM (a : pred F) r c (A : 'M[F]_(r, c)) :
  count a (elements (ofM A)) = (\sum_(i < r) \sum_(j < c) a (A i j))%N.
Proof.
rewrite ofM_mkm /= count_mkels; apply: eq_bigr => i _; apply: eq_bigr => j _.
by rewrite mxfE.
Qed.

Lemma count_block (a : pred F) d (m00 : F) (v : 'rV[F]_d) (w : 'cV[F]_d) :
  count a (elements (ofM (sparse2 m00 v w))) =
  (a m00 + (\sum_(j < d) a (v 0%R j)) + (\sum_(i < d) a (w i 0%R)) +
   \sum_(i < d) \sum_(j < d) a (i == j)%:R%R)%N.
Proof.
rewrite count_ofM big_split_ord big_ord1 big_split_ord big_ord1 /= -!addnA; congr addn.
  by rewrite block_mxEul mxE eqxx.
congr addn.
  by apply: eq_bigr => j _; rewrite block_mxEur.
rewrite -big_split /=; apply: eq_bigr => i _.
rewrite big_split_ord big_ord1 block_mxEdl; congr addn.
by apply: eq_bigr => j _; rewrite block_mxEdr mxE.
Qed.

Lemma count_id0 d : (\sum_(i < d) \sum_(j < d) (((i == j)%:R : F) == 0)%R)%N = (d * d - d)%N.
Proof.
have -> : (\sum_(i < d) \sum_(j < d) (((i == j)%:R : F) == 0)%R)%N = (\sum_(i < d) (d - 1))%N.
  apply: eq_bigr => i _; rewrite (bigD1 i) //= eqxx oner_eq0 add0n.
  rewrite (eq_bigr (fun=> 1%N)); last by move=> j; rewrite eq_sym => /negPf ->; rewrite eqxx.
  by rewrite sum1_card cardC1 card_ord subn1.
by rewrite sum_nat_const card_ord mulnBr muln1.
Qed.

Lemma count_id1 d : (\sum_(i < d) \sum_(j < d) (((i == j)%:R : F) == 1)%R)%N = d.
Proof.
have -> : (\sum_(i < d) \sum_(j < d) (((i == j)%:R : F) == 1)%R)%N = (\sum_(i < d) 1)%N.
  apply: eq_bigr => i _; rewrite (bigD1 i) //= !eqxx.
  rewrite big1 ?addn0 // => j; rewrite eq_sym => /negPf ->.
  by rewrite eq_sym oner_eq0.
by rewrite sum1_card card_ord.
Qed.

Section Optimized.
Variable t1 : nat.
Hypothesis ht1 : (0 < t1 < 8)%N.
Variable M : 'M[F]_(1 + t1).
Variable r : rounds.
Hypothesis r0 : (0 < r_P r)%N.

(** [w_hat = hat(M)^-1 * w] *)
Definition w_hat_mx : 'cV[F]_t1 := invmx (drsubmx M) *m dlsubmx M.

Definition opt_result : optimized_mds F :=
  OptimizedMds (ofM (drsubmx M)) (ofM (ursubmx M)) (ofM (dlsubmx M))
    (ofM (diag1 (drsubmx M))) (ofM (sparse2 (M 0 0) (ursubmx M) w_hat_mx))
    (ofM (invmx M)) (ofM (invmx (drsubmx M))) (M 0 0)
    (ofM (diag1 (Hpow M (r_P r)))^T)
    [seq ofM (v_at M i) | i <- iota 0 (r_P r)] [seq ofM (w_at M i) | i <- iota 0 (r_P r)].

(** No entry of the first row and column of M'' is 0 or 1. *)
Definition denseb : bool :=
  [&& M 0 0 != 0, M 0 0 != 1,
      [forall j, (ursubmx M 0 j != 0) && (ursubmx M 0 j != 1)] &
      [forall i, (w_hat_mx i 0 != 0) && (w_hat_mx i 0 != 1)]].

Lemma counts c (n : nat) : c = 0 \/ c = 1 ->
  (\sum_(i < t1) \sum_(j < t1) (((i == j)%:R : F) == c)%R)%N = n ->
  (count (fun x => x == c) (elements (ofM (sparse2 (M 0 0) (ursubmx M) w_hat_mx))) == n) =
  [&& M 0 0 != c, [forall j, ursubmx M 0 j != c] & [forall i, w_hat_mx i 0 != c]].
Proof.
move=> _ E; rewrite (count_block (fun x => x == c)) E -{2}[n]add0n eqn_add2r.
rewrite !addn_eq0 -andbA eqb0; congr andb.
have sum0 (G : 'I_t1 -> bool) : (\sum_(j < t1) G j == 0)%N = [forall j, ~~ G j].
  rewrite sum_nat_eq0; apply: eq_forallb => j /=; by rewrite eqb0.
by rewrite !sum0.
Qed.

Lemma mds_generate_optimizedE :
  mds_generate_optimized (ofM M) (1 + t1) r =
  if [&& M \in unitmx, drsubmx M \in unitmx & denseb] then Ret opt_result else Panic.
Proof.
case/andP: (ht1) => t0 t8.
have t8' : (0 < t1 <= 8)%N by rewrite t0 ltnW.
rewrite /mds_generate_optimized hat_ofM bind_ret.
rewrite -(bindA _ (@expect _)) inverse_ret //.
case uh: (drsubmx M \in unitmx); last by rewrite andbF.
rewrite andTb bind_ret.
rewrite v_ofM bind_ret w_ofM bind_ret prime_of_ofM bind_ret get_mxf // bind_ret.
have -> : mxf M 0 0 = M 0 0 by rewrite (@mxf_at _ (1 + t1) (1 + t1) M 0 0 isT isT); congr (M _ _); apply: val_inj.
rewrite doubleprime_ofM // bind_ret.
rewrite (@require_ret (n_cols (ofM (diag1 (drsubmx M))) == n_cols (ofM M))) //.
rewrite (@require_ret ((n_cols (ofM (drsubmx M))).+1 == n_cols (ofM M))) // mul_ofM // bind_ret.
have -> : diag1 (drsubmx M) *m sparse2 (M 0 0) (ursubmx M) (invmx (drsubmx M) *m dlsubmx M) = M.
  rewrite /diag1 /sparse2 mulmx_block !mul0mx !mul1mx !addr0 !add0r mulmx1 mulmxA mulmxV // mul1mx.
  rewrite -[RHS]submxK; congr block_mx.
  by apply/matrixP => a b; rewrite !ord1 !mxE !eqxx /=; congr (M _ _); apply: val_inj.
rewrite require_ret ?rmat_eqbxx // usubE // bind_ret.
have -> : (1 + t1 - 1 = t1)%N by rewrite addKn.
rewrite usubE; last by rewrite leq_pmulr.
rewrite bind_ret -/w_hat_mx !counts ?count_id0 ?count_id1 //; [|by right|by left].
have -> : denseb = [&& M 0 0 != 0, [forall j, ursubmx M 0 j != 0] & [forall i, w_hat_mx i 0 != 0]] &&
                   [&& M 0 0 != 1, [forall j, ursubmx M 0 j != 1] & [forall i, w_hat_mx i 0 != 1]].
  have fa (P Q : pred 'I_t1) : [forall j, P j && Q j] = [forall j, P j] && [forall j, Q j].
    apply/forallP/andP => [H|[/forallP H1 /forallP H2] j]; last by rewrite H1 H2.
    by split; apply/forallP => j; case/andP: (H j).
  rewrite /denseb !(fa (fun j => _ != 0) (fun j => _ != 1)).
  case: (M 0 0 != 0) => //=; case: (M 0 0 != 1); rewrite ?andbF //=.
  by case: [forall j, ursubmx M 0 j != 0] => //=; rewrite andbCA.
case: [&& M 0 0 != 0, _ & _]; last by rewrite andbF.
case: [&& M 0 0 != 1, _ & _]; last by rewrite require_ret // !andbF.
rewrite !require_ret // calc_equivalentE // uh bind_ret !andbT.
have [h1 h2] := @mds_inverse_spec F (1 + t1) M ltac:(by rewrite t8).
case u: (M \in unitmx); first by rewrite h1 //; apply/eqP; rewrite -unitfE -unitmxE.
by rewrite h2 //; move: u; rewrite unitmxE unitfE => /negbFE /eqP.
Qed.
End Optimized.

Lemma bind_panics A B (m : outcome A) (k : A -> outcome B) :
  (forall x, k x = Panic) -> bind m k = Panic.
Proof. by move=> H; case: m. Qed.

(** Widths 1 and above 8 cannot be optimized. *)
Lemma mds_generate_optimized_bad t1 (M : 'M[F]_(1 + t1)) t r : (t1 == 0%N) || (8 <= t1)%N ->
  mds_generate_optimized (ofM M) t r = Panic.
Proof.
rewrite /mds_generate_optimized hat_ofM bind_ret => h.
case: (ltnP 8 t1) => t8; first by rewrite inverse_big // t8 orbT.
case t10: (t1 == 0%N) h => /= h; first by rewrite inverse_big // t10.
have -> : mds_inverse (ofM M) = Panic by rewrite /mds_inverse inverse_big // -addn1 addnC ltnS h orbT.
by do 15![apply: bind_panics => ?]; apply: bind_panics => -[[? ?] ?].
Qed.
End Generic.
