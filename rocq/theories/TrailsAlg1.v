(** What algorithm 1 of generate_parameters_grain.sage finds. *)
From mathcomp Require Import all_ssreflect all_algebra.
From Verif Require Import TrailsSpec Grain TrailsProofs.
Set Implicit Arguments.
Unset Strict Implicit.
Unset Printing Implicit Defensive.
Import GRing.Theory.
Local Open Scope ring_scope.

Section Alg1.
Variables (F : fieldType) (n : nat) (field : seq F).
Local Notation t := n.+1.
Implicit Types (M : 'M[F]_t).
Local Notation gv := (generate_vectorspace (n := n)).

Lemma quietP i M (x : 'cV[F]_t) : (0 < i)%N -> quiet M i x <-> (x^T <= gv i M)%MS.
Proof.
move=> i0; split=> [H|/(generate_vectorspaceP _ _ i0)]; last by rewrite trmxK.
by apply/generate_vectorspaceP => //; rewrite trmxK.
Qed.

Lemma eigenP (A : 'M[F]_t) l (x : 'cV[F]_t) : (x^T <= eigenspace_right (n := n) A l)%MS <-> A *m x = l *: x.
Proof.
split=> [/sub_kermxP|E].
  rewrite mulmxBr => /eqP; rewrite subr_eq0 => /eqP E.
  by apply: trmx_inj; rewrite trmx_mul E mul_mx_scalar linearZ.
by apply/sub_kermxP; rewrite mulmxBr -trmx_mul E linearZ /= mul_mx_scalar subrr.
Qed.

Lemma scalarP M i : reflect (scalar_power M i) (M ^+ i - ((M ^+ i) 0 0)%:M == 0).
Proof.
rewrite subr_eq0; apply: (iffP eqP) => [E|[c E]]; first by exists ((M ^+ i) 0 0).
by rewrite E mxE eqxx.
Qed.

Lemma not_full i M (IS : 'M[F]_t) : (0 < i)%N -> (IS <= gv i M)%MS -> ~~ (IS == 1%:M)%MS.
Proof.
move=> i0 sub; apply/negP => /eqmxP E.
have e0 : ((delta_mx 0 0 : 'cV[F]_t)^T <= gv i M)%MS.
  by apply: submx_trans sub; rewrite E submx1.
have /(_ 0%N i0) : quiet M i (delta_mx 0 0 : 'cV[F]_t) by apply/quietP.
by rewrite expr0 mul1mx mxE !eqxx => /eqP; rewrite oner_eq0.
Qed.

Lemma eigenvectorP M i : (0 < i)%N ->
  let IS := (\sum_(l <- eigenvalues field (M ^+ i)) (gv i M :&: eigenspace_right (M ^+ i) l))%MS in
  reflect (quiet_eigenvector field M i) ((1 <= \rank IS)%N && ~~ (IS == 1%:M)%MS).
Proof.
move=> i0 IS; have sub : (IS <= gv i M)%MS.
  rewrite /IS; elim/big_ind: _ => [|A B hA hB|l _]; [exact: sub0mx | by rewrite addsmx_sub hA | exact: capmxSl].
rewrite (not_full i0 sub) andbT lt0n mxrank_eq0.
apply: (iffP idP) => [N|[x [l [x0 qx lf E]]]].
  have [l lf H] : exists2 l, l \in eigenvalues field (M ^+ i) & (gv i M :&: eigenspace_right (M ^+ i) l)%MS != 0.
    apply/hasP; apply: contraNT N => /hasPn H; rewrite /IS -submx0 big_seq.
    elim/big_ind: _ => [|A B hA hB|l lf]; [exact: sub0mx | by rewrite addsmx_sub hA |].
    by have := H l lf; rewrite negbK => /eqP ->; exact: sub0mx.
  have [k Hk] : exists k, row k (gv i M :&: eigenspace_right (M ^+ i) l)%MS != 0.
    apply/existsP; apply: contraNT H => /existsPn H; apply/eqP/row_matrixP => k.
    by have := H k; rewrite negbK row0 => /eqP.
  have := row_sub k (gv i M :&: eigenspace_right (M ^+ i) l)%MS; rewrite sub_capmx.
  set y := row _ _ in Hk *; rewrite -[y]trmxK => /andP[yS yE].
  exists y^T, l; split.
  - by rewrite -trmx0 (inj_eq trmx_inj).
  - exact/quietP.
  - by move: lf; rewrite mem_filter => /andP[].
  - exact/eigenP.
have le : l \in eigenvalues field (M ^+ i).
  rewrite mem_filter lf andbT; apply: contraNneq x0 => E0.
  by move/eigenP: E; rewrite E0 submx0 -trmx0 (inj_eq trmx_inj).
have xs : (x^T <= IS)%MS.
  have xl : (x^T <= gv i M :&: eigenspace_right (M ^+ i) l)%MS.
    by rewrite sub_capmx; apply/andP; split; [exact/quietP | exact/eigenP].
  by apply: submx_trans xl _; rewrite /IS (big_rem l) //=; exact: addsmxSl.
by apply: contraNneq x0 => E0; move: xs; rewrite E0 submx0 -trmx0 (inj_eq trmx_inj).
Qed.

Lemma imageP S (A : 'M[F]_t) (x : 'cV[F]_t) :
  (x^T <= subspace_times_matrix (n := n) S A)%MS <-> exists2 y : 'cV[F]_t, (y^T <= S)%MS & x = A *m y.
Proof.
split=> [/submxP[D E]|[y yS ->]]; last by rewrite trmx_mul; exact: submxMr.
exists (D *m S)^T; first by rewrite trmxK submxMl.
by apply: trmx_inj; rewrite E trmx_mul trmxK mulmxA.
Qed.

Lemma invariantP M i : (0 < i)%N ->
  reflect (quiet_invariant M i) (has (fun j => (gv i M == subspace_times_matrix (gv i M) (M ^+ j))%MS) (iota 1 i)).
Proof.
move=> i0; apply: (iffP hasP) => [[j]|[j /andP[j0 ji] H]].
  rewrite mem_iota add1n ltnS => ji /eqmxP E; exists j => // x; split.
    move/(quietP _ _ i0); rewrite E => /imageP[y yS ->]; by exists y => //; apply/quietP.
  by case=> y /(quietP _ _ i0) yS ->; apply/quietP => //; rewrite E; apply/imageP; exists y.
exists j; first by rewrite mem_iota add1n ltnS j0.
apply/andP; split; apply/row_subP => k; set y := row _ _; rewrite -[y]trmxK.
  have /H[z zq E] : quiet M i y^T by apply/quietP => //; rewrite trmxK; exact: row_sub.
  by apply/imageP; exists z => //; apply/quietP.
apply/quietP => //; apply/H.
have /imageP[z zS E] : (y^T^T <= subspace_times_matrix (gv i M) (M ^+ j))%MS by rewrite trmxK; exact: row_sub.
by exists z => //; apply/quietP.
Qed.

Lemma stepP M i k : (0 < i)%N -> algorithm_1_step field M i = Some k <-> finding field M i k.
Proof.
move=> i0; rewrite /algorithm_1_step /finding.
case: scalarP => [sc|nsc].
  split=> [[<-]|]; first exact: Or31 (conj erefl sc).
  by case=> [[-> _]|[_ []]|[_ /(_ sc)]].
case: (eigenvectorP M i0) => [ev|nev].
  split=> [[<-]|]; first exact: Or32 (conj erefl (conj nsc ev)).
  by case=> [[_ /nsc]|[-> _]|[_ _ /(_ ev)]].
case: (invariantP M i0) => [inv|ninv].
  split=> [[<-]|]; first by apply: Or33.
  by case=> [[_ /nsc]|[_ [_ /nev]]|[->]].
by split=> //; case=> [[_ /nsc]|[_ [_ /nev]]|[_ _ _ /ninv]].
Qed.

Lemma step_none M i : (0 < i)%N ->
  algorithm_1_step field M i = None <-> [/\ ~ scalar_power M i, ~ quiet_eigenvector field M i & ~ quiet_invariant M i].
Proof.
move=> i0; split.
  rewrite /algorithm_1_step; case: scalarP => // ?; case: (eigenvectorP M i0) => // ?.
  by case: (invariantP M i0).
case=> h1 h2 h3; case E: algorithm_1_step => [k|] //; move/(stepP _ _ i0): E.
by case=> [[_ /h1]|[_ [_ /h2]]|[_ _ _ /h3]].
Qed.

Theorem algorithm_1_passes M :
  algorithm_1 field M = (true, 0%N) <->
  forall i, (0 < i <= n)%N -> [/\ ~ scalar_power M i, ~ quiet_eigenvector field M i & ~ quiet_invariant M i].
Proof.
rewrite /algorithm_1 addKn; split.
  case E: (pmap _ _) => // _ i /andP[i0 i_n]; apply/step_none => //.
  have : i \in iota 1 n by rewrite mem_iota i0 add1n ltnS.
  by elim: (iota 1 n) E => //= j s IH; case Ej: algorithm_1_step => [//|] /= /IH{}IH; rewrite inE => /orP[/eqP ->|].
move=> H; have -> : pmap (algorithm_1_step field M) (iota 1 n) = [::]; last by [].
have : forall i, i \in iota 1 n -> algorithm_1_step field M i = None.
  by move=> i; rewrite mem_iota add1n ltnS => /[dup] /andP[i0 _] /H /(step_none _ i0).
by elim: (iota 1 n) => //= j s IH Hs; rewrite Hs ?inE ?eqxx //=; apply: IH => i Hi; apply: Hs; rewrite inE Hi orbT.
Qed.

Theorem algorithm_1_fails M k :
  algorithm_1 field M = (false, k) <->
  exists i, [/\ (0 < i <= n)%N, finding field M i k & forall i', (0 < i' < i)%N ->
    [/\ ~ scalar_power M i', ~ quiet_eigenvector field M i' & ~ quiet_invariant M i']].
Proof.
rewrite /algorithm_1 addKn.
have H m a : (0 < a)%N ->
  match pmap (algorithm_1_step field M) (iota a m) with [::] => (true, 0%N) | k :: _ => (false, k) end = (false, k) <->
  exists i, [/\ (a <= i < a + m)%N, algorithm_1_step field M i = Some k &
    forall i', (a <= i' < i)%N -> algorithm_1_step field M i' = None].
  elim: m a => [|m IH] a a0 /=.
    by split=> // -[i [/andP[h1 h2]]]; rewrite addn0 ltnNge h1 in h2.
  case E: algorithm_1_step => [k'|] /=.
    split=> [[<-]|[i [/andP[ai _] Ei Hi]]].
      exists a; rewrite leqnn addnS ltnS leq_addr; split=> // i' /andP[h1 h2].
      by rewrite ltnNge h1 in h2.
    move: ai; rewrite leq_eqVlt => /orP[/eqP Ea|lt].
      by move: Ei; rewrite -Ea E => -[->].
    by have := Hi a; rewrite leqnn lt E => /(_ isT).
  have -> := IH a.+1 isT; split=> -[i [/andP[ai im] Ei Hi]]; exists i.
    split=> [||i' /andP[h1 h2]] //; first by rewrite (ltnW ai) addnS.
    by move: h1; rewrite leq_eqVlt => /orP[/eqP <- //|lt]; apply: Hi; rewrite lt.
  have lt : (a < i)%N.
    by move: ai; rewrite leq_eqVlt => /orP[/eqP Ea|//]; move: Ei; rewrite -Ea E.
  split=> // [|i' /andP[h1 h2]]; first by rewrite lt addSn -addnS.
  by apply: Hi; rewrite (ltnW h1).
have -> := H n 1%N isT; split=> -[i [/andP[i0 im] Ei Hi]]; exists i; split.
- by rewrite i0; move: im; rewrite add1n ltnS.
- exact/stepP.
- by move=> i' /andP[h1 h2]; apply/step_none => //; apply: Hi; rewrite h1.
- by rewrite i0 add1n ltnS.
- exact/stepP.
- by move=> i' /andP[h1 h2]; apply/step_none => //; apply: Hi; rewrite h1.
Qed.
End Alg1.
