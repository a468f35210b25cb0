(** The matrices of Poseidon2: what the generators compute, and when they are invertible. *)
From Coq Require Import ZArith NArith Lia.
From mathcomp Require Import all_ssreflect all_algebra.
From Verif Require Import Base Matrix MatrixSpec MatrixProofs MatrixProps Params PrimeField Alpha AlphaProofs Transcript TranscriptProofs
  Cauchy Mds MdsProofs V1 V2 V2Spec Slia.
Set Implicit Arguments.
Unset Strict Implicit.
Unset Printing Implicit Defensive.
Import GRing.Theory.
Local Open Scope ring_scope.
Local Open Scope rust_scope.

(** * Determinants by Laplace expansion, executable *)
Section Det.
Variable R : comRingType.
Fixpoint ldet (n : nat) (f : nat -> nat -> R) : R :=
  match n with
  | 0%N => 1
  | n'.+1 => foldr +%R 0 [seq f 0%N j * ((-1) ^+ j * ldet n' (fun i k => f i.+1 (bump j k))) | j <- iota 0 n]
  end.

Lemma ldetP n (f : nat -> nat -> R) : \det (\matrix_(i < n, j < n) f i j) = ldet n f.
Proof.
elim: n f => [|n IH] f; first by rewrite det_mx00.
rewrite (expand_det_row _ ord0) -[ldet _ _]/(foldr +%R 0 [seq f 0%N j * ((-1) ^+ j * ldet n (fun i k => f i.+1 (bump j k))) | j <- iota 0 n.+1]).
rewrite foldrE big_map (_ : iota 0 n.+1 = index_iota 0 n.+1) ?big_mkord; last by rewrite /index_iota subn0.
apply: eq_bigr => j _; rewrite mxE /cofactor add0n -IH; congr (_ * (_ * \det _)).
by apply/matrixP => i k; rewrite !mxE.
Qed.
End Det.

Section Matrices.
Variable F : fieldType.
Local Notation M4 := (M4 F).
Local Notation internal_mx := (internal_mx F).
Local Notation external_mx := (external_mx F).

Lemma M4_from_vec : from_vec (M4_elements F) = Ret (ofM M4).
Proof.
rewrite (_ : M4_elements F = mkels 4 4 (fun i j => (m4 i j)%:R)) // from_vec_mkels.
by rewrite mkm_ofM.
Qed.

(** ** Internal matrices *)
Lemma internal_det (t : nat) : (t == 2%N) || (t == 3%N) -> \det (internal_mx t) = (if t == 2%N then 5%N else 7%N)%:R.
Proof.
move=> Ht.
have -> : internal_mx t = map_mx intr (\matrix_(i < t, j < t) (internal_entry t i j : int)).
  by apply/matrixP => i j; rewrite !mxE.
rewrite det_map_mx (ldetP t (fun i j => (internal_entry t i j : int))).
by case/orP: Ht => /eqP ->; [rewrite (_ : ldet _ _ = (5 : int)) | rewrite (_ : ldet _ _ = (7 : int))]; vm_compute.
Qed.

Lemma internal_generateE t : internal_generate F t =
  if (t == 2%N) && (5%:R != 0 :> F) || (t == 3%N) && (7%:R != 0 :> F) then Ret (ofM (internal_mx t)) else Panic.
Proof.
have E n (n23 : (n == 2%N) || (n == 3%N)) : (r <- inverse (ofM (internal_mx n)) ;;
    require (if r is Ok _ then true else false) ;;; Ret (ofM (internal_mx n))) =
    if (if n == 2%N then 5%N else 7%N)%:R != 0 :> F then Ret (ofM (internal_mx n)) else Panic.
  rewrite inverse_ofM ?internal_det //; last by case/orP: n23 => /eqP ->.
  by case: eqP.
rewrite /internal_generate.
case: (t =P 2%N) => [->|t2]; last case: (t =P 3%N) => [->|t3] //.
- rewrite orbF andTb (_ : [:: _; _; _; _] = mkels 2 2 (fun i j => (internal_entry 2 i j)%:R)) // from_vec_mkels.
  by rewrite mkm_ofM bind_ret E.
- rewrite andFb orFb andTb (_ : [:: _; _; _; _; _; _; _; _; _] = mkels 3 3 (fun i j => (internal_entry 3 i j)%:R)) // from_vec_mkels.
  by rewrite mkm_ofM bind_ret E.
Qed.

(** ** External matrices *)
Lemma mem_range0 d x : (x \in range 0 d) = (x < d)%N.
Proof. by rewrite mem_iota add0n subn0. Qed.

Section Writes.
Variables (t : nat) (v : nat -> nat -> F).
Definition writes (body : rmat F -> outcome (rmat F)) (X : nat -> nat -> bool) : Prop :=
  forall f, body (mkm t t f) = Ret (mkm t t (fun i j => if X i j then v i j else f i j)).

Lemma writes_for (xs : seq nat) body X : {in xs, forall x, writes (body x) (X x)} ->
  writes (for_in xs body) (fun i j => has (fun x => X x i j) xs).
Proof.
elim: xs => [|x xs IH] H f //=.
rewrite H ?mem_head // bind_ret IH; last by move=> y yin; apply: H; rewrite inE yin orbT.
by congr Ret; apply: eq_mkm => i j _ _; case: (X x i j) => //=; case: has.
Qed.

Lemma writes_set a b x : (a < t)%N -> (b < t)%N -> v a b = x ->
  writes (fun m => set_element m a b x) (fun i j => (i == a) && (j == b)).
Proof.
move=> Ha Hb <- f; rewrite set_mkm //; congr Ret; apply: eq_mkm => i j _ _.
by case: ifP => // /andP[/eqP -> /eqP ->].
Qed.

Lemma writes_ext body X Y : (forall i j, (i < t)%N -> (j < t)%N -> X i j = Y i j) -> writes body X -> writes body Y.
Proof. by move=> E H f; rewrite H; congr Ret; apply: eq_mkm => i j Hi Hj; rewrite E. Qed.

Lemma writes_if (b : bool) A B X : (b -> writes A X) -> (~~ b -> writes B X) ->
  writes (fun m => if b then A m else B m) X.
Proof. by case: b => HA HB f; [apply: HA | apply: HB]. Qed.
End Writes.

Lemma block_lt d i r : (i < d)%N -> (r < 4)%N -> (i * 4 + r < d * 4)%N.
Proof. by move=> Hi Hr; apply: idx_lt. Qed.

Lemma external_generateE t : external_generate F t =
  if (3 < t)%N && (t %% 4 == 0)%N then
    Ret (if t == 4%N then ofM M4 else ofM (external_mx (t %/ 4)))
  else Panic.
Proof.
rewrite /external_generate; case: ltnP => // t4; case: eqP => [t0|] //.
rewrite M4_from_vec bind_ret; case: eqP => // t4'.
set d := (t %/ 4)%N; have Et : t = (d * 4)%N by rewrite {1}(divn_eq t 4) t0 addn0.
rewrite {}Et identity_mkm bind_ret.
pose v i j : F := (((i %/ 4 == j %/ 4)%N).+1 * m4 (i %% 4) (j %% 4))%:R.
set body := (X in for_in _ X).
have H : writes (d * 4) v (for_in (range 0 d) body)
  (fun i j => has (fun a => has (fun b => has (fun r => has (fun c => (i == a * 4 + r)%N && (j == b * 4 + c)%N) (range 0 4)) (range 0 4)) (range 0 d)) (range 0 d)).
  apply: writes_for => a; rewrite mem_range0 => Ha.
  apply: writes_for => b; rewrite mem_range0 => Hb.
  have V r c : (r < 4)%N -> (c < 4)%N -> v (a * 4 + r)%N (b * 4 + c)%N = ((a == b).+1 * m4 r c)%:R.
    by move=> Hr Hc; rewrite /v !divnMDl // !divn_small // !addn0 !modnMDl !modn_small.
  apply: writes_if => [ab|/negbTE ab]; apply: writes_for => r; rewrite mem_range0 => Hr;
    apply: writes_for => c; rewrite mem_range0 => Hc f;
    rewrite ofM_mkm get_mkm // bind_ret;
    apply: writes_set; rewrite ?block_lt // V // ab -[r]/(val (Ordinal Hr)) -[c]/(val (Ordinal Hc)) mxfE mxE.
  - by rewrite natrM.
  - by rewrite mul1n.
rewrite H; congr Ret; rewrite mkm_ofM; congr ofM; apply/matrixP => i j; rewrite !mxE.
case: ifP => // /negP []; apply/hasP; exists (i %/ 4)%N; first by rewrite mem_range0 ltn_divLR.
apply/hasP; exists (j %/ 4)%N; first by rewrite mem_range0 ltn_divLR.
apply/hasP; exists (i %% 4)%N; first by rewrite mem_range0 ltn_mod.
apply/hasP; exists (j %% 4)%N; first by rewrite mem_range0 ltn_mod.
by rewrite -!divn_eq !eqxx.
Qed.

(** ** Submatrices *)
Section Mds.
Variables (t : nat) (e : nat -> nat -> nat).
Fixpoint injs (k : nat) : seq (seq nat) :=
  if k is k'.+1 then flatten [seq [seq x :: s | x <- iota 0 t & x \notin s] | s <- injs k'] else [:: [::]].

Lemma injsP s : uniq s -> all (fun x => x < t)%N s -> s \in injs (size s).
Proof.
elim: s => [|x s IH] //= /andP[xs us] /andP[xt st]; apply/flattenP.
exists [seq x :: s | x <- iota 0 t & x \notin s]; first by apply: map_f; apply: IH.
by apply: map_f; rewrite mem_filter xs mem_iota add0n xt.
Qed.

Definition sub_det k (rs cs : seq nat) : int := ldet k (fun i j => (e (nth 0%N rs i) (nth 0%N cs j) : int)).

Definition mds_check (B : nat) : bool :=
  all (fun k => all (fun rs => all (fun cs => (0 < `|sub_det k rs cs|)%N && (`|sub_det k rs cs| <= B)%N)
    (injs k)) (injs k)) (iota 0 t.+1).

Lemma mds_checkP B : mds_check B -> (forall m, (0 < m <= B)%N -> m%:R != 0 :> F) ->
  mds_mx (\matrix_(i < t, j < t) (e i j)%:R : 'M[F]_t).
Proof.
move=> H small k f g fi gi.
pose l (h : 'I_k -> 'I_t) := [seq val (h i) | i <- enum 'I_k].
have sl h : size (l h) = k by rewrite size_map size_enum_ord.
have nl h (i : 'I_k) : nth 0%N (l h) i = h i by rewrite (nth_map i) ?size_enum_ord // nth_ord_enum.
have inj h : injective h -> l h \in injs k.
  move=> hi; rewrite -(sl h); apply: injsP.
    by rewrite map_inj_uniq ?enum_uniq // => i j /val_inj /hi.
  by apply/allP => x /mapP[i _ ->]; exact: ltn_ord.
have kt : k \in iota 0 t.+1.
  by rewrite mem_iota add0n /= ltnS; have := leq_card _ fi; rewrite !card_ord.
have := allP (allP (allP H _ kt) _ (inj f fi)) _ (inj g gi).
set d := sub_det _ _ _ => dB.
rewrite unitmxE unitfE.
have -> : mxsub f g (\matrix_(i < t, j < t) (e i j)%:R : 'M[F]_t) =
    map_mx intr (\matrix_(i < k, j < k) (e (nth 0%N (l f) i) (nth 0%N (l g) j) : int)).
  by apply/matrixP => i j; rewrite !mxE !nl.
rewrite det_map_mx (ldetP k (fun i j => (e (nth 0%N (l f) i) (nth 0%N (l g) j) : int))).
rewrite -/(sub_det k (l f) (l g)) -/d.
have := small _ dB; case: (d) => n; rewrite ?NegzE ?rmorphN ?oppr_eq0 ?abszN //=.
Qed.
End Mds.

Lemma M4_mds : (forall m, (0 < m <= 64)%N -> m%:R != 0 :> F) -> mds_mx M4.
Proof. by apply: mds_checkP; vm_compute. Qed.

Lemma internal_mds t : (t == 2%N) || (t == 3%N) -> (forall m, (0 < m <= 7)%N -> m%:R != 0 :> F) -> mds_mx (internal_mx t).
Proof. by case/orP => /eqP ->; apply: mds_checkP; vm_compute. Qed.

(** ** Invertibility of the external matrix *)
Definition n4 (i j : nat) : int :=
  nth 0 (nth [::] [:: [:: 1; -3%:Z; 6%:Z; -7%:Z]; [:: -1; 1; -4%:Z; 5%:Z];
                      [:: 6%:Z; -7%:Z; 1; -3%:Z]; [:: -4%:Z; 5%:Z; -1; 1]] i) j.

Lemma m4n4 i j : (i < 4)%N -> (j < 4)%N ->
  \sum_(r < 4) (m4 i r)%:R * (n4 r j)%:~R = (i == j)%:R * - 8%:R :> F.
Proof.
move=> Hi Hj.
transitivity ((\sum_(r < 4) (m4 i r)%:Z * n4 r j)%:~R : F).
  by rewrite rmorph_sum; apply: eq_bigr => r _; rewrite rmorphM.
rewrite !big_ord_recl big_ord0.
by case: i Hi => [|[|[|[|]]]] // _; case: j Hj => [|[|[|[|]]]] // _; rewrite ?mul1r ?mul0r.
Qed.

Lemma block_sum d (g : nat -> nat -> F) :
  \sum_(k < d * 4) g (k %/ 4)%N (k %% 4)%N = \sum_(a < d) \sum_(r < 4) g a r.
Proof.
rewrite -(big_mkord xpredT (fun k => g (k %/ 4)%N (k %% 4)%N)) big_nat_mul big_mkord.
apply: eq_bigr => a _; rewrite mulSn -{1}[(a * 4)%N]add0n big_addn addnK big_mkord.
by apply: eq_bigr => r _; rewrite addnC divnMDl // divn_small // addn0 modnMDl modn_small.
Qed.

Lemma lt_block d (i : 'I_(d * 4)) : (i %/ 4 < d)%N.
Proof. by rewrite ltn_divLR. Qed.

Lemma external_mulE d n (B : 'M[F]_(d * 4, n)) (b : nat -> nat -> 'I_n -> F) i j :
  (forall k j, B k j = b (k %/ 4)%N (k %% 4)%N j) ->
  (external_mx d *m B) i j = \sum_(r < 4) (m4 (i %% 4) r)%:R * (b (i %/ 4)%N r j + \sum_(a < d) b a r j).
Proof.
move=> E; rewrite mxE.
rewrite (eq_bigr (fun k : 'I_(d * 4) => (fun a r => ((i %/ 4 == a)%N.+1 * m4 (i %% 4) r)%:R * b a r j) (k %/ 4)%N (k %% 4)%N)); last first.
  by move=> k _; rewrite mxE E.
rewrite (block_sum d (fun a r => ((i %/ 4 == a)%N.+1 * m4 (i %% 4) r)%:R * b a r j)).
rewrite exchange_big; apply: eq_bigr => r _.
rewrite [b (i %/ 4)%N r j](_ : _ = \sum_(a < d) (i %/ 4 == a)%N%:R * b a r j).
  rewrite -big_split mulr_sumr; apply: eq_bigr => a _ /=.
  by rewrite mulnC natrM -mulrA mulrSr mulrDl mul1r.
rewrite (bigD1 (Ordinal (lt_block i))) //= eqxx mul1r big1 ?addr0 // => a /negbTE.
by rewrite eq_sym -val_eqE /= => ->; rewrite mul0r.
Qed.

Lemma external_unit d : (0 < d)%N ->
  (external_mx d \in unitmx) = (2%:R != 0 :> F) && ((d.+1)%:R != 0 :> F).
Proof.
move=> d0; apply/idP/idP => [U|/andP[n2 nd]].
  have K n (B : 'M[F]_(d * 4, n)) : external_mx d *m B = 0 -> B = 0.
    by move=> E; rewrite -[B](mulKmx U) E mulmx0.
  have o4 : (0 < d * 4)%N by rewrite muln_gt0 d0.
  apply/andP; split; apply/negP => /eqP Z.
  - pose b a r (j : 'I_1) : F := (a == 0%N)%:R * (n4 r 0)%:~R.
    pose B := \matrix_(k < d * 4, j < 1) b (k %/ 4)%N (k %% 4)%N j.
    have : B = 0.
      apply: K; apply/matrixP => i j; rewrite (external_mulE (b := b)); last by move=> *; rewrite mxE.
      rewrite (eq_bigr (fun r : 'I_4 => ((i %/ 4 == 0)%N%:R + \sum_(a < d) (val a == 0%N)%:R) * ((m4 (i %% 4) r)%:R * (n4 r 0)%:~R))); last first.
        by move=> r _; rewrite /b -mulr_suml -mulrDl mulrCA.
      rewrite -mulr_sumr m4n4 ?ltn_mod // (_ : 8%:R = 2%:R * 4%:R :> F); last by rewrite -natrM.
      by rewrite Z mul0r oppr0 !mulr0 mxE.
    move/matrixP/(_ (Ordinal o4) ord0); rewrite !mxE /b div0n mod0n eqxx mul1r.
    by move/eqP; rewrite oner_eq0.
  - pose b (a r : nat) (j : 'I_1) : F := (r == 0%N)%:R.
    pose B := \matrix_(k < d * 4, j < 1) b (k %/ 4)%N (k %% 4)%N j.
    have : B = 0.
      apply: K; apply/matrixP => i j; rewrite (external_mulE (b := b)); last by move=> *; rewrite mxE.
      rewrite big1 ?mxE // => r _; rewrite /b sumr_const card_ord -mulrS -[_ *+ d.+1]mulr_natl Z mul0r mulr0 //.
    move/matrixP/(_ (Ordinal o4) ord0); rewrite !mxE /b mod0n eqxx.
    by move/eqP; rewrite oner_eq0.
have n8 : - 8%:R != 0 :> F.
  rewrite oppr_eq0 (_ : 8%:R = 2%:R * (2%:R * 2%:R) :> F); last by rewrite -!natrM.
  by rewrite !mulf_neq0.
pose b a r (j : 'I_(d * 4)) : F :=
  (n4 r (j %% 4)%N)%:~R * (((a == j %/ 4)%N%:R - (d.+1)%:R^-1) / - 8%:R).
pose B := \matrix_(k < d * 4, j < d * 4) b (k %/ 4)%N (k %% 4)%N j.
suff E : external_mx d *m B = 1%:M by case: (mulmx1_unit E).
apply/matrixP => i j; rewrite (external_mulE (b := b)); last by move=> *; rewrite mxE.
rewrite (eq_bigr (fun r : 'I_4 => ((m4 (i %% 4) r)%:R * (n4 r (j %% 4)%N)%:~R) * ((i %/ 4 == j %/ 4)%N%:R / - 8%:R))); last first.
  move=> r _; rewrite -mulrA; congr (_ * _); rewrite /b -mulr_sumr -mulrDr; congr (_ * _).
  rewrite -mulr_suml -mulrDl; congr (_ / _).
  rewrite big_split /= sumr_const card_ord.
  rewrite (bigD1 (Ordinal (lt_block j))) //= eqxx big1 ?addr0; last first.
    by move=> a; rewrite -val_eqE /= => /negbTE ->.
  rewrite -addrA [X in _ + X](_ : _ = 0) ?addr0 // addrCA -mulrS -[- _ *+ _]mulr_natr mulNr mulVf //.
  by rewrite addrN.
rewrite -mulr_suml m4n4 ?ltn_mod // !mxE mulrACA mulfV // mulr1 -natrM mulnb.
congr (_ %:R); rewrite -val_eqE /=; congr nat_of_bool; apply/andP/eqP => [[/eqP H1 /eqP H2]|->] //.
by rewrite (divn_eq i 4) (divn_eq j 4) H1 H2.
Qed.

Lemma M4_unit : (M4 \in unitmx) = (2%:R != 0 :> F).
Proof.
rewrite unitmxE unitfE.
have -> : M4 = map_mx intr (\matrix_(i < 4, j < 4) (m4 i j : int)).
  by apply/matrixP => i j; rewrite !mxE.
rewrite det_map_mx (ldetP 4 (fun i j => (m4 i j : int))).
rewrite (_ : ldet _ _ = - (64 : int)); last by vm_compute.
rewrite rmorphN oppr_eq0 [X in X != 0](_ : _ = 2%:R ^+ 6 :> F); last by rewrite -natrX.
by rewrite expf_eq0.
Qed.
End Matrices.
