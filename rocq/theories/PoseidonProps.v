(** The Poseidon properties in the form in which they are stated in
    [Properties_Poseidon.v]. *)
From Coq Require Import ZArith Lia.
From mathcomp Require Import all_ssreflect all_algebra.
From Verif Require Import Base PrimeLib Fq Matrix MatrixSpec MatrixProofs Params Montgomery Permutation Spec.
From Verif Require Import PermutationProofs PoseidonProofs Check CheckSound BigField RateChecks Cauchy SBox Shipped Hash.
From Verif Require Import Rate1 Rate2 Rate3 Rate4 Rate5 Rate6 Rate7.
Set Implicit Arguments.
Unset Strict Implicit.
Unset Printing Implicit Defensive.
Import GRing.Theory.
Local Open Scope ring_scope.
Local Open Scope rust_scope.
Delimit Scope Z_scope with Z.

(** * Shipped parameters *)
Section Shipped.
Variable p : params Fq_fieldType.
Hypothesis hp : List.In p shipped.
Local Notation t := (1 + p_t1 p)%N.
Let ht : p_t p = t. Proof. by case: (shipped_spec hp). Qed.

Lemma shipped_perm (inp : seq Fq) : size inp = p_t p ->
  permute p inp = Ret (ofV (shipped_poseidon p (toV t inp))) /\
  unoptimized_permute p inp = Ret (ofV (shipped_poseidon p (toV t inp))).
Proof.
move=> sz; have E : inp = ofV (toV t inp) by rewrite ofV_toV // sz.
by rewrite {1 3}E shipped_opt // shipped_unopt.
Qed.

Lemma shipped_hash (inp st : seq Fq) : size inp = p_t p -> size st = p_t p ->
  n_to_1_fixed_hash p inp st =
    Ret (nth 0 (ofV (shipped_poseidon p (toV t inp))) 1, ofV (shipped_poseidon p (toV t inp))) /\
  unoptimized_n_to_1_fixed_hash p inp st =
    Ret (nth 0 (ofV (shipped_poseidon p (toV t inp))) 1, ofV (shipped_poseidon p (toV t inp))).
Proof.
move=> sz sz'; have [E1 E2] := shipped_perm sz.
have [_ /andP [t0 _] _ _ _] := shipped_spec hp.
rewrite hash_fresh ?sz // unopt_hash_fresh ?sz // E1 E2 /=.
by rewrite (aget_nth 0) // size_ofV.
Qed.

Lemma opt_eq_unopt (inp st : seq Fq) : size inp = p_t p -> size st = p_t p ->
  n_to_1_fixed_hash p inp st = unoptimized_n_to_1_fixed_hash p inp st.
Proof. by move=> h h'; have [-> ->] := shipped_hash h h'. Qed.

Lemma perm_bijective (y : seq Fq) : size y = p_t p ->
  exists! x : seq Fq, size x = p_t p /\
    exists out, n_to_1_fixed_hash p x (instance_new p) = Ret (out, y).
Proof.
move=> sz; have [g gK Kg] := shipped_bij hp.
have szi : size (instance_new p) = p_t p by rewrite size_nseq.
exists (ofV (g (toV t y))); split.
  split; first by rewrite size_ofV ht.
  exists (nth 0 y 1).
  have [-> _] := @shipped_hash (ofV (g (toV t y))) _ (etrans (size_ofV _) (esym ht)) szi.
  by rewrite toV_ofV Kg ofV_toV // sz.
move=> x [sx [out]]; have [-> _] := shipped_hash sx szi.
by move=> [_ <-]; rewrite toV_ofV gK ofV_toV // sx.
Qed.

Lemma never_panics (inp st : seq Fq) : size inp = p_t p -> size st = p_t p ->
  exists out words, [/\ n_to_1_fixed_hash p inp st = Ret (out, words),
    unoptimized_n_to_1_fixed_hash p inp st = Ret (out, words) & size words = p_t p].
Proof.
move=> h h'; have [E1 E2] := shipped_hash h h'.
by do 2!eexists; split; [exact: E1 | exact: E2 | rewrite size_ofV ht].
Qed.

Lemma shipped_is_mds : mds_mx (toM (p_t p) (p_t p) (p_mds p)).
Proof. by rewrite ht shipped_mds //; apply: shipped_cauchy. Qed.

Lemma shipped_derived t1 : p_t p = (1 + t1)%N ->
  let om := p_optimized_mds p in
  let M := toM (1 + t1) (1 + t1) (p_mds p) in
  let M' := toM (1 + t1) (1 + t1) (om_M_prime om) in
  let M'' := toM (1 + t1) (1 + t1) (om_M_doubleprime om) in
  let Mh := toM t1 t1 (om_M_hat_inverse om) in
  [/\ [/\ toM (1 + t1) (1 + t1) (om_M_inverse om) *m M = 1%:M,
          M *m toM (1 + t1) (1 + t1) (om_M_inverse om) = 1%:M,
          Mh *m drsubmx M = 1%:M & drsubmx M *m Mh = 1%:M],
      [/\ toM t1 t1 (om_M_hat om) = drsubmx M,
          toM 1 t1 (om_v om) = ursubmx M,
          toM t1 1 (om_w om) = dlsubmx M & om_M_00 om = M 0 0] &
      [/\ M' *m M'' = M, ulsubmx M' = 1%:M, ursubmx M' = 0, dlsubmx M' = 0 & drsubmx M'' = 1%:M]].
Proof.
rewrite ht => /addnI E; subst t1.
have wf := shipped_wf hp.
case/and5P: (shipped_check hp) => _ wu _ hf /andP [_ hd].
have [[h1 h2 h3] [h4 h5] [h6 h7] [h8 h9 h10]] := check_derived_sound ht erefl wf wu hd.
have E00 : om_M_00 (p_optimized_mds p) = pM p (p_t1 p) 0 0.
  have /and5P [_ w1 _ _ _] := wf; rewrite ht in w1.
  by move: hf; rewrite /check_factor ht (rows_toM w1) b00_mrows => /andP [/eqP].
split; split=> //; rewrite h9 /diag1.
- exact: block_mxKul.
- exact: block_mxKur.
- exact: block_mxKdl.
Qed.
End Shipped.

Lemma shipped_canonical r : List.In r shipped_raw ->
  wf_params r /\ wf_unused r /\
  forall l, List.In l (params_elements r) ->
    [/\ (0 <= limb0 l < 2 ^ 64)%Z, (0 <= limb1 l < 2 ^ 64)%Z, (0 <= limb2 l < 2 ^ 64)%Z,
        (0 <= limb3 l < 2 ^ 64)%Z & (limbs_val l < q)%Z].
Proof.
move=> hr; have : List.In (from_montgomery_params r) shipped.
  rewrite shippedE; by elim: shipped_raw hr => //= a l IH [->|/IH h]; [left | right].
move/shipped_check => /and5P [w u _ _ _].
split; [|split].
- by rewrite -(wf_params_map from_montgomery_limbs).
- by rewrite -(wf_unused_map from_montgomery_limbs).
move=> l hl; have := all_In (all_In canonical_big hr) hl.
by case/and5P=> /andP [/Z.leb_le ? /Z.ltb_lt ?] /andP [/Z.leb_le ? /Z.ltb_lt ?]
  /andP [/Z.leb_le ? /Z.ltb_lt ?] /andP [/Z.leb_le ? /Z.ltb_lt ?] /Z.ltb_lt ?.
Qed.

(** * hash_n *)
Definition textbook_hash (t : nat) (arc input : seq Fq) : Fq :=
  nth 0 (ofV (poseidon (fun x => x ^+ 17) (cauchy_mx _ (1 + t))
    (fun r => \col_i nth 0 arc (r * (1 + t) + i)) 4 31 (toV (1 + t) input))) 1.

Lemma hash_run p (inp : seq Fq) : List.In p shipped -> size inp = p_t p ->
  (r <- n_to_1_fixed_hash p inp (instance_new p) ;; Ret r.1)
  = Ret (textbook_hash (p_t1 p) (elements (p_arc p)) inp).
Proof. by move=> hp sz; have [-> _] := @shipped_hash _ hp inp (instance_new p) sz (size_nseq _ _). Qed.

Lemma in1 : List.In RATE_1_PARAMS shipped.
Proof. by left. Qed.
Lemma in2 : List.In RATE_2_PARAMS shipped.
Proof. by right; left. Qed.
Lemma in3 : List.In RATE_3_PARAMS shipped.
Proof. by right; right; left. Qed.
Lemma in4 : List.In RATE_4_PARAMS shipped.
Proof. by right; right; right; left. Qed.
Lemma in5 : List.In RATE_5_PARAMS shipped.
Proof. by right; right; right; right; left. Qed.
Lemma in6 : List.In RATE_6_PARAMS shipped.
Proof. by right; right; right; right; right; left. Qed.
Lemma in7 : List.In RATE_7_PARAMS shipped.
Proof. by right; right; right; right; right; right; left. Qed.
Lemma hash_1E ds v0 : hash_1 ds v0
  = Ret (textbook_hash 1 (elements (p_arc RATE_1_PARAMS)) [:: ds; v0]).
Proof. exact (@hash_run RATE_1_PARAMS [:: ds; v0] in1 erefl). Qed.
Lemma hash_2E ds v0 v1 : hash_2 ds (v0, v1)
  = Ret (textbook_hash 2 (elements (p_arc RATE_2_PARAMS)) [:: ds; v0; v1]).
Proof. exact (@hash_run RATE_2_PARAMS [:: ds; v0; v1] in2 erefl). Qed.
Lemma hash_3E ds v0 v1 v2 : hash_3 ds (v0, v1, v2)
  = Ret (textbook_hash 3 (elements (p_arc RATE_3_PARAMS)) [:: ds; v0; v1; v2]).
Proof. exact (@hash_run RATE_3_PARAMS [:: ds; v0; v1; v2] in3 erefl). Qed.
Lemma hash_4E ds v0 v1 v2 v3 : hash_4 ds (v0, v1, v2, v3)
  = Ret (textbook_hash 4 (elements (p_arc RATE_4_PARAMS)) [:: ds; v0; v1; v2; v3]).
Proof. exact (@hash_run RATE_4_PARAMS [:: ds; v0; v1; v2; v3] in4 erefl). Qed.
Lemma hash_5E ds v0 v1 v2 v3 v4 : hash_5 ds (v0, v1, v2, v3, v4)
  = Ret (textbook_hash 5 (elements (p_arc RATE_5_PARAMS)) [:: ds; v0; v1; v2; v3; v4]).
Proof. exact (@hash_run RATE_5_PARAMS [:: ds; v0; v1; v2; v3; v4] in5 erefl). Qed.
Lemma hash_6E ds v0 v1 v2 v3 v4 v5 : hash_6 ds (v0, v1, v2, v3, v4, v5)
  = Ret (textbook_hash 6 (elements (p_arc RATE_6_PARAMS)) [:: ds; v0; v1; v2; v3; v4; v5]).
Proof. exact (@hash_run RATE_6_PARAMS [:: ds; v0; v1; v2; v3; v4; v5] in6 erefl). Qed.
Lemma hash_7E ds v0 v1 v2 v3 v4 v5 v6 : hash_7 ds (v0, v1, v2, v3, v4, v5, v6)
  = Ret (textbook_hash 7 (elements (p_arc RATE_7_PARAMS)) [:: ds; v0; v1; v2; v3; v4; v5; v6]).
Proof. exact (@hash_run RATE_7_PARAMS [:: ds; v0; v1; v2; v3; v4; v5; v6] in7 erefl). Qed.

(** * Any parameter set *)
Section Generic.
Variable F : fieldType.
Variable p : params F.
Hypothesis wf : wf_params p.
Local Notation t1 := (p_t1 p).
Local Notation t := (1 + p_t1 p)%N.
Local Notation Rf := (r_F (p_rounds p) %/ 2)%N.
Local Notation Rp := (r_P (p_rounds p)).

Lemma wf_t : p_t p = t.
Proof. by case/and5P: wf => /eqP. Qed.

Lemma generic_opt_unopt :
  let M := toM t t (p_mds p) in
  let om := p_optimized_mds p in
  let row (m : rmat F) r : 'cV[F]_t := \col_i nth 0 (elements m) (r * t + i) in
  (0 < Rp)%N ->
  sparse_factorization M (toM t t (om_M_i om)) (om_M_00 om)
    (fun j => (toM t1 1 (nth (Rmat 0 0 [::]) (om_w_hat_collection om) j))^T)
    (fun j => (toM 1 t1 (nth (Rmat 0 0 [::]) (om_v_collection om) j))^T) Rp ->
  equivalent_constants M (row (p_arc p)) (row (p_optimized_arc p)) Rf Rp ->
  forall st : seq F, size st = p_t p -> permute p st = unoptimized_permute p st.
Proof.
move=> M om row Rp0 hf hc st sz.
have -> : st = ofV (toV t st) by rewrite ofV_toV // sz wf_t.
rewrite (permute_ofV wf_t erefl wf) // (unoptimized_permute_ofV wf_t erefl wf).
by rewrite (opt_unopt Rp0 hf hc).
Qed.

Lemma generic_textbook e (st : seq F) : p_alpha p = Exponent e -> size st = p_t p ->
  unoptimized_permute p st
  = Ret (ofV (poseidon (fun x => x ^+ N.to_nat e) (toM t t (p_mds p))
       (fun r => \col_i nth 0 (elements (p_arc p)) (r * t + i)) Rf Rp (toV t st))).
Proof.
move=> ha sz; have {1}-> : st = ofV (toV t st) by rewrite ofV_toV // sz wf_t.
by rewrite (unoptimized_permute_ofV wf_t erefl wf) (unoptV_poseidon ha).
Qed.

(** Dropping one full round and the last row of constants. *)
Definition drop_row (m : rmat F) : rmat F :=
  Rmat (n_rows m).-1 (n_cols m) (take ((n_rows m).-1 * n_cols m) (elements m)).
Definition drop_last_round : params F :=
  Params (p_t p) (p_t1 p) (p_M p) (p_alpha p) (RoundNumbers Rp (r_F (p_rounds p)).-1)
    (p_mds p) (drop_row (p_arc p)) (drop_row (p_optimized_arc p)) (p_optimized_mds p).

Hypothesis odd_F : odd (r_F (p_rounds p)).

Lemma half_odd : ((r_F (p_rounds p)).-1 %/ 2 = Rf)%N.
Proof. by move: odd_F; case: (r_F _) => //= n; rewrite !divn2 /= uphalf_half => /negbTE ->. Qed.

Let R1 : rounds_total (p_rounds drop_last_round) = (rounds_total (p_rounds p)).-1.
Proof. by rewrite /rounds_total /=; move: odd_F; case: (r_F _) => //= n _; rewrite addnS. Qed.

Lemma wf_drop_row (m : rmat F) : wf_shape (rounds_total (p_rounds p)) (p_t p) m ->
  wf_shape (rounds_total (p_rounds drop_last_round)) (p_t p) (drop_row m).
Proof.
case/and3P=> /eqP E1 /eqP E2 /eqP E3; rewrite /wf_shape R1 /= E1 E2 !eqxx /= size_takel ?E3 //.
by rewrite leq_mul2r leq_pred orbT.
Qed.

Lemma wf_drop_last : wf_params drop_last_round.
Proof.
case/and5P: wf => w0 w1 w2 w3 w4; rewrite /wf_params.
by apply/and5P; split=> //; apply: wf_drop_row.
Qed.

Lemma rcrow_drop (m : rmat F) r : wf_shape (rounds_total (p_rounds p)) (p_t p) m ->
  (r < (rounds_total (p_rounds p)).-1)%N -> rcrow t1 (drop_row m) r = rcrow t1 m r.
Proof.
case/and3P=> /eqP E1 /eqP E2 /eqP E3 rR; apply/matrixP => i j; rewrite !mxE /= nth_take //.
rewrite E1 E2 wf_t; apply: (@leq_trans (r.+1 * t)); last by rewrite leq_mul2r rR orbT.
by rewrite mulSn addnC -addSn leq_add2r.
Qed.

Lemma rows_used r : (r < Rf + Rp + Rf)%N -> (r < (rounds_total (p_rounds p)).-1)%N.
Proof.
move=> h; apply: (leq_trans h); rewrite -R1.
by have := rcount drop_last_round; rewrite /= half_odd.
Qed.

Lemma odd_rounds_unopt (st : seq F) : size st = p_t p ->
  unoptimized_permute p st = unoptimized_permute drop_last_round st.
Proof.
move=> sz; have -> : st = ofV (toV t st) by rewrite ofV_toV // sz wf_t.
case/and5P: (wf) => _ _ w2 w3 _.
rewrite (unoptimized_permute_ofV wf_t erefl wf) (@unoptimized_permute_ofV _ drop_last_round t1 wf_t erefl wf_drop_last).
congr omap; rewrite /unoptV /= half_odd.
have H r (x : 'cV[F]_t) : (r < Rf + Rp + Rf)%N ->
    fullR p (@pc _ p t1) r x = fullR drop_last_round (@pc _ drop_last_round t1) r x.
  by move=> lt; rewrite /fullR /pc rcrow_drop // rows_used.
have H' r (x : 'cV[F]_t) : (r < Rf + Rp + Rf)%N -> partR p r x = partR drop_last_round r x.
  by move=> lt; rewrite /partR /pc rcrow_drop // rows_used.
rewrite (eq_in_for_in (g := fullR drop_last_round (@pc _ drop_last_round t1))); last first.
  by move=> r x; rewrite mem_iota add0n /= => h; apply: H; rewrite -addnA ltn_addr.
case: (for_in _ _ _) => //= x1.
rewrite (eq_in_for_in (g := @partR _ drop_last_round t1)); last first.
  by move=> r x; rewrite mem_iota /= => /andP [_ h]; apply: H'; rewrite ltn_addr.
case: (for_in _ _ _) => //= x2.
apply: eq_in_for_in => r x; rewrite mem_iota /= => /andP [_ h]; exact: H.
Qed.

Lemma odd_rounds_opt (st : seq F) : (0 < Rp)%N -> size st = p_t p ->
  permute p st = permute drop_last_round st.
Proof.
move=> Rp0 sz; have -> : st = ofV (toV t st) by rewrite ofV_toV // sz wf_t.
case/and5P: (wf) => _ _ w2 w3 _.
rewrite (permute_ofV wf_t erefl wf) // (@permute_ofV _ drop_last_round t1 wf_t erefl wf_drop_last) //.
congr omap; rewrite /optV /= half_odd.
have D r : (r < Rf + Rp + Rf)%N -> pd p t1 r = pd drop_last_round t1 r.
  by move=> lt; rewrite /pd rcrow_drop // rows_used.
have H r (x : 'cV[F]_t) : (r < Rf + Rp + Rf)%N ->
    fullR p (@pd _ p t1) r x = fullR drop_last_round (@pd _ drop_last_round t1) r x.
  by move=> lt; rewrite /fullR D.
rewrite (eq_in_for_in (g := fullR drop_last_round (@pd _ drop_last_round t1))); last first.
  by move=> r x; rewrite mem_iota add0n /= => h; apply: H; rewrite -addnA ltn_addr.
case: (for_in _ _ _) => //= x1.
rewrite D; last by rewrite -addnA -[X in (X < _)%N]addn0 ltn_add2l addn_gt0 Rp0.
rewrite (eq_in_for_in (g := @partS _ drop_last_round t1)); last first.
  move=> r x; rewrite mem_iota add0n /= => h; rewrite /partS /= half_odd D //.
  by rewrite -addnA ltn_add2l ltn_addr // -ltn_predRL.
case: (for_in _ _ _) => //= x2; rewrite -[partO drop_last_round x2]/(partO p x2).
case: (partO _ x2) => //= z.
apply: eq_in_for_in => r x; rewrite mem_iota /= => /andP [_ h]; exact: H.
Qed.
End Generic.

(** The shipped parameter sets meet the hypotheses of [generic_opt_unopt]. *)
Lemma shipped_equations p : List.In p shipped ->
  let t1 := p_t1 p in let t := (1 + t1)%N in
  let M := toM t t (p_mds p) in
  let om := p_optimized_mds p in
  let row (m : rmat Fq_fieldType) r : 'cV[Fq_fieldType]_t := \col_i nth 0 (elements m) (r * t + i) in
  sparse_factorization M (toM t t (om_M_i om)) (om_M_00 om)
    (fun j => (toM t1 1 (nth (Rmat 0 0 [::]) (om_w_hat_collection om) j))^T)
    (fun j => (toM 1 t1 (nth (Rmat 0 0 [::]) (om_v_collection om) j))^T) 31 /\
  equivalent_constants M (row (p_arc p)) (row (p_optimized_arc p)) 4 31.
Proof.
move=> hp; have [ht _ _ _ hr] := shipped_spec hp.
case/and5P: (shipped_check hp) => wf _ _ hf /andP [hk _].
have Rp0 : (0 < r_P (p_rounds p))%N by rewrite hr.
split.
- by have := check_factor_sound ht erefl wf hf; rewrite hr.
- by have := check_consts_sound ht erefl wf Rp0 hk; rewrite hr.
Qed.

Lemma sbox17 p (x : Fq) : List.In p shipped -> sbox p x = Ret (x ^+ 17).
Proof. by move=> hp; have [_ _ _ ha _] := shipped_spec hp; rewrite /sbox ha. Qed.

Lemma no_partial_rounds_hash (F : fieldType) (p : params F) (inp st : seq F) :
  r_P (p_rounds p) = 0%N -> n_to_1_fixed_hash p inp st = Panic.
Proof.
by move=> h; rewrite /n_to_1_fixed_hash; case: (load_input _ _) => //= s; rewrite no_partial_rounds_panic.
Qed.

Lemma new_words (F : fieldType) (p : params F) :
  size (output_words (instance_new p)) = p_t p /\ forall x, x \in output_words (instance_new p) -> x = 0.
Proof. by split=> [|x]; rewrite ?size_nseq // mem_nseq => /andP [_ /eqP]. Qed.
