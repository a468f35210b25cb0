(** The statements of C69 from the lemmas on the generator, in the words of
    [GrainSpec.v]. *)
From Coq Require Import ZArith NArith Lia.
From mathcomp Require Import all_ssreflect all_algebra.
From Verif Require Import PrimeField Cauchy Grain GrainGen GrainSpec GrainPeriod GrainProofs GrainOrbit GrainMatrix GrainExec GrainTables GrainShipped GrainPrimes.
Set Implicit Arguments.
Unset Strict Implicit.
Unset Printing Implicit Defensive.
Import GRing.Theory.
Local Open Scope ring_scope.

Local Notation advance k s := (iter k (fun s => (shift s).2) s).

Lemma recurrence_seqb s u : size s = 80%N -> recurrence s u -> u =1 seqb s.
Proof.
move=> E [H0 Hr] k; elim/ltn_ind: k => k IH.
case: (ltnP k 80) => k80; first by rewrite H0 // seqb_init.
have ltm m : (m < 80)%N -> (k - 80 + m < k)%N by move=> m80; rewrite -{2}(subnK k80) ltn_add2l.
rewrite -(subnK k80) Hr seqb_rec // !IH ?ltm //; by have := ltm 0%N isT; rewrite addn0.
Qed.

Lemma selected_ext u v m : u =1 v -> selected u m = selected v m.
Proof.
move=> E; rewrite /selected; have -> : [seq i <- iota 0 m | u (80 + 2 * i)%N] = [seq i <- iota 0 m | v (80 + 2 * i)%N].
  by apply: eq_filter => i; rewrite E.
by apply: eq_map => i; rewrite E.
Qed.

Lemma register (s : seq bool) : size s = 80%N -> s <> nseq 80 false ->
  [/\ advance (2 ^ 80).-1 s = s,
      forall d, (0 < d < (2 ^ 80).-1)%N -> advance d s <> s &
      forall t, size t = 80%N -> t <> nseq 80 false -> exists2 k, (k < (2 ^ 80).-1)%N & advance k s = t].
Proof.
move=> E nz; split.
- rewrite -full_pred; exact (full_iter E).
- rewrite -full_pred => d; exact (min_iter E nz).
- by move=> t Et tz; exact (orbit_step (conj E nz) (conj Et tz)).
Qed.

Lemma start_state (field sbox n t R_F R_P : N) :
  (field < 4)%num -> (sbox < 16)%num -> (n < 4096)%num -> (t < 4096)%num -> (R_F < 1024)%num -> (R_P < 1024)%num ->
  size (warm_up (init_generator field sbox n t R_F R_P)) = 80%N /\
  warm_up (init_generator field sbox n t R_F R_P) <> nseq 80 false.
Proof. by move=> a b c d e f; exact (warm_live (init_live a b c d e f)). Qed.

Lemma bits_selected fuel k (s : seq bool) u : (79 <= fuel)%N -> size s = 80%N -> s <> nseq 80 false -> recurrence s u ->
  exists m, next_bits fuel k s = Some (selected u m, advance (2 * m) s) /\ size (selected u m) = k.
Proof.
move=> fu E nz R; have [m [H1 H2]] := next_bits_ok k fu E nz; exists m.
by rewrite (selected_ext _ (recurrence_seqb E R)).
Qed.

Lemma constants_selected fuel retries n t R_F R_P p (s : seq bool) u cs s' :
  (79 <= fuel)%N -> (0 < n)%N -> size s = 80%N -> s <> nseq 80 false -> recurrence s u ->
  generate_constants fuel retries n t R_F R_P p s = Some (cs, s') ->
  [/\ size cs = ((R_F + R_P) * t)%N, forall c, List.In c cs -> (0 <= c < p)%Z &
      exists m k, [/\ s' = advance (2 * m) s, size (selected u m) = (k * n)%N &
                      cs = [seq z <- blocks n k (selected u m) | (z <? p)%Z]]].
Proof.
move=> fu n0 E nz R H; have [k [bs [[m [s'E bE]] sz cE szc]]] := draw_constants_ok fu n0 (conj E nz) H.
split=> // [c|]; last first.
  by exists m, k; rewrite (selected_ext _ (recurrence_seqb E R)) -bE -lblocksE.
rewrite cE => cI; have {cI} [cI cp] : List.In c (lblocks n k bs) /\ (c <? p)%Z.
  elim: (lblocks n k bs) cI => //= z l IH; case: ifP => zp /=; last by move=> /IH [H1 H2]; split=> //; right.
  by case=> [<-|/IH [H1 H2]]; split=> //; [left|right].
by have [c0 _] := blocks_bound sz cI; split=> //; apply/Z.ltb_lt.
Qed.

Lemma constants_end_state fuel retries n t R_F R_P p (s : seq bool) cs s' :
  (79 <= fuel)%N -> (0 < n)%N -> size s = 80%N -> s <> nseq 80 false ->
  generate_constants fuel retries n t R_F R_P p s = Some (cs, s') -> size s' = 80%N /\ s' <> nseq 80 false.
Proof.
move=> fu n0 E nz H; have [k [bs [dr _ _ _]]] := draw_constants_ok fu n0 (conj E nz) H.
exact: drew_live (conj E nz) dr.
Qed.

Section Field.
Variable PF : prime_field.

Lemma matrix_selected fuel retries n t (s : seq bool) u (M : 'M[PF]_t) s' :
  (79 <= fuel)%N -> (0 < n)%N -> size s = 80%N -> s <> nseq 80 false -> recurrence s u ->
  create_mds_p PF fuel retries n t s = Some (M, s') ->
  mds_mx M /\
  exists m0 m, let xs := [seq pf_of PF z | z <- blocks n (2 * t) (drop (size (selected u m0)) (selected u m))] in
    [/\ s' = advance (2 * m) s, size (selected u m) = (size (selected u m0) + 2 * t * n)%N,
        uniq xs & M = \matrix_(i, j) (nth 0 xs i + nth 0 xs (t + j))^-1].
Proof.
move=> fu n0 E nz R H.
have [bs0 [s0 [bs [[m0 [s0E b0E]] [m [s'E bE]] sz [un nzs ME]]]]] := create_mds_ok fu n0 (conj E nz) H.
split; first by rewrite ME; apply: cauchy_list_mds => //; rewrite size_map lblocksE size_map size_iota.
exists m0, (m0 + m)%N; rewrite !(selected_ext _ (recurrence_seqb E R)).
rewrite selectedD -s0E -bE drop_size_cat // -lblocksE; split=> //.
- by rewrite s'E s0E -iterD addnC mulnDr.
- by rewrite size_cat sz.
Qed.

Lemma generated_matrix (field : seq PF) fuel retries n t1 (s : seq bool) (M : 'M[PF]_(1 + t1)) s' :
  (79 <= fuel)%N -> (0 < n)%N -> size s = 80%N -> s <> nseq 80 false ->
  generate_matrix field fuel retries n t1 s = Some (M, s') -> mds_mx M /\ accepted field M.
Proof. by move=> fu n0 E nz; exact: (generate_matrix_ok fu n0 (conj E nz)). Qed.
End Field.

(** ** The vendored scripts *)
Definition vendored_scripts : seq vendored := [:: x5_254_3; x5_254_5; x5_255_3; x5_255_5; x3_64_24_optimized].

Lemma vendored_checks V : List.In V vendored_scripts ->
  [/\ (0 < v_n V)%N, live (v_start V) & exists k, vendored_check V k].
Proof.
case=> [<-|[<-|[<-|[<-|[<-|//]]]]]; split; try exact (erefl true); try by apply: v_live.
- by exists 7800%N; exact x5_254_3_check.
- by exists 13800%N; exact x5_254_5_check.
- by exists 6400%N; exact x5_255_3_check.
- by exists 11100%N; exact x5_255_5_check.
- by exists 9000%N; exact x3_64_24_check.
Qed.

Lemma vendored_constants V fuel retries : List.In V vendored_scripts -> (79 <= fuel)%N -> (64 <= retries)%N ->
  exists s1, generate_constants fuel retries (v_n V) (v_t V) (v_R_F V) (v_R_P V) (v_prime V) (v_start V) =
    Some (v_round_constants V, s1).
Proof. by move=> /vendored_checks [n0 ls [k ck]] fu r64; exact (vendored_constantsE fu n0 ls r64 ck). Qed.

Lemma vendored_matrices V (PF : prime_field) fuel retries : List.In V vendored_scripts -> pf_p PF = v_prime V ->
  (79 <= fuel)%N -> (64 <= retries)%N ->
  exists s1 s2, generate_constants fuel retries (v_n V) (v_t V) (v_R_F V) (v_R_P V) (v_prime V) (v_start V) =
      Some (v_round_constants V, s1) /\
    create_mds_p PF fuel retries (v_n V) (v_t V) s1 =
      Some (\matrix_(i, j) pf_of PF (nth 0%Z (nth [::] (v_MDS_matrix V) i) j), s2).
Proof. by move=> /vendored_checks [n0 ls [k ck]] pE fu r64; exact (vendored_checkE fu pE n0 ls r64 ck). Qed.

Lemma field_of p : prime (Z.to_nat p) -> (0 <= p)%Z -> exists PF : prime_field, pf_p PF = p.
Proof. by move=> pp p0; exists (Fp_pf pp); rewrite -[RHS](Z2Nat.id p p0). Qed.

Lemma vendored_fields V : List.In V vendored_scripts -> exists PF : prime_field, pf_p PF = v_prime V.
Proof.
case=> [<-|[<-|[<-|[<-|[<-|//]]]]].
- exact (field_of prime_21888242871839275222246405745257275088548364400416034343698204186575808495617 (Zle_0_pos _)).
- exact (field_of prime_21888242871839275222246405745257275088548364400416034343698204186575808495617 (Zle_0_pos _)).
- exact (field_of prime_52435875175126190479447740508185965837690552500527637822603658699938581184513 (Zle_0_pos _)).
- exact (field_of prime_52435875175126190479447740508185965837690552500527637822603658699938581184513 (Zle_0_pos _)).
- exact (field_of prime_18446744073709551359 (Zle_0_pos _)).
Qed.

(** ** Without bits there are no numbers. *)
Lemma zero_constants fuel retries t R_F R_P p s : (0 < (R_F + R_P) * t)%N ->
  generate_constants fuel retries 0 t R_F R_P p s = None.
Proof. by rewrite /generate_constants; case: (_ * _)%N => // k _; case: retries. Qed.
Lemma zero_matrix (PF : prime_field) fuel retries t s : (0 < t)%N -> create_mds_p PF fuel retries 0 t s = None.
Proof. by case: t => // t _; case: retries => // retries; rewrite /= mulnS. Qed.
Theorem zero_bits (PF : prime_field) fuel retries t R_F R_P p s : (0 < t)%N ->
  ((0 < R_F + R_P)%N -> generate_constants fuel retries 0 t R_F R_P p s = None) /\
  create_mds_p PF fuel retries 0 t s = None.
Proof. by move=> t0; split=> [H|]; [apply: zero_constants; rewrite muln_gt0 H | exact: zero_matrix]. Qed.
