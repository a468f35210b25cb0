(** The constants and matrices of the five vendored scripts are those that the vendored
    generator prints. *)
From Coq Require Import ZArith NArith Lia.
From mathcomp Require Import all_ssreflect all_algebra.
From Verif Require Import PrimeField Grain GrainGen GrainSpec GrainPeriod GrainProofs GrainMatrix GrainExec GrainTables.
Set Implicit Arguments.
Unset Strict Implicit.
Unset Printing Implicit Defensive.
Import GRing.Theory.
Local Open Scope ring_scope.

(** ** More retries change nothing *)
Section Mono.
Variables fuel n : nat.
Lemma random_below_mono p r r' s x : (r <= r')%N -> random_below fuel r n p s = Some x -> random_below fuel r' n p s = Some x.
Proof.
elim: r r' s => [//|r IH] [//|r'] s rr; rewrite /random_below -/random_below.
by case: grain_random_bits => [[z s1]|] //; case: ifP => // _; exact: IH.
Qed.
Lemma draw_constants_mono p r r' num s x : (r <= r')%N ->
  draw_constants fuel r n p num s = Some x -> draw_constants fuel r' n p num s = Some x.
Proof.
move=> rr; elim: num s x => [//|num IH] s x; rewrite /draw_constants -/draw_constants.
case E: random_below => [[c s1]|] //; rewrite (random_below_mono rr E).
by case E2: draw_constants => [[cs s2]|] //; rewrite (IH _ _ E2).
Qed.
End Mono.

(** ** The check *)
Fixpoint uniqZ (l : seq Z) : bool := if l is z :: l then ~~ has (Z.eqb z) l && uniqZ l else true.
Definition entry (M : seq (seq Z)) (i j : nat) : Z := nth 0%Z (nth [::] M i) j.
Definition mds_check (p : Z) (t : nat) (M : seq (seq Z)) (xs : seq Z) : bool :=
  uniqZ [seq (z mod p)%Z | z <- xs] &&
  all (fun i => all (fun j => (entry M i j * (nth 0%Z xs i + nth 0%Z xs (t + j)) mod p =? 1)%Z) (iota 0 t)) (iota 0 t).

Definition vendored_check (V : vendored) (k : nat) : bool :=
  let n := v_n V in
  if l_constants 64 n (v_prime V) ((v_R_F V + v_R_P V) * v_t V) (l_bits k.*2 (v_start V)) is Some (cs, L) then
    all2 Z.eqb cs (v_round_constants V) && (2 * v_t V * n <= size L)%N &&
    mds_check (v_prime V) (v_t V) (v_MDS_matrix V) (lblocks n (2 * v_t V) L)
  else false.

Lemma all2_eqb (l m : seq Z) : all2 Z.eqb l m -> l = m.
Proof. by elim: l m => [|x l IH] [|y m] //= /andP [/Z.eqb_eq -> /IH ->]. Qed.

Section Sound.
Variable PF : prime_field.
Variables fuel : nat.
Hypothesis fu : (79 <= fuel)%N.

Lemma uniqZ_pf l : uniqZ [seq (z mod pf_p PF)%Z | z <- l] -> uniq [seq pf_of PF z | z <- l].
Proof.
elim: l => //= z l IH /andP [nz /IH ->]; rewrite andbT.
elim: l nz {IH} => //= y l IH; rewrite negb_or inE => /andP [zy /IH H]; rewrite negb_or H andbT.
by apply/eqP => /pf_of_eq E; move: zy; rewrite E Z.eqb_refl.
Qed.

Lemma sim_elements n k s L : (0 < n)%N -> sim s L -> (k * n <= size L)%N ->
  exists2 s', draw_elements PF fuel n k s = Some ([seq pf_of PF z | z <- lblocks n k L], s') & sim s' (drop (k * n) L).
Proof.
move=> n0; elim: k s L => [|k IH] s L sm kn; first by exists s => //; rewrite drop0.
have nL : (n <= size L)%N by apply: leq_trans kn; rewrite mulSn leq_addr.
have sz : size (take n L) == n by rewrite size_takel.
have [s1 E1 sm1] := sim_random fu n0 sm sz.
have [|s2 E2 sm2] := IH _ _ sm1; first by rewrite size_drop leq_subRL // -mulSn.
by exists s2; [rewrite draw_elementsS E1 E2|rewrite mulSn addnC -drop_drop].
Qed.

Lemma mds_checkE n t r M s L : (0 < n)%N -> sim s L -> (2 * t * n <= size L)%N ->
  mds_check (pf_p PF) t M (lblocks n (2 * t) L) ->
  exists s', create_mds_p PF fuel r.+1 n t s = Some (\matrix_(i, j) pf_of PF (entry M i j), s').
Proof.
move=> n0 sm sz /andP [/uniqZ_pf u /allP H].
have [s1 E1 sm1] := sim_elements n0 sm sz; exists s1.
rewrite create_mds_pS draw_distinctS E1 u.
set zs := lblocks n (2 * t) L; cbv zeta.
have zsz : size zs = (2 * t)%N by rewrite size_blocks.
have e1 i : (i < t)%N -> nth 0 (take t [seq pf_of PF z | z <- zs]) i = pf_of PF (nth 0%Z zs i).
  by move=> it; rewrite nth_take // (nth_map 0%Z) // zsz mul2n -addnn ltn_addr.
have e2 j : (j < t)%N -> nth 0 (drop t [seq pf_of PF z | z <- zs]) j = pf_of PF (nth 0%Z zs (t + j)).
  by move=> jt; rewrite nth_drop (nth_map 0%Z) // zsz mul2n -addnn ltn_add2l.
have e3 i j : (i < t)%N -> (j < t)%N -> pf_of PF (entry M i j) * (pf_of PF (nth 0%Z zs i) + pf_of PF (nth 0%Z zs (t + j))) = 1.
  move=> it jt; have /H /allP /(_ j) : i \in iota 0 t by rewrite mem_iota.
  rewrite mem_iota jt => /(_ isT) /Z.eqb_eq E; rewrite -pf_of_add -pf_of_mul -(pf_of_mod PF) E; exact: pf_of_1.
have -> : all (fun i => all (fun j => nth 0 (take t [seq pf_of PF z | z <- zs]) i + nth 0 (drop t [seq pf_of PF z | z <- zs]) j != 0) (iota 0 t)) (iota 0 t).
  apply/allP => i; rewrite mem_iota => it; apply/allP => j; rewrite mem_iota => jt; rewrite e1 // e2 //.
  by apply/eqP => z; have := e3 i j it jt; rewrite z mulr0 => /esym/eqP; rewrite oner_eq0.
congr (Some (_, _)); apply/matrixP => i j; rewrite !mxE e1 // e2 //.
have h := e3 i j (ltn_ord i) (ltn_ord j).
have nz : pf_of PF (nth 0%Z zs i) + pf_of PF (nth 0%Z zs (t + j)) != 0.
  by apply/eqP => z; move/eqP: h; rewrite z mulr0 eq_sym oner_eq0.
by apply: (mulIf nz); rewrite h mulVf.
Qed.

Lemma vendored_checkE V k r : pf_p PF = v_prime V -> (0 < v_n V)%N -> live (v_start V) -> (64 <= r)%N -> vendored_check V k ->
  exists s1 s2, generate_constants fuel r (v_n V) (v_t V) (v_R_F V) (v_R_P V) (v_prime V) (v_start V) = Some (v_round_constants V, s1) /\
    create_mds_p PF fuel r (v_n V) (v_t V) s1 = Some (\matrix_(i, j) pf_of PF (entry (v_MDS_matrix V) i j), s2).
Proof.
move=> pE n0 ls r64; rewrite /vendored_check.
case E: l_constants => [[cs L]|] // /andP [/andP [/all2_eqb cE sz] ck].
have [s1 E1 sm1] := l_constantsE fu n0 (l_bitsE k ls) E.
rewrite -pE in ck; case: r r64 => // r r64.
have [s2 E2] := mds_checkE r n0 sm1 sz ck.
by exists s1, s2; split=> //; rewrite -cE; exact: draw_constants_mono E1.
Qed.
End Sound.

(** Without a field, the constants alone *)
Lemma vendored_constantsE fuel V k r : (79 <= fuel)%N -> (0 < v_n V)%N -> live (v_start V) -> (64 <= r)%N -> vendored_check V k ->
  exists s1, generate_constants fuel r (v_n V) (v_t V) (v_R_F V) (v_R_P V) (v_prime V) (v_start V) = Some (v_round_constants V, s1).
Proof.
move=> fu n0 ls r64; rewrite /vendored_check.
case E: l_constants => [[cs L]|] // /andP [/andP [/all2_eqb cE _] _].
have [s1 E1 _] := l_constantsE fu n0 (l_bitsE k ls) E.
by exists s1; rewrite -cE; exact: draw_constants_mono E1.
Qed.

Lemma v_live V : (v_n V < 4096)%N -> (v_t V < 4096)%N -> (v_R_F V < 1024)%N -> (v_R_P V < 1024)%N -> live (v_start V).
Proof.
move=> /ltP a /ltP b /ltP c /ltP d; apply: warm_live; apply: init_live; lia.
Qed.

Lemma x5_254_3_check : vendored_check x5_254_3 7800. Proof. by vm_compute. Qed.
Lemma x5_254_5_check : vendored_check x5_254_5 13800. Proof. by vm_compute. Qed.
Lemma x5_255_3_check : vendored_check x5_255_3 6400. Proof. by vm_compute. Qed.
Lemma x5_255_5_check : vendored_check x5_255_5 11100. Proof. by vm_compute. Qed.
Lemma x3_64_24_check : vendored_check x3_64_24_optimized 9000. Proof. by vm_compute. Qed.
