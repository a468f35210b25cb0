(** The costs of the permutations and of the hash functions of an [Instance], and the
    comparison of the two implementations. *)
From Coq Require Import ZArith NArith.
From mathcomp Require Import all_ssreflect all_algebra.
From Verif Require Import Base Slia Fq Matrix Params Permutation RateChecks Shipped Hash PoseidonProps.
From Verif Require Import Count CountSpec CountProofs.
Set Implicit Arguments.
Unset Strict Implicit.
Unset Printing Implicit Defensive.
Import GRing.Theory.

Section Costs.
Variable F : fieldType.
Variable p : params F.
Hypothesis wf : wf_params p.
Local Notation t := (p_t p).
Local Notation f := (r_F (p_rounds p) %/ 2).
Local Notation r := (r_P (p_rounds p)).

Lemma permute_cost st o : size st = t ->
  cpermute p st o = omap (fun s => (s, Ops (n_mul o + fast_muls t f r) (n_add o + fast_adds t f r)
                                         (n_sbox o + both_sboxes t f r))) (permute p st).
Proof. by move=> /(runs_permute wf) [H _]; exact: H. Qed.

Lemma unoptimized_cost st o : size st = t ->
  cunoptimized_permute p st o = omap (fun s => (s, Ops (n_mul o + base_muls t f r) (n_add o + base_adds t f r)
                                         (n_sbox o + both_sboxes t f r))) (unoptimized_permute p st).
Proof. by move=> /(runs_unoptimized wf) [H _]; exact: H. Qed.

Lemma load_input_size (inp st st' : seq F) : load_input inp st = Ret st' -> size st' = size st.
Proof.
rewrite /load_input; elim: (enumerate inp) st => [|[i w] l IH] st /=; first by case=> <-.
by case E: (aset st i w) => [s|] //= /IH ->; apply: aset_size E.
Qed.

Lemma hash_cost inp st : size st = t ->
  cn_to_1_fixed_hash p inp st no_ops
  = omap (fun x => (x, Ops (fast_muls t f r) (fast_adds t f r) (both_sboxes t f r)))
      (n_to_1_fixed_hash p inp st).
Proof.
move=> ss; rewrite /cn_to_1_fixed_hash /n_to_1_fixed_hash /cbind /free.
case E: (load_input inp st) => [s|] //=.
have E2 := load_input_size E; rewrite ss in E2.
rewrite permute_cost //=; case: (permute p s) => //= s'.
by rewrite !add0n; case: (aget s' 1).
Qed.

Lemma unoptimized_hash_cost inp st : size st = t ->
  cunoptimized_n_to_1_fixed_hash p inp st no_ops
  = omap (fun x => (x, Ops (base_muls t f r) (base_adds t f r) (both_sboxes t f r)))
      (unoptimized_n_to_1_fixed_hash p inp st).
Proof.
move=> ss; rewrite /cunoptimized_n_to_1_fixed_hash /unoptimized_n_to_1_fixed_hash /cbind /free.
case E: (load_input inp st) => [s|] //=.
have E2 := load_input_size E; rewrite ss in E2.
rewrite unoptimized_cost //=; case: (unoptimized_permute p s) => //= s'.
by rewrite !add0n; case: (aget s' 1).
Qed.
End Costs.

(** * When the optimized permutation is cheaper *)
Lemma fewer_muls t f r : 0 < t -> (fast_muls t f r < base_muls t f r) = (t ^ 2 < r * (t - 1) ^ 2).
Proof.
case: t => // n _; rewrite /fast_muls /base_muls !expnS !expn0 !muln1.
have -> : n.+1 - 1 = n by rewrite subn1.
have -> : 2 * n.+1 - 1 = (2 * n).+1 by rewrite mulnS subn1.
have -> : (2 * f + r) * (n.+1 * n.+1) = 2 * f * (n.+1 * n.+1) + (r * (n * n) + r * (2 * n).+1) by slia.
have -> : (2 * f).+1 * (n.+1 * n.+1) + r * (2 * n).+1 = 2 * f * (n.+1 * n.+1) + (n.+1 * n.+1 + r * (2 * n).+1) by slia.
by rewrite ltn_add2l ltn_add2r.
Qed.

Lemma fewer_adds t f r : 0 < t -> 0 < r ->
  (fast_adds t f r < base_adds t f r) = (t * t.+1 <= r * (t * (t - 1))).
Proof.
case: t => // n _; case: r => // m _; rewrite /fast_adds /base_adds.
have -> : n.+1 - 1 = n by rewrite subn1.
have -> : m.+1 - 1 = m by rewrite subn1.
have -> : 2 * n.+1 - 1 = (2 * n).+1 by rewrite mulnS subn1.
have -> : (2 * f + m.+1) * (n.+1 * n.+1 + n.+1)
  = 2 * f * (n.+1 * n.+1 + n.+1) + (m.+1 * (n.+1 * n) + (m.+1 * (2 * n).+2)) by slia.
have -> : (2 * f).+1 * (n.+1 * n.+1 + n.+1) + m.+1 * (2 * n).+1 + m
  = 2 * f * (n.+1 * n.+1 + n.+1) + (n.+1 * n.+2 + (m.+1 * (2 * n).+1 + m)) by slia.
rewrite ltn_add2l.
have -> : m.+1 * (2 * n).+2 = (m.+1 * (2 * n).+1 + m).+1 by slia.
by rewrite addnS ltnS leq_add2r.
Qed.

(** Cheaper for widths from 3 on as soon as there are three partial rounds, for width 2 from
    five on, never for width 1. *)
Lemma cheaper_when t f r : (2 < t) -> (2 < r) -> (fast_muls t f r < base_muls t f r).
Proof.
move=> t2 r2; rewrite fewer_muls; last exact: ltn_trans t2.
apply: (@leq_trans (3 * (t - 1) ^ 2)); last by rewrite leq_mul2r r2 orbT.
case: t t2 => [|[|[|n]]] // _; rewrite subn1 /= !expnS !expn0 !muln1; slia.
Qed.

(** * The shipped parameters *)
Section Shipped.
Variable p : params Fq_fieldType.
Hypothesis hp : List.In p shipped.

Lemma shipped_cost (inp st : seq Fq) : size inp = p_t p -> size st = p_t p ->
  exists out words,
    cn_to_1_fixed_hash p inp st no_ops
      = Ret ((out, words), Ops (9 * p_t p ^ 2 + 31 * (2 * p_t p - 1)) (9 * p_t p ^ 2 + 71 * p_t p - 1) (8 * p_t p + 31)) /\
    cunoptimized_n_to_1_fixed_hash p inp st no_ops
      = Ret ((out, words), Ops (39 * p_t p ^ 2) (39 * (p_t p ^ 2 + p_t p)) (8 * p_t p + 31)).
Proof.
move=> si ss; have wf := shipped_wf hp.
have [out [words [E1 E2 _]]] := never_panics hp si ss.
exists out, words; rewrite hash_cost // unoptimized_hash_cost // E1 E2 /=.
have [ht _ _ _ ->] := shipped_spec hp.
have t0 : 0 < p_t p by rewrite ht.
rewrite /fast_muls /fast_adds /base_muls /base_adds /both_sboxes -mulnn /=.
clear -t0; move: (p_t p) t0 => [|t] // _.
have -> : 2 * t.+1 - 1 = (2 * t).+1 by rewrite mulnS subn1.
rewrite -[8 %/ 2]/4 -[31 - 1]/30.
have -> : 9 * (t.+1 * t.+1) + 71 * t.+1 - 1 = 9 * (t.+1 * t.+1) + 71 * t + 70 by slia.
split; congr (Ret (_, _)); apply: opsE; slia.
Qed.
End Shipped.
