(** C76: the numbers of field operations of the optimized and the unoptimized permutation.
    Statements only; proofs in [CountTheorems.v]; instances in [CountExamples.v].  The
    programs that count are those of [Count.v], the costs are defined in [CountSpec.v]. *)
From mathcomp Require Import all_ssreflect all_algebra.
From Verif Require Import Base Fq Matrix Params Permutation RateChecks Count CountSpec CountTheorems.
Import GRing.Theory.

Theorem C76_permute (F : fieldType) (p : params F) : wf_params p -> forall (st : seq F) (o : ops), size st = p_t p ->
  let t := p_t p in let f := r_F (p_rounds p) %/ 2 in let r := r_P (p_rounds p) in
  cpermute p st o = omap (fun s => (s, Ops (n_mul o + fast_muls t f r) (n_add o + fast_adds t f r)
                                         (n_sbox o + both_sboxes t f r))) (permute p st).
Proof. exact (@permute_cost F p). Qed.
Print Assumptions C76_permute.

Theorem C76_unoptimized (F : fieldType) (p : params F) : wf_params p -> forall (st : seq F) (o : ops), size st = p_t p ->
  let t := p_t p in let f := r_F (p_rounds p) %/ 2 in let r := r_P (p_rounds p) in
  cunoptimized_permute p st o = omap (fun s => (s, Ops (n_mul o + base_muls t f r) (n_add o + base_adds t f r)
                                         (n_sbox o + both_sboxes t f r))) (unoptimized_permute p st).
Proof. exact (@unoptimized_cost F p). Qed.
Print Assumptions C76_unoptimized.

Theorem C76_hashes (F : fieldType) (p : params F) : wf_params p -> forall input st : seq F, size st = p_t p ->
  let t := p_t p in let f := r_F (p_rounds p) %/ 2 in let r := r_P (p_rounds p) in
  cn_to_1_fixed_hash p input st no_ops
    = omap (fun x => (x, Ops (fast_muls t f r) (fast_adds t f r) (both_sboxes t f r))) (n_to_1_fixed_hash p input st) /\
  cunoptimized_n_to_1_fixed_hash p input st no_ops
    = omap (fun x => (x, Ops (base_muls t f r) (base_adds t f r) (both_sboxes t f r))) (unoptimized_n_to_1_fixed_hash p input st).
Proof. exact (fun wf inp st ss => conj (@hash_cost F p wf inp st ss) (@unoptimized_hash_cost F p wf inp st ss)). Qed.
Print Assumptions C76_hashes.

Theorem C76_fewer_multiplications (t f r : nat) : 0 < t ->
  (fast_muls t f r < base_muls t f r) = (t ^ 2 < r * (t - 1) ^ 2).
Proof. exact (@fewer_muls t f r). Qed.
Print Assumptions C76_fewer_multiplications.

Theorem C76_fewer_additions (t f r : nat) : 0 < t -> 0 < r ->
  (fast_adds t f r < base_adds t f r) = (t * t.+1 <= r * (t * (t - 1))).
Proof. exact (@fewer_adds t f r). Qed.
Print Assumptions C76_fewer_additions.

Theorem C76_three_partial_rounds (t f r : nat) : 2 < t -> 2 < r -> fast_muls t f r < base_muls t f r.
Proof. exact (@cheaper_when t f r). Qed.
Print Assumptions C76_three_partial_rounds.

Theorem C76_shipped (p : params Fq_fieldType) : List.In p shipped ->
  forall input st : seq Fq, size input = p_t p -> size st = p_t p ->
  exists (out : Fq) (words : seq Fq),
    cn_to_1_fixed_hash p input st no_ops
      = Ret ((out, words), Ops (9 * p_t p ^ 2 + 31 * (2 * p_t p - 1)) (9 * p_t p ^ 2 + 71 * p_t p - 1) (8 * p_t p + 31)) /\
    cunoptimized_n_to_1_fixed_hash p input st no_ops
      = Ret ((out, words), Ops (39 * p_t p ^ 2) (39 * (p_t p ^ 2 + p_t p)) (8 * p_t p + 31)).
Proof. exact (@shipped_cost p). Qed.
Print Assumptions C76_shipped.
