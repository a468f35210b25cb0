(** C69: the vendored generator of round constants and matrices.  Statements only; proofs
    in [GrainTheorems.v]; instances in [GrainGenExamples.v].  The sequence, the selected
    bits and the numbers are defined in [GrainSpec.v]. *)
From Coq Require Import ZArith NArith.
From mathcomp Require Import all_ssreflect all_algebra.
From Verif Require Import PrimeField Cauchy Grain GrainGen GrainSpec GrainTables GrainTheorems.
Import GRing.Theory.
Delimit Scope Z_scope with Z.
Local Open Scope ring_scope.

(** ** The register *)
Theorem C69_register (s : seq bool) : size s = 80%N -> s <> nseq 80 false ->
  [/\ iter (2 ^ 80).-1 (fun s => (shift s).2) s = s,
      forall d, (0 < d < (2 ^ 80).-1)%N -> iter d (fun s => (shift s).2) s <> s &
      forall t, size t = 80%N -> t <> nseq 80 false ->
        exists2 k, (k < (2 ^ 80).-1)%N & iter k (fun s => (shift s).2) s = t].
Proof. exact (@register s). Qed.
Theorem C69_start (field sbox n t R_F R_P : N) :
  (field < 4)%num -> (sbox < 16)%num -> (n < 4096)%num -> (t < 4096)%num -> (R_F < 1024)%num -> (R_P < 1024)%num ->
  size (warm_up (init_generator field sbox n t R_F R_P)) = 80%N /\
  warm_up (init_generator field sbox n t R_F R_P) <> nseq 80 false.
Proof. exact (@start_state field sbox n t R_F R_P). Qed.

(** ** The bits, the constants and the matrices *)
Theorem C69_bits (fuel k : nat) (s : seq bool) (u : nat -> bool) :
  (79 <= fuel)%N -> size s = 80%N -> s <> nseq 80 false -> recurrence s u ->
  exists m, next_bits fuel k s = Some (selected u m, iter (2 * m) (fun s => (shift s).2) s) /\ size (selected u m) = k.
Proof. exact (@bits_selected fuel k s u). Qed.
Theorem C69_constants (fuel retries n t R_F R_P : nat) (p : Z) (s : seq bool) (u : nat -> bool) (cs : seq Z) (s' : seq bool) :
  (79 <= fuel)%N -> (0 < n)%N -> size s = 80%N -> s <> nseq 80 false -> recurrence s u ->
  generate_constants fuel retries n t R_F R_P p s = Some (cs, s') ->
  [/\ size cs = ((R_F + R_P) * t)%N, forall c, List.In c cs -> (0 <= c < p)%Z &
      exists m k, [/\ s' = iter (2 * m) (fun s => (shift s).2) s, size (selected u m) = (k * n)%N &
                      cs = [seq z <- blocks n k (selected u m) | (z <? p)%Z]]].
Proof. exact (@constants_selected fuel retries n t R_F R_P p s u cs s'). Qed.
Theorem C69_constants_state (fuel retries n t R_F R_P : nat) (p : Z) (s : seq bool) (cs : seq Z) (s' : seq bool) :
  (79 <= fuel)%N -> (0 < n)%N -> size s = 80%N -> s <> nseq 80 false ->
  generate_constants fuel retries n t R_F R_P p s = Some (cs, s') -> size s' = 80%N /\ s' <> nseq 80 false.
Proof. exact (@constants_end_state fuel retries n t R_F R_P p s cs s'). Qed.
Theorem C69_zero_bits (PF : prime_field) (fuel retries t R_F R_P : nat) (p : Z) (s : seq bool) : (0 < t)%N ->
  ((0 < R_F + R_P)%N -> generate_constants fuel retries 0 t R_F R_P p s = None) /\
  create_mds_p PF fuel retries 0 t s = None.
Proof. exact (@zero_bits PF fuel retries t R_F R_P p s). Qed.
Theorem C69_matrix (PF : prime_field) (fuel retries n t : nat) (s : seq bool) (u : nat -> bool) (M : 'M[PF]_t) (s' : seq bool) :
  (79 <= fuel)%N -> (0 < n)%N -> size s = 80%N -> s <> nseq 80 false -> recurrence s u ->
  create_mds_p PF fuel retries n t s = Some (M, s') ->
  mds_mx M /\
  exists m0 m, let xs := [seq pf_of PF z | z <- blocks n (2 * t) (drop (size (selected u m0)) (selected u m))] in
    [/\ s' = iter (2 * m) (fun s => (shift s).2) s, size (selected u m) = (size (selected u m0) + 2 * t * n)%N,
        uniq xs & M = \matrix_(i, j) (nth 0 xs i + nth 0 xs (t + j))^-1].
Proof. exact (@matrix_selected PF fuel retries n t s u M s'). Qed.
Theorem C69_accepted (PF : prime_field) (field : seq PF) (fuel retries n t1 : nat) (s : seq bool) (M : 'M[PF]_(1 + t1)) (s' : seq bool) :
  (79 <= fuel)%N -> (0 < n)%N -> size s = 80%N -> s <> nseq 80 false ->
  generate_matrix field fuel retries n t1 s = Some (M, s') -> mds_mx M /\ accepted field M.
Proof. exact (@generated_matrix PF field fuel retries n t1 s M s'). Qed.

(** ** The five vendored scripts *)
Theorem C69_vendored_constants (V : vendored) (fuel retries : nat) :
  List.In V [:: x5_254_3; x5_254_5; x5_255_3; x5_255_5; x3_64_24_optimized] -> (79 <= fuel)%N -> (64 <= retries)%N ->
  exists s1, generate_constants fuel retries (v_n V) (v_t V) (v_R_F V) (v_R_P V) (v_prime V) (v_start V) =
    Some (v_round_constants V, s1).
Proof. exact (@vendored_constants V fuel retries). Qed.
Theorem C69_vendored_matrices (V : vendored) (PF : prime_field) (fuel retries : nat) :
  List.In V [:: x5_254_3; x5_254_5; x5_255_3; x5_255_5; x3_64_24_optimized] -> pf_p PF = v_prime V ->
  (79 <= fuel)%N -> (64 <= retries)%N ->
  exists s1 s2, generate_constants fuel retries (v_n V) (v_t V) (v_R_F V) (v_R_P V) (v_prime V) (v_start V) =
      Some (v_round_constants V, s1) /\
    create_mds_p PF fuel retries (v_n V) (v_t V) s1 =
      Some (\matrix_(i, j) pf_of PF (nth 0%Z (nth [::] (v_MDS_matrix V) i) j), s2).
Proof. exact (@vendored_matrices V PF fuel retries). Qed.
Theorem C69_vendored_fields (V : vendored) :
  List.In V [:: x5_254_3; x5_254_5; x5_255_3; x5_255_5; x3_64_24_optimized] ->
  exists PF : prime_field, pf_p PF = v_prime V.
Proof. exact (@vendored_fields V). Qed.

Print Assumptions C69_register.
Print Assumptions C69_start.
Print Assumptions C69_bits.
Print Assumptions C69_constants.
Print Assumptions C69_constants_state.
Print Assumptions C69_zero_bits.
Print Assumptions C69_matrix.
Print Assumptions C69_accepted.
Print Assumptions C69_vendored_constants.
Print Assumptions C69_vendored_matrices.
Print Assumptions C69_vendored_fields.
