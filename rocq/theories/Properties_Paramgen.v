(** Properties C31, C32, C38, C39, C48: exponent selection and the round-constant
    transcript.  Statements only; proofs in [AlphaProofs.v] and
    [TranscriptProofs.v]; concrete instances in [ParamgenExamples.v].

    [PF] is an arbitrary prime field with its integer conversions
    ([PrimeField.v]), [Me] an arbitrary implementation of the transcript. *)
From Coq Require Import ZArith NArith String.
From mathcomp Require Import all_ssreflect all_algebra.
From Verif Require Import Base Matrix Params Bytes PrimeField Alpha AlphaProofs Transcript TranscriptProofs.
Import GRing.Theory.
Delimit Scope Z_scope with Z.

(** ** C31 *)
Theorem C31_exponent_bytes (e : N) : (e < 2 ^ 32)%num ->
  size (alpha_to_bytes_le (Exponent e)) = 4 /\ is_bytes (alpha_to_bytes_le (Exponent e)) /\
  le_val (alpha_to_bytes_le (Exponent e)) = e.
Proof. exact: alpha_bytes_exponent. Qed.
Theorem C31_exponent_injective (e e' : N) : (e < 2 ^ 32)%num -> (e' < 2 ^ 32)%num ->
  alpha_to_bytes_le (Exponent e) = alpha_to_bytes_le (Exponent e') -> e = e'.
Proof. exact: alpha_bytes_inj. Qed.
(** The only collision: the encoding is injective on all S-boxes but for this. *)
Theorem C31_inverse_collision (e : N) : (e < 2 ^ 32)%num ->
  alpha_to_bytes_le (Exponent e) = alpha_to_bytes_le Inverse <-> e = (2 ^ 32 - 1)%num.
Proof. exact: alpha_bytes_inverse. Qed.

(** ** C32 *)
Theorem C32_exponent (PF : prime_field) (allow : bool) (e : N) : (128 < pf_p PF)%Z ->
  alpha_generate PF (pf_p PF) allow = Ret (Exponent e) <->
  exists pre post, [/\ odd_exponents = pre ++ N.to_nat e :: post,
    coprime (N.to_nat e) (Z.to_nat (pf_p PF - 1)) &
    forall e', e' \in pre -> ~~ coprime e' (Z.to_nat (pf_p PF - 1))].
Proof. exact: generate_exponent. Qed.
Theorem C32_inverse (PF : prime_field) (allow : bool) : (128 < pf_p PF)%Z ->
  alpha_generate PF (pf_p PF) allow = Ret Inverse <->
  allow = true /\ forall e, e \in odd_exponents -> ~~ coprime e (Z.to_nat (pf_p PF - 1)).
Proof. exact: generate_inverse. Qed.
Theorem C32_panic (PF : prime_field) (allow : bool) : (128 < pf_p PF)%Z ->
  alpha_generate PF (pf_p PF) allow = Panic <->
  allow = false /\ forall e, e \in odd_exponents -> ~~ coprime e (Z.to_nat (pf_p PF - 1)).
Proof. exact: generate_panic. Qed.
(** Primes of every size. *)
Theorem C32_bijective (PF : prime_field) (allow : bool) (e : N) :
  alpha_generate PF (pf_p PF) allow = Ret (Exponent e) ->
  bijective (fun x : PF => (x ^+ N.to_nat e)%R).
Proof. exact: generate_bijective. Qed.

(** ** C38 *)
Theorem C38_messages (L : Type) (Me : merlin) (i : input L) (r : rounds) (a : alpha) (s : tr_state Me) :
  domain_sep i r a s = foldl (fun s lm => tr_append lm.1 lm.2 s) s (messages i r a).
Proof. exact: domain_sep_messages. Qed.
Theorem C38_binding (L : Type) (i j : input L) (r r' : rounds) (a a' : alpha) :
  typed_input i -> typed_input j ->
  messages i r a = messages j r' a' <->
  [/\ in_t i = in_t j, in_M i = in_M j, in_p i = in_p j /\ in_p_limbs i = in_p_limbs j,
      r_F r = r_F r' %[mod 256] /\ r_P r = r_P r' %[mod 256] &
      alpha_to_bytes_le a = alpha_to_bytes_le a'].
Proof. exact: messages_eq. Qed.

(** ** C39 *)
Theorem C39_v1_count (L : Type) (PF : prime_field) (Me : merlin) (i : input L) r a : exists els,
  [/\ v1_generate_arc PF Me i r a = Ret (Rmat (r_P r + r_F r) (in_t i) els),
      size els = ((r_P r + r_F r) * in_t i)%N &
      els = (round_constants PF ((r_P r + r_F r) * in_t i)
               (domain_sep i r a (tr_new Me (str "round-constants"%string)))).1].
Proof. exact: v1_arcE. Qed.
Theorem C39_v2_count (L : Type) (PF : prime_field) (Me : merlin) (i : input L) r a : exists els,
  [/\ v2_generate_arc PF Me i r a = Ret (Rmat (r_F r * in_t i + r_P r) 1 els),
      size els = (r_F r * in_t i + r_P r)%N &
      els = (round_constants PF (r_F r * in_t i + r_P r)
               (domain_sep i r a (tr_new Me (str "round-constants"%string)))).1].
Proof. exact: v2_arcE. Qed.
Theorem C39_v2_prefix_of_v1 (L : Type) (PF : prime_field) (Me : merlin) (i : input L) r a m1 m2 :
  0 < in_t i ->
  v1_generate_arc PF Me i r a = Ret m1 -> v2_generate_arc PF Me i r a = Ret m2 ->
  elements m2 = take (r_F r * in_t i + r_P r) (elements m1).
Proof. exact: v2_prefix_v1. Qed.
Theorem C39_reduced (PF : prime_field) (Me : merlin) n (s : tr_state Me) (c : PF) :
  c \in (round_constants PF n s).1 ->
  exists b, [/\ size b = size_in_bytes PF, is_bytes b &
                pf_to c = (Z.of_N (le_val b) mod pf_p PF)%Z].
Proof. exact: round_constants_reduced. Qed.

(** ** C48 *)
Theorem C48_sampled_bits (PF : prime_field) :
  (modulus_bits PF + 128 <= 8 * size_in_bytes PF)%N.
Proof. exact: sampled_bits. Qed.
Theorem C48_bias (PF : prime_field) (r : Z) : (0 <= r < pf_p PF)%Z ->
  let N := (2 ^ (8 * Z.of_nat (size_in_bytes PF)))%Z in
  exists n,
  [/\ forall x, (0 <= x < N /\ x mod pf_p PF = r)%Z <->
                exists j, (0 <= j < n)%Z /\ x = (r + pf_p PF * j)%Z,
      (n = N / pf_p PF \/ n = N / pf_p PF + 1)%Z & (2 ^ 128 <= N / pf_p PF)%Z].
Proof. exact: sampling_bias. Qed.

Print Assumptions C31_exponent_bytes.
Print Assumptions C31_exponent_injective.
Print Assumptions C31_inverse_collision.
Print Assumptions C32_exponent.
Print Assumptions C32_inverse.
Print Assumptions C32_panic.
Print Assumptions C32_bijective.
Print Assumptions C38_messages.
Print Assumptions C38_binding.
Print Assumptions C39_v1_count.
Print Assumptions C39_v2_count.
Print Assumptions C39_v2_prefix_of_v1.
Print Assumptions C39_reduced.
Print Assumptions C48_sampled_bits.
Print Assumptions C48_bias.
